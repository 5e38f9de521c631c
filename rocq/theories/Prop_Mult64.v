(** C54: the shipped 64-bit multiplier with a 128-bit result. *)
From Verif Require Import Netlist Cuts ZBits Net_mult2_64 Cert_mult2_64 Prop_Arith64.
Open Scope Z_scope.
Open Scope list_scope.

(** [build_mult2_64]: /repo/src/circuits/arithmetic/mod.rs 13. *)
Definition build_mult2_64 (md : mode) : nat -> heap -> res unit * heap := build_from_bristol md mult2_64.

(** Partial products: wire [j] of row [i] is the conjunction of input wires [b + i] and [a + j]. *)
Definition pp_row_ok (T : ptree cg) (a b : N) (row : list N) : bool :=
  forallb (fun '(x, w) => match tget T w with Some (CA p q _) => (p =? b)%N && (q =? x)%N | _ => false end)
    (combine (nseq a (length row)) row).
Fixpoint pp_ok (T : ptree cg) (a b : N) (rows : list (list N)) : bool :=
  match rows with [] => true | r :: rs => (length r =? 64)%nat && pp_row_ok T a b r && pp_ok T a (b + 1) rs end.
Lemma pp_row_sound v T row : tree_sat v T -> forall a b, pp_row_ok T a b row = true -> map v row = map (andb (v b)) (map v (nseq a (length row))).
Proof.
  intros HT. unfold pp_row_ok. induction row as [|w row IH]; intros a b; [done|]. cbn [length nseq combine forallb map].
  rewrite andb_true_iff. intros [H1 H2]. f_equal; [|by apply IH]. destruct (tget T w) as [ [p q o|p q o|p o|p o]|] eqn:E; try done.
  destruct (HT _ _ E) as [Hs Ho]. cbn [sat cg_out] in *. subst o. apply andb_true_iff in H1 as [Hp Hq]. apply N.eqb_eq in Hp, Hq. by subst.
Qed.
Fixpoint pp_terms (k : Z) (rows : list (list N)) : lin_terms :=
  match rows with [] => [] | r :: rs => word_terms k r ++ pp_terms (2 * k) rs end.
Lemma pp_terms_eval v T a rows : tree_sat v T -> forall b k, pp_ok T a b rows = true ->
  lin_eval v (pp_terms k rows) = k * (word v a * zval (map v (nseq b (length rows)))).
Proof.
  intros HT. unfold word. set (A := zval (map v (nseq a 64))). induction rows as [|r rs IH]; intros b k; cbn [pp_ok pp_terms length nseq map zval]; [intros _; cbn; lia|].
  rewrite !andb_true_iff. intros ((H1 & H2) & H3). rewrite lin_eval_app, word_terms_eval, (IH _ _ H3), (pp_row_sound v T r HT _ _ H2).
  apply Nat.eqb_eq in H1. rewrite H1, zval_andb. fold A. ring.
Qed.

(** * C54 *)
Lemma mult2_64_good : nl_good mult2_64
  (fun inputs => let p := zval (take 64 inputs) * zval (drop 64 inputs) in zbits 64 (p / 2 ^ 64) ++ zbits 64 p).
Proof.
  split; [vm_compute; reflexivity|]. split; [vm_compute; reflexivity|].
  intros v Hs. change (nl_outs mult2_64) with (nseq 28032 128). change (N.to_nat (nl_in mult2_64)) with 128%nat. rewrite take_word, drop_word. cbv zeta.
  pose proof (gate_tree_sat _ _ Hs) as HT. change (nl_gates mult2_64) with mult2_64_gates in HT.
  assert (pp_ok (gate_tree mult2_64_gates) 0 64 mult2_64_pp && lin_check (2 ^ 128) (gate_tree mult2_64_gates) mult2_64_facts 0
    (pp_terms 1 mult2_64_pp ++ word_terms (-1) (nseq 28096 64 ++ nseq 28032 64)) = true) as Hc by (vm_compute; reflexivity).
  apply andb_true_iff in Hc as [Hp Hc]. apply (lin_sound _ v) in Hc; [|done|done].
  rewrite lin_eval_app, word_terms_eval, (pp_terms_eval v _ 0 mult2_64_pp HT 64 1 Hp) in Hc. change (length mult2_64_pp) with 64%nat in Hc.
  rewrite N.add_0_l. fold (word v 64) in Hc.
  rewrite map_app, zval_app, map_length, nseq_length in Hc. change (two_p 64) with (2 ^ 64) in Hc. fold (word v 28096) in Hc. fold (word v 28032) in Hc.
  change 128%nat with (64 + 64)%nat. rewrite map_nseq_app. change (28032 + N.of_nat 64)%N with 28096%N.
  assert (Hr : forall a, 0 <= word v a < 2 ^ 64).
  { intros a. unfold word. pose proof (zval_range (map v (nseq a 64))) as H. rewrite map_length, nseq_length in H. done. }
  pose proof (Hr 0%N) as R0. pose proof (Hr 64%N) as R1. pose proof (Hr 28032%N) as R2. pose proof (Hr 28096%N) as R3.
  assert (word v 0 * word v 64 = word v 28096 + 2 ^ 64 * word v 28032) as Hm.
  { destruct Hc as [k Hk]. assert (0 <= word v 0 * word v 64 < 2 ^ 128) by (change (2 ^ 128) with (2 ^ 64 * 2 ^ 64); nia).
    change (2 ^ 128) with (2 ^ 64 * 2 ^ 64) in *. set (B := 2 ^ 64) in *. assert (B > 0) by done.
    assert (0 <= word v 28096 + B * word v 28032 < B * B) by nia. assert (k = 0) by nia. nia. }
  rewrite Hm. f_equal; apply word_zbits.
  - rewrite Z.add_comm, Z.mul_comm, Z.div_add_l by done. rewrite (Z.div_small (word v 28096)) by done. rewrite Z.add_0_r, Z.sub_diag. apply Z.divide_0_r.
  - exists (word v 28032). lia.
Qed.
(** The first output word is the high half of the product and the second the low half. *)
Theorem C54_mult2_64 md : good_builder (build_mult2_64 md) 128 128
  (fun inputs => let p := zval (take 64 inputs) * zval (drop 64 inputs) in zbits 64 (p / 2 ^ 64) ++ zbits 64 p).
Proof. exact (good_nl _ _ md mult2_64_good). Qed.
Theorem C54_words md md' h l : target h l -> exists h', build_mult2_64 md l h = (Ok tt, h') /\
  exists F, forall fuel a b, (F <= fuel)%nat -> 0 <= a < 2 ^ 64 -> 0 <= b < 2 ^ 64 ->
    eval_output md' h' fuel l (zbits 64 a ++ zbits 64 b) = Ok (zbits 64 (a * b / 2 ^ 64) ++ zbits 64 (a * b)).
Proof.
  intros T. destruct (C54_mult2_64 md md' h l T) as (h' & E & _ & _ & _ & _ & _ & _ & F & HF). exists h'. split; [done|]. exists F.
  intros fuel a b Hf Ha Hb. destruct (two_words a b) as (L & Ea & Eb). rewrite HF; [|done|by rewrite L]. rewrite Ea, Eb. cbv zeta.
  by rewrite !Z.mod_small.
Qed.
Example C54_example : target blank 0 /\ let v := 2 ^ 64 - 1 in v * v / 2 ^ 64 = 2 ^ 64 - 2 /\ (v * v) mod 2 ^ 64 = 1.
Proof. split; [apply blank_target; lia|]. vm_compute. done. Qed.
