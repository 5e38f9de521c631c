(** C51-C53: the shipped 64-bit adder, subtracter and negation. *)
From Verif Require Import Netlist Cuts ZBits Net_adder64 Net_sub64 Net_neg64 Cert_adder64 Cert_sub64 Cert_neg64.
Open Scope Z_scope.
Open Scope list_scope.

(** [build_adder64], [build_sub64], [build_neg64]: /repo/src/circuits/arithmetic/mod.rs 10, 11, 12. *)
Definition build_adder64 (md : mode) : nat -> heap -> res unit * heap := build_from_bristol md adder64.
Definition build_sub64 (md : mode) : nat -> heap -> res unit * heap := build_from_bristol md sub64.
Definition build_neg64 (md : mode) : nat -> heap -> res unit * heap := build_from_bristol md neg64.

(** A builder of a circuit with a given number of inputs and outputs that computes [f], as seen by its callers; see [builds]. *)
Definition good_builder (build : nat -> heap -> res unit * heap) (nin nout : N) (f : list bool -> list bool) : Prop :=
  forall md' h l, target h l -> exists h', build l h = (Ok tt, h') /\
    inputs_of h' l = Ok nin /\ outputs_of h' l = Ok nout /\ dinv h' /\ uncalled h' l /\
    (forall l' c, l' <> l -> h_circ h !! l' = Some c -> h_circ h' !! l' = Some c) /\
    (forall inputs, N.of_nat (length inputs) = nin -> computes h' l inputs (f inputs)) /\
    exists F, forall fuel inputs, (F <= fuel)%nat -> N.of_nat (length inputs) = nin -> eval_output md' h' fuel l inputs = Ok (f inputs).
Lemma builds_good n f md : builds n f -> good_builder (build_from_bristol md n) (nl_in n) (nl_out n) f.
Proof. intros H md' h l T. exact (H md md' h l T). Qed.

(** A netlist whose checks succeed and that computes [f] on paper. *)
Definition nl_good (n : netlist) (f : list bool -> list bool) : Prop := hdr_ok n = true /\ gates_ok n = true /\ nl_computes n f.
Lemma good_nl n f md : nl_good n f -> good_builder (build_from_bristol md n) (nl_in n) (nl_out n) f.
Proof. intros (H1 & H2 & H3). by apply builds_good, nl_builds. Qed.

(** The values of the wires of a word. *)
Lemma map_nseq_app (v : N -> bool) a k m : map v (nseq a (k + m)) = map v (nseq a k) ++ map v (nseq (a + N.of_nat k) m).
Proof.
  rewrite <- map_app. f_equal. revert a. induction k as [|k IH]; intros a; [by rewrite N.add_0_r|]. cbn [Nat.add nseq app]. f_equal.
  rewrite IH. do 2 f_equal. lia.
Qed.
Definition word (v : N -> bool) (a : N) : Z := zval (map v (nseq a 64)).
Lemma take_word (v : N -> bool) a : zval (take 64 (map v (nseq a 128))) = word v a.
Proof. change 128%nat with (64 + 64)%nat. rewrite map_nseq_app, take_app_alt; [done|]. by rewrite map_length, nseq_length. Qed.
Lemma drop_word (v : N -> bool) a : zval (drop 64 (map v (nseq a 128))) = word v (a + 64).
Proof. change 128%nat with (64 + 64)%nat. rewrite map_nseq_app, drop_app_alt; [done|]. by rewrite map_length, nseq_length. Qed.
Lemma word_zbits (v : N -> bool) a z : (2 ^ 64 | z - word v a) -> map v (nseq a 64) = zbits 64 z.
Proof.
  intros [k H]. rewrite <- (zbits_zval (map v (nseq a 64)) 64) by (by rewrite map_length, nseq_length). apply zbits_inj. fold (word v a).
  change (two_p 64) with (2 ^ 64).
  replace z with (word v a + k * 2 ^ 64) by lia. by rewrite Z.mod_add.
Qed.

(** * C51 *)
Lemma adder64_good : nl_good adder64
  (fun inputs => zbits 64 (zval (take 64 inputs) + zval (drop 64 inputs))).
Proof.
  split; [vm_compute; reflexivity|]. split; [vm_compute; reflexivity|].
  intros v Hs. change (nl_outs adder64) with (nseq 440 64). change (N.to_nat (nl_in adder64)) with 128%nat. rewrite take_word, drop_word.
  apply word_zbits.
  pose proof (lin_sound (2 ^ 64) v (gate_tree adder64_gates) adder64_facts 0
    (word_terms 1 (nseq 0 64) ++ word_terms 1 (nseq 64 64) ++ word_terms (-1) (nseq 440 64)) ltac:(done) (gate_tree_sat _ _ Hs)) as L.
  rewrite !lin_eval_app, !word_terms_eval in L. unfold word.
  match type of L with _ -> (_ | ?A) => match goal with |- (_ | ?B) => replace B with A by (rewrite N.add_0_l; lia) end end.
  apply L. vm_compute. reflexivity.
Qed.
Theorem C51_adder64 md : good_builder (build_adder64 md) 128 64 (fun inputs => zbits 64 (zval (take 64 inputs) + zval (drop 64 inputs))).
Proof. exact (good_nl _ _ md adder64_good). Qed.
(** The inputs and outputs as words of any integers (unsigned, or signed in two's complement). *)
Lemma two_words a b : let inputs := zbits 64 a ++ zbits 64 b in
  length inputs = 128%nat /\ zval (take 64 inputs) = a mod 2 ^ 64 /\ zval (drop 64 inputs) = b mod 2 ^ 64.
Proof.
  cbn zeta. rewrite app_length, !zbits_length, take_app_alt, drop_app_alt by (by rewrite zbits_length). by rewrite !zval_zbits.
Qed.
Lemma zbits64_eq a b : a mod 2 ^ 64 = b mod 2 ^ 64 -> zbits 64 a = zbits 64 b.
Proof. apply (zbits_inj 64). Qed.
Theorem C51_words md md' h l : target h l -> exists h', build_adder64 md l h = (Ok tt, h') /\
  exists F, forall fuel a b, (F <= fuel)%nat -> eval_output md' h' fuel l (zbits 64 a ++ zbits 64 b) = Ok (zbits 64 (a + b)).
Proof.
  intros T. destruct (C51_adder64 md md' h l T) as (h' & E & _ & _ & _ & _ & _ & _ & F & HF). exists h'. split; [done|]. exists F.
  intros fuel a b Hf. destruct (two_words a b) as (L & Ha & Hb). rewrite HF; [|done|by rewrite L]. rewrite Ha, Hb. f_equal. apply zbits64_eq.
  by rewrite <- Zplus_mod.
Qed.

(** * C52 *)
Lemma sub64_good : nl_good sub64
  (fun inputs => zbits 64 (zval (take 64 inputs) - zval (drop 64 inputs))).
Proof.
  split; [vm_compute; reflexivity|]. split; [vm_compute; reflexivity|].
  intros v Hs. change (nl_outs sub64) with (nseq 503 64). change (N.to_nat (nl_in sub64)) with 128%nat. rewrite take_word, drop_word.
  apply word_zbits.
  pose proof (lin_sound (2 ^ 64) v (gate_tree sub64_gates) sub64_facts 0
    (word_terms 1 (nseq 0 64) ++ word_terms (-1) (nseq 64 64) ++ word_terms (-1) (nseq 503 64)) ltac:(done) (gate_tree_sat _ _ Hs)) as L.
  rewrite !lin_eval_app, !word_terms_eval in L. unfold word.
  match type of L with _ -> (_ | ?A) => match goal with |- (_ | ?B) => replace B with A by (rewrite N.add_0_l; lia) end end.
  apply L. vm_compute. reflexivity.
Qed.
Theorem C52_sub64 md : good_builder (build_sub64 md) 128 64 (fun inputs => zbits 64 (zval (take 64 inputs) - zval (drop 64 inputs))).
Proof. exact (good_nl _ _ md sub64_good). Qed.
Theorem C52_words md md' h l : target h l -> exists h', build_sub64 md l h = (Ok tt, h') /\
  exists F, forall fuel a b, (F <= fuel)%nat -> eval_output md' h' fuel l (zbits 64 a ++ zbits 64 b) = Ok (zbits 64 (a - b)).
Proof.
  intros T. destruct (C52_sub64 md md' h l T) as (h' & E & _ & _ & _ & _ & _ & _ & F & HF). exists h'. split; [done|]. exists F.
  intros fuel a b Hf. destruct (two_words a b) as (L & Ha & Hb). rewrite HF; [|done|by rewrite L]. rewrite Ha, Hb. f_equal. apply zbits64_eq.
  by rewrite <- Zminus_mod.
Qed.

(** * C53 *)
Lemma neg64_good : nl_good neg64
  (fun inputs => zbits 64 (- zval inputs)).
Proof.
  split; [vm_compute; reflexivity|]. split; [vm_compute; reflexivity|].
  intros v Hs. change (nl_outs neg64) with (nseq 190 64). change (N.to_nat (nl_in neg64)) with 64%nat. apply word_zbits.
  pose proof (lin_sound (2 ^ 64) v (gate_tree neg64_gates) neg64_facts (2 ^ 64)
    (word_terms (-1) (nseq 0 64) ++ word_terms (-1) (nseq 190 64)) ltac:(done) (gate_tree_sat _ _ Hs)) as L.
  rewrite !lin_eval_app, !word_terms_eval in L. unfold word.
  match type of L with _ -> (_ | ?A) => match goal with |- (_ | ?B) => replace B with (A - 2 ^ 64) by lia end end.
  apply Z.divide_sub_r; [|apply Z.divide_refl]. apply L. vm_compute. reflexivity.
Qed.
Theorem C53_neg64 md : good_builder (build_neg64 md) 64 64 (fun inputs => zbits 64 (- zval inputs)).
Proof. exact (good_nl _ _ md neg64_good). Qed.
Theorem C53_words md md' h l : target h l -> exists h', build_neg64 md l h = (Ok tt, h') /\
  exists F, forall fuel a, (F <= fuel)%nat -> eval_output md' h' fuel l (zbits 64 a) = Ok (zbits 64 (- a)).
Proof.
  intros T. destruct (C53_neg64 md md' h l T) as (h' & E & _ & _ & _ & _ & _ & _ & F & HF). exists h'. split; [done|]. exists F.
  intros fuel a Hf. rewrite HF; [|done|by rewrite zbits_length]. f_equal. apply zbits64_eq. rewrite zval_zbits. change (two_p 64) with (2 ^ 64).
  rewrite <- !(Z.sub_0_l). rewrite (Zminus_mod 0 a). by rewrite Z.mod_0_l by done.
Qed.

(** The builders run in the model: reading the text, line by line, into circuit 0 of [blank] and evaluating it. The target of the theorems is there. *)
Definition run_built (build : nat -> heap -> res unit * heap) (fuel : nat) (inputs : list bool) : option (list bool) :=
  match build 0%nat blank with (Ok tt, h) => match eval_output Debug h fuel 0 inputs with Ok bs => Some bs | _ => None end | _ => None end.
Example C53_example : target blank 0 /\ run_built (build_neg64 Debug) 300 (zbits 64 1000) = Some (zbits 64 (-1000)).
Proof. split; [apply blank_target; lia|]. vm_compute. reflexivity. Qed.
Example C51_example : target blank 0 /\ run_built (build_adder64 Debug) 300 (zbits 64 (2 ^ 63 + 5) ++ zbits 64 (2 ^ 63 + 7)) = Some (zbits 64 12).
Proof. split; [apply blank_target; lia|]. vm_compute. reflexivity. Qed.
Example C52_example : target blank 0 /\ run_built (build_sub64 Debug) 300 (zbits 64 5 ++ zbits 64 7) = Some (zbits 64 (-2)).
Proof. split; [apply blank_target; lia|]. vm_compute. reflexivity. Qed.
