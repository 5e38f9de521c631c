(** C55, C58: the shipped 64-bit dividers. *)
From Verif Require Import Netlist Cuts Rows ZBits Net_udivide64 Cert_udivide64 Net_divide64 Cert_divide64 Prop_Arith64.
Open Scope Z_scope.
Open Scope list_scope.

(** [build_divide_signed_64]: /repo/src/circuits/arithmetic/mod.rs 14. *)
Definition build_divide_signed_64 (md : mode) : nat -> heap -> res unit * heap := build_from_bristol md divide64.
(** [build_divide_unsigned_64]: /repo/src/circuits/arithmetic/mod.rs 15. *)
Definition build_divide_unsigned_64 (md : mode) : nat -> heap -> res unit * heap := build_from_bristol md udivide64.

(** Wires that copy others. *)
Fixpoint copies_ok (T : ptree cg) (os ws : list N) (cuts : list cut) : bool :=
  match os, ws, cuts with
  | [], [], [] => true
  | o :: os, w :: ws, c :: cuts => lcut T c [LW o; LW w] (fun bs => match bs with [x; y] => eqb x y | _ => false end) && copies_ok T os ws cuts
  | _, _, _ => false
  end.
Lemma copies_sound v T : tree_sat v T -> forall os ws cuts, copies_ok T os ws cuts = true -> map v os = map v ws.
Proof.
  intros HT. induction os as [|o os IH]; intros [|w ws] [|c cuts] H; try done. cbn [copies_ok] in H. apply andb_true_iff in H as [H1 H2].
  apply (lcut_sound v) in H1; [|done]. cbn [map lval] in H1. apply eqb_prop in H1. cbn [map]. by rewrite H1, (IH _ _ H2).
Qed.
Lemma udivide64_checks : let T := gate_tree udivide64_gates in
  stages_ok T (rev (nseq 0 64)) [] [] (nseq 64 64) udivide64_ors udivide64_stages && ors_ok T (nseq 65 63) udivide64_ors &&
  copies_ok T (nseq 17016 64) (rev (map us_q udivide64_stages)) udivide64_outs = true.
Proof. vm_compute. reflexivity. Qed.

(** * C55, unsigned *)
Lemma word_range v a : 0 <= word v a < 2 ^ 64.
Proof. unfold word. pose proof (zval_range (map v (nseq a 64))) as H. rewrite map_length, nseq_length in H. done. Qed.
Lemma udivide64_value v : tree_sat v (gate_tree udivide64_gates) ->
  word v 17016 = if word v 64 =? 0 then 2 ^ 64 - 1 else word v 0 / word v 64.
Proof.
  intros HT. pose proof udivide64_checks as H. cbv zeta in H. apply andb_true_iff in H as [H H3]. apply andb_true_iff in H as [H1 H2].
  pose proof (copies_sound v _ HT _ _ _ H3) as Ho. pose proof (word_range v 64) as R.
  assert (word v 17016 = valm 0 (map v (map us_q udivide64_stages))) as Ew.
  { unfold word. rewrite Ho, map_rev, <- valm_rev, rev_involutive. done. }
  destruct (stages_sound v _ HT _ _ _ _ _ _ (word v 64) 0 0 H1 H2 eq_refl) as [S1 S2].
  { cbn [map zval length]. change (two_p 0) with 1. rewrite Z.mul_1_l. done. }
  destruct (Z.eqb_spec (word v 64) 0) as [E|E].
  - specialize (S2 E). rewrite Ew. assert (length (map us_q udivide64_stages) = 64%nat) as L by done. clear -S2 L.
    assert (map v (map us_q udivide64_stages) = repeat true 64) as ->; [|done]. rewrite <- L. clear L.
    induction S2 as [|w ws Hw _ IH]; [done|]. cbn [map length repeat]. by rewrite Hw, IH.
  - destruct S1 as (r & Er & Hr); [lia|done|change (0 < word v 64); lia|]. rewrite map_rev, valm_rev in Er. fold (word v 0) in Er. rewrite <- Ew in Er.
    rewrite Er. rewrite Z.div_add_l by done. rewrite (Z.div_small r) by done. lia.
Qed.
Lemma udivide64_good : nl_good udivide64
  (fun inputs => let a := zval (take 64 inputs) in let b := zval (drop 64 inputs) in zbits 64 (if b =? 0 then 2 ^ 64 - 1 else a / b)).
Proof.
  split; [vm_compute; reflexivity|]. split; [vm_compute; reflexivity|].
  intros v Hs. change (nl_outs udivide64) with (nseq 17016 64). change (N.to_nat (nl_in udivide64)) with 128%nat. rewrite take_word, drop_word. cbv zeta.
  pose proof (gate_tree_sat _ _ Hs) as HT. change (nl_gates udivide64) with udivide64_gates in HT.
  apply word_zbits. rewrite (udivide64_value v HT), N.add_0_l, Z.sub_diag. apply Z.divide_0_r.
Qed.
(** The quotient of unsigned integers, rounded down; all ones when the divisor is 0. *)
Theorem C55_unsigned md : good_builder (build_divide_unsigned_64 md) 128 64
  (fun inputs => let a := zval (take 64 inputs) in let b := zval (drop 64 inputs) in zbits 64 (if b =? 0 then 2 ^ 64 - 1 else a / b)).
Proof. exact (good_nl _ _ md udivide64_good). Qed.
Theorem C55_unsigned_words md md' h l : target h l -> exists h', build_divide_unsigned_64 md l h = (Ok tt, h') /\
  exists F, forall fuel a b, (F <= fuel)%nat -> 0 <= a < 2 ^ 64 -> 0 < b < 2 ^ 64 ->
    eval_output md' h' fuel l (zbits 64 a ++ zbits 64 b) = Ok (zbits 64 (a / b)).
Proof.
  intros T. destruct (C55_unsigned md md' h l T) as (h' & E & _ & _ & _ & _ & _ & _ & F & HF). exists h'. split; [done|]. exists F.
  intros fuel a b Hf Ha Hb. destruct (two_words a b) as (L & Ea & Eb). rewrite HF; [|done|by rewrite L]. rewrite Ea, Eb. cbv zeta.
  rewrite !Z.mod_small by lia. destruct (Z.eqb_spec b 0); [lia|done].
Qed.

(** * C55, signed *)
(** The signed value of a 64-bit word. *)
Definition signed64 (x : Z) : Z := if x <? 2 ^ 63 then x else x - 2 ^ 64.
Definition neg_ok (T : ptree cg) (fs : list lin_fact) (xs ys : list N) : bool :=
  lin_check (2 ^ 64) T fs 0 (word_terms (-1) xs ++ word_terms (-1) ys) && (length xs =? 64)%nat && (length ys =? 64)%nat.
Lemma neg_sound v T fs xs ys : tree_sat v T -> neg_ok T fs xs ys = true ->
  cong64 (zval (map v ys)) (- zval (map v xs)) /\ length (map v xs) = 64%nat /\ length (map v ys) = 64%nat.
Proof.
  intros HT H. unfold neg_ok in H. apply andb_true_iff in H as [H H3]. apply andb_true_iff in H as [H1 H2]. apply Nat.eqb_eq in H2, H3.
  rewrite !map_length. split; [|done]. apply (lin_sound _ v) in H1; [|done|done]. rewrite lin_eval_app, !word_terms_eval in H1.
  unfold cong64. apply Z.divide_opp_r in H1. match goal with |- (_ | ?A) => match type of H1 with (_ | ?B) => replace A with B by lia end end. done.
Qed.
Lemma lval_mux v T s xs ys ns cuts : tree_sat v T -> mux_ok T (LW s) (map LW xs) (map LW ys) (map LW ns) cuts = true ->
  map v ns = if v s then map v xs else map v ys.
Proof. intros HT H. destruct (mux_sound v T _ HT _ _ _ _ H) as (_ & _ & M). rewrite !map_lval_LW in M. exact M. Qed.
Definition is_xor (T : ptree cg) (a b o : N) : bool := match tget T o with Some (CX x y _) => (x =? a)%N && (y =? b)%N | _ => false end.
Lemma is_xor_sound v T a b o : tree_sat v T -> is_xor T a b o = true -> v o = xorb (v a) (v b).
Proof.
  intros HT H. unfold is_xor in H. destruct (tget T o) as [ [x y r|x y r|x r|x r]|] eqn:E; try done. apply andb_true_iff in H as [E1 E2].
  apply N.eqb_eq in E1, E2. subst. destruct (HT _ _ E) as [S1 S2]. cbn [sat cg_out] in *. by subst.
Qed.
Lemma divide64_checks : let T := gate_tree divide64_gates in
  neg_ok T divide64_neg_a (nseq 0 64) divide64_na && neg_ok T divide64_neg_b (nseq 64 64) divide64_nb &&
  mux_ok T (LW 63) (map LW divide64_na) (map LW (nseq 0 64)) (map LW divide64_A) divide64_abs_a &&
  mux_ok T (LW 127) (map LW divide64_nb) (map LW (nseq 64 64)) (map LW divide64_D) divide64_abs_b &&
  neg_ok T divide64_neg_d divide64_D divide64_nd && is_inv T 129 divide64_q &&
  srows_ok T (map LW (rev divide64_A)) (LW divide64_q) (map LW divide64_nd) divide64_D divide64_rows &&
  neg_ok T divide64_neg_q (rev (map sr_q divide64_rows)) divide64_nq &&
  mux_ok T (LW 128) (map LW divide64_nq) (map LW (rev (map sr_q divide64_rows))) (map LW (nseq 29990 64)) divide64_outs &&
  is_xor T 63 127 128 = true.
Proof. vm_compute. reflexivity. Qed.
Lemma sign64 (v : N -> bool) a : v (a + 63)%N = (2 ^ 63 <=? word v a).
Proof.
  apply (sign_bit_top (map v (nseq a 64))); [by rewrite map_length, nseq_length| |done]. change 64%nat with (63 + 1)%nat. rewrite map_nseq_app.
  cbn [nseq map]. by rewrite last_snoc.
Qed.
Lemma abs64 (xs ns : list bool) (s : bool) x : length ns = 64%nat -> cong64 (zval ns) (- zval xs) -> zval xs = x -> 0 <= x < 2 ^ 64 -> s = (2 ^ 63 <=? x) ->
  zval (if s then ns else xs) = Z.abs (signed64 x).
Proof.
  intros L [k C] Hx Hr ->. unfold signed64. pose proof (zval_range ns) as H. rewrite L in H. change (two_p 64) with (2 ^ 64) in H.
  destruct (Z.leb_spec (2 ^ 63) x), (Z.ltb_spec x (2 ^ 63)); lia.
Qed.
(** What the circuit gives for a zero divisor. *)
Definition by_zero (a : Z) : Z := if 0 <=? a then -1 else if a =? - 2 ^ 63 then 2 else 1.
Lemma divide64_value v : tree_sat v (gate_tree divide64_gates) ->
  let a := signed64 (word v 0) in let b := signed64 (word v 64) in
  cong64 (word v 29990) (if b =? 0 then by_zero a else Z.quot a b).
Proof.
  intros HT. pose proof divide64_checks as H. cbv zeta in H. cbv zeta.
  apply andb_true_iff in H as [H Hs]. apply andb_true_iff in H as [H Ho]. apply andb_true_iff in H as [H Hq]. apply andb_true_iff in H as [H Hr].
  apply andb_true_iff in H as [H Hi]. apply andb_true_iff in H as [H Hd]. apply andb_true_iff in H as [H HD]. apply andb_true_iff in H as [H HA].
  apply andb_true_iff in H as [Ha Hb].
  set (T := gate_tree divide64_gates) in *.
  apply (neg_sound v) in Ha as (Ca & La & La'); [|done]. apply (neg_sound v) in Hb as (Cb & Lb & Lb'); [|done].
  apply (neg_sound v) in Hd as (Cd & Ld & Ld'); [|done]. apply (neg_sound v) in Hq as (Cq & Lq & Lq'); [|done].
  apply (lval_mux v) in HA; [|done]. apply (lval_mux v) in HD; [|done]. apply (lval_mux v) in Ho; [|done].
  apply (is_inv_sound v) in Hi; [|done].
  apply (is_xor_sound v) in Hs as Es; [|done].
  clear Hs. pose proof (word_range v 0) as R0. pose proof (word_range v 64) as R1.
  pose proof (sign64 v 0) as S0. pose proof (sign64 v 64) as S1. change (0 + 63)%N with 63%N in S0. change (64 + 63)%N with 127%N in S1.
  assert (zval (map v divide64_A) = Z.abs (signed64 (word v 0))) as EA by (rewrite HA; by apply abs64).
  assert (zval (map v divide64_D) = Z.abs (signed64 (word v 64))) as ED by (rewrite HD; by apply abs64).
  assert (forall x, 0 <= x < 2 ^ 64 -> - 2 ^ 63 <= signed64 x < 2 ^ 63 /\ ((2 ^ 63 <=? x) = (signed64 x <? 0))) as Hsg.
  { intros x Hx. unfold signed64. destruct (Z.ltb_spec x (2 ^ 63)), (Z.leb_spec (2 ^ 63) x); [lia|split; [lia|symmetry; apply Z.ltb_ge; lia]|split; [lia|symmetry; apply Z.ltb_lt; lia]|lia]. }
  destruct (Hsg _ R0) as [Rg0 Sg0]. destruct (Hsg _ R1) as [Rg1 Sg1]. rewrite Sg0 in S0. rewrite Sg1 in S1.
  set (a := signed64 (word v 0)) in *. set (b := signed64 (word v 64)) in *.
  set (Q := zval (map v (rev (map sr_q divide64_rows)))) in *.
  assert (EQ : Q = valm 0 (map v (map sr_q divide64_rows))) by (unfold Q; rewrite map_rev, <- valm_rev, rev_involutive; reflexivity).
  assert (EP : valm 0 (map (lval v) (map LW (rev divide64_A))) = Z.abs a) by (rewrite map_lval_LW, map_rev, valm_rev; exact EA).
  assert (Ew : cong64 (word v 29990) (if xorb (a <? 0) (b <? 0) then - Q else Q)).
  { unfold word. rewrite Ho, Es, S0, S1. destruct (xorb (a <? 0) (b <? 0)); [exact Cq|]. apply cong64_eq. reflexivity. }
  clear Ho HA HD Ca Cb Cq.
  (* the first row is the negated divisor *)
  assert (last (map v divide64_nd) = Some (v 129%N)) as El by reflexivity.
  pose proof (sign_bit _ (- Z.abs b) _ Ld' El ltac:(rewrite <- ED; exact Cd) ltac:(lia)) as E129.
  rewrite ED in Cd.
  destruct (Z.eqb_spec b 0) as [Eb|Eb].
  - assert (Q = 2 ^ 64 - 1 - Z.b2z (Z.abs a =? 2 ^ 63)) as Ez.
    { rewrite EQ. rewrite (srows_zero v T divide64_D HT ltac:(rewrite ED, Eb; done) _ _ _ _ 0 0 Hr).
      - rewrite EP. change (length (map LW (rev divide64_A))) with 64%nat. change (two_p 64) with (2 ^ 64). lia.
      - intros _. rewrite map_lval_LW. rewrite Eb in Cd. exact Cd.
      - done.
      - rewrite EP. lia.
      - done. }
    assert (b <? 0 = false) as Eb0 by (apply Z.ltb_ge; lia). rewrite Eb0, xorb_false_r in Ew. unfold by_zero. rewrite Z.leb_antisym.
    destruct (Z.ltb_spec a 0); cbn [negb].
    + destruct (Z.eqb_spec a (- 2 ^ 63)) as [E|E].
      * rewrite E in Ez. change (Z.b2z _) with 1 in Ez. destruct Ew as [k Hk]. exists (k - 1). rewrite Ez in Hk. lia.
      * destruct (Z.eqb_spec (Z.abs a) (2 ^ 63)); [lia|]. cbn [Z.b2z] in Ez. destruct Ew as [k Hk]. exists (k - 1). lia.
    + destruct (Z.eqb_spec (Z.abs a) (2 ^ 63)); [lia|]. cbn [Z.b2z] in Ez. destruct Ew as [k Hk]. exists (k + 1). lia.
  - destruct (srows_sound v T divide64_D (Z.abs b) HT (eq_sym ED) ltac:(lia) _ _ _ _ (- Z.abs b) 0 0 Hr) as (R & ER & HR).
    + intros _. by rewrite map_lval_LW.
    + lia.
    + cbn [lval]. by rewrite Hi, E129.
    + destruct (Z.ltb_spec (- Z.abs b) 0); lia.
    + rewrite EP, <- EQ in ER. assert (Q = Z.abs a / Z.abs b) as Eq by (rewrite ER, Z.div_add_l, (Z.div_small R) by lia; lia).
      rewrite Z.quot_div by done. rewrite <- Eq. assert (a = 0 -> Q = 0) as Q0 by (intros E; rewrite Eq, E; done).
      clearbody Q. clear ER. match goal with |- cong64 _ ?X => replace X with (if xorb (a <? 0) (b <? 0) then - Q else Q); [done|] end.
      destruct (Z.ltb_spec a 0), (Z.ltb_spec b 0); cbn [xorb].
      * rewrite !Z.sgn_neg by lia. lia.
      * rewrite Z.sgn_neg, Z.sgn_pos by lia. lia.
      * rewrite (Z.sgn_neg b) by lia. destruct (Z.eq_dec a 0) as [E|E]; [rewrite Q0 by done; lia|]. rewrite Z.sgn_pos by lia. lia.
      * rewrite (Z.sgn_pos b) by lia. destruct (Z.eq_dec a 0) as [E|E]; [rewrite Q0 by done; lia|]. rewrite Z.sgn_pos by lia. lia.
Qed.
Lemma divide64_good : nl_good divide64
  (fun inputs => let a := signed64 (zval (take 64 inputs)) in let b := signed64 (zval (drop 64 inputs)) in
     zbits 64 (if b =? 0 then by_zero a else Z.quot a b)).
Proof.
  split; [vm_compute; reflexivity|]. split; [vm_compute; reflexivity|].
  intros v Hs. change (nl_outs divide64) with (nseq 29990 64). change (N.to_nat (nl_in divide64)) with 128%nat. rewrite take_word, drop_word. cbv zeta.
  pose proof (gate_tree_sat _ _ Hs) as HT. change (nl_gates divide64) with divide64_gates in HT.
  apply word_zbits. pose proof (divide64_value v HT) as [k Hk]. cbv zeta in Hk. rewrite N.add_0_l. exists (- k). lia.
Qed.
(** The quotient of signed integers in two's complement, rounded towards 0. *)
Theorem C55_signed md : good_builder (build_divide_signed_64 md) 128 64
  (fun inputs => let a := signed64 (zval (take 64 inputs)) in let b := signed64 (zval (drop 64 inputs)) in
     zbits 64 (if b =? 0 then by_zero a else Z.quot a b)).
Proof. exact (good_nl _ _ md divide64_good). Qed.
Lemma signed64_mod a : - 2 ^ 63 <= a < 2 ^ 63 -> signed64 (a mod 2 ^ 64) = a.
Proof.
  intros H. unfold signed64. destruct (Z.ltb_spec a 0).
  - replace (a mod 2 ^ 64) with (a + 2 ^ 64); [destruct (Z.ltb_spec (a + 2 ^ 64) (2 ^ 63)); lia|].
    apply (Z.mod_unique _ _ (-1)); lia.
  - rewrite Z.mod_small by lia. destruct (Z.ltb_spec a (2 ^ 63)); lia.
Qed.
Theorem C55_signed_words md md' h l : target h l -> exists h', build_divide_signed_64 md l h = (Ok tt, h') /\
  exists F, forall fuel a b, (F <= fuel)%nat -> - 2 ^ 63 <= a < 2 ^ 63 -> - 2 ^ 63 <= b < 2 ^ 63 -> b <> 0 ->
    eval_output md' h' fuel l (zbits 64 a ++ zbits 64 b) = Ok (zbits 64 (Z.quot a b)).
Proof.
  intros T. destruct (C55_signed md md' h l T) as (h' & E & _ & _ & _ & _ & _ & _ & F & HF). exists h'. split; [done|]. exists F.
  intros fuel a b Hf Ha Hb Hn. destruct (two_words a b) as (L & Ea & Eb). rewrite HF; [|done|by rewrite L]. rewrite Ea, Eb. cbv zeta.
  rewrite !signed64_mod by done. destruct (Z.eqb_spec b 0); [lia|done].
Qed.
Example C55_example : target blank 0 /\ Z.quot (-7) 2 = -3 /\ Z.quot 7 (-2) = -3 /\ (2 ^ 64 - 1) / 10 = 1844674407370955161.
Proof. split; [apply blank_target; lia|]. done. Qed.

(** * C58: what the dividers do where the quotient is not defined or does not fit. *)
Theorem C58_unsigned_by_zero md md' h l : target h l -> exists h', build_divide_unsigned_64 md l h = (Ok tt, h') /\
  exists F, forall fuel a, (F <= fuel)%nat -> eval_output md' h' fuel l (zbits 64 a ++ repeat false 64) = Ok (repeat true 64).
Proof.
  intros T. destruct (C55_unsigned md md' h l T) as (h' & E & _ & _ & _ & _ & _ & _ & F & HF). exists h'. split; [done|]. exists F.
  intros fuel a Hf. change (repeat false 64) with (zbits 64 0). destruct (two_words a 0) as (L & Ea & Eb). rewrite HF; [|done|by rewrite L]. by rewrite Eb.
Qed.
Theorem C58_signed_by_zero md md' h l : target h l -> exists h', build_divide_signed_64 md l h = (Ok tt, h') /\
  exists F, forall fuel a, (F <= fuel)%nat -> - 2 ^ 63 <= a < 2 ^ 63 ->
    eval_output md' h' fuel l (zbits 64 a ++ repeat false 64) =
    Ok (zbits 64 (if 0 <=? a then -1 else if a =? - 2 ^ 63 then 2 else 1)).
Proof.
  intros T. destruct (C55_signed md md' h l T) as (h' & E & _ & _ & _ & _ & _ & _ & F & HF). exists h'. split; [done|]. exists F.
  intros fuel a Hf Ha. change (repeat false 64) with (zbits 64 0). destruct (two_words a 0) as (L & Ea & Eb). rewrite HF; [|done|by rewrite L].
  rewrite Ea, Eb. cbv zeta. rewrite (signed64_mod a) by done. reflexivity.
Qed.
Theorem C58_signed_overflow md md' h l : target h l -> exists h', build_divide_signed_64 md l h = (Ok tt, h') /\
  exists F, forall fuel, (F <= fuel)%nat -> eval_output md' h' fuel l (zbits 64 (- 2 ^ 63) ++ zbits 64 (-1)) = Ok (zbits 64 (- 2 ^ 63)).
Proof.
  intros T. destruct (C55_signed_words md md' h l T) as (h' & E & F & HF). exists h'. split; [done|]. exists F. intros fuel Hf.
  rewrite HF by lia. reflexivity.
Qed.
Example C58_example : target blank 0 /\ - 2 ^ 63 <= -5 < 2 ^ 63 /\ zbits 64 (-1) = repeat true 64.
Proof. split; [apply blank_target; lia|]. split; [lia|reflexivity]. Qed.
