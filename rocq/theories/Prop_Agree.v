(** Property C87: the 64-bit circuits of [AllocInt] and the shipped netlists agree. *)
From Verif Require Import Netlist Cuts ZBits Prop_Reader Prop_Int Prop_Arith64 Prop_Mult64.
Open Scope Z_scope.

(** Two circuits, in heaps of their own, give the same outputs on all lists of [nin] bits, in both build modes. *)
Definition same_function (nin : nat) (h : heap) (l : nat) (h' : heap) (l' : nat) : Prop :=
  forall md, exists F, forall fuel inputs, (F <= fuel)%nat -> length inputs = nin ->
    exists outs, eval_output md h fuel l inputs = Ok outs /\ eval_output md h' fuel l' inputs = Ok outs.
Lemma one_word bits : length bits = 64%nat -> exists a, bits = zbits 64 a.
Proof. intros H. exists (zval bits). by rewrite zbits_zval. Qed.
Lemma words2 bits : length bits = 128%nat -> exists a b, bits = zbits 64 a ++ zbits 64 b /\ 0 <= a < 2 ^ 64 /\ 0 <= b < 2 ^ 64.
Proof.
  intros H. assert (length (take 64 bits) = 64%nat) as H1 by (rewrite take_length; lia). assert (length (drop 64 bits) = 64%nat) as H2 by (rewrite drop_length; lia).
  exists (zval (take 64 bits)), (zval (drop 64 bits)). rewrite !zbits_zval by done. split; [by rewrite take_drop|].
  pose proof (zval_range (take 64 bits)) as R1. pose proof (zval_range (drop 64 bits)) as R2. rewrite H1 in R1. rewrite H2 in R2. done.
Qed.

Lemma zbits_app n m z : zbits (n + m) z = zbits n z ++ zbits m (z / 2 ^ Z.of_nat n).
Proof.
  unfold zbits. rewrite seq_app, map_app. f_equal. rewrite Nat.add_0_l, <- (Nat.add_0_r n) at 1. rewrite <- fmap_add_seq, map_map. apply map_ext. intros i.
  rewrite Z.div_pow2_bits by lia. f_equal. lia.
Qed.

(** Sum, difference, negation, and the product against the second word of the double product. *)
Theorem C87_add md md' h l h0 l0 : BuildEval.fresh h l -> target h0 l0 -> exists h' h0',
  int_program md l 64 2 (IAdd (IVar 0) (IVar 1)) h = (Ok tt, h') /\ build_adder64 md' l0 h0 = (Ok tt, h0') /\ same_function 128 h' l h0' l0.
Proof.
  intros Hf T. destruct (C45_expressions md h l 64 2 (IAdd (IVar 0) (IVar 1))) as (h' & E & _ & _ & Ev); [lia|done|cbn; lia|].
  destruct (C51_words md' Debug h0 l0 T) as (h0' & E0 & _). exists h', h0'. split; [done|]. split; [done|]. intros m. destruct (Ev m) as [d Hd].
  destruct (C51_words md' m h0 l0 T) as (h1 & E1 & F & HF). rewrite E0 in E1. injection E1 as <-. exists (d + F)%nat. intros fuel inputs Hfu Hl.
  destruct (words2 inputs Hl) as (a & b & -> & _). exists (zbits 64 (a + b)). rewrite HF by lia. split; [|done]. specialize (Hd fuel [a; b] ltac:(lia) eq_refl).
  cbn [map concat] in Hd. by rewrite app_nil_r in Hd.
Qed.
Theorem C87_sub md md' h l h0 l0 : BuildEval.fresh h l -> target h0 l0 -> exists h' h0',
  int_program md l 64 2 (ISub (IVar 0) (IVar 1)) h = (Ok tt, h') /\ build_sub64 md' l0 h0 = (Ok tt, h0') /\ same_function 128 h' l h0' l0.
Proof.
  intros Hf T. destruct (C45_expressions md h l 64 2 (ISub (IVar 0) (IVar 1))) as (h' & E & _ & _ & Ev); [lia|done|cbn; lia|].
  destruct (C52_words md' Debug h0 l0 T) as (h0' & E0 & _). exists h', h0'. split; [done|]. split; [done|]. intros m. destruct (Ev m) as [d Hd].
  destruct (C52_words md' m h0 l0 T) as (h1 & E1 & F & HF). rewrite E0 in E1. injection E1 as <-. exists (d + F)%nat. intros fuel inputs Hfu Hl.
  destruct (words2 inputs Hl) as (a & b & -> & _). exists (zbits 64 (a - b)). rewrite HF by lia. split; [|done]. specialize (Hd fuel [a; b] ltac:(lia) eq_refl).
  cbn [map concat] in Hd. by rewrite app_nil_r in Hd.
Qed.
Theorem C87_neg md md' h l h0 l0 : BuildEval.fresh h l -> target h0 l0 -> exists h' h0',
  int_program md l 64 1 (INeg (IVar 0)) h = (Ok tt, h') /\ build_neg64 md' l0 h0 = (Ok tt, h0') /\ same_function 64 h' l h0' l0.
Proof.
  intros Hf T. destruct (C45_expressions md h l 64 1 (INeg (IVar 0))) as (h' & E & _ & _ & Ev); [lia|done|cbn; lia|].
  destruct (C53_words md' Debug h0 l0 T) as (h0' & E0 & _). exists h', h0'. split; [done|]. split; [done|]. intros m. destruct (Ev m) as [d Hd].
  destruct (C53_words md' m h0 l0 T) as (h1 & E1 & F & HF). rewrite E0 in E1. injection E1 as <-. exists (d + F)%nat. intros fuel inputs Hfu Hl.
  destruct (one_word inputs Hl) as (a & ->). exists (zbits 64 (- a)). rewrite HF by lia. split; [|done]. specialize (Hd fuel [a] ltac:(lia) eq_refl).
  cbn [map concat] in Hd. by rewrite app_nil_r in Hd.
Qed.
Theorem C87_mul md md' h l h0 l0 : BuildEval.fresh h l -> target h0 l0 -> exists h' h0',
  int_program md l 64 2 (IMul (IVar 0) (IVar 1)) h = (Ok tt, h') /\ build_mult2_64 md' l0 h0 = (Ok tt, h0') /\
  forall m, exists F, forall fuel inputs, (F <= fuel)%nat -> length inputs = 128%nat ->
    exists low high, eval_output m h' fuel l inputs = Ok low /\ eval_output m h0' fuel l0 inputs = Ok (high ++ low).
Proof.
  intros Hf T. destruct (C45_expressions md h l 64 2 (IMul (IVar 0) (IVar 1))) as (h' & E & _ & _ & Ev); [lia|done|cbn; lia|].
  destruct (C54_words md' Debug h0 l0 T) as (h0' & E0 & _). exists h', h0'. split; [done|]. split; [done|]. intros m. destruct (Ev m) as [d Hd].
  destruct (C54_words md' m h0 l0 T) as (h1 & E1 & F & HF). rewrite E0 in E1. injection E1 as <-. exists (d + F)%nat. intros fuel inputs Hfu Hl.
  destruct (words2 inputs Hl) as (a & b & -> & Ha & Hb). exists (zbits 64 (a * b)), (zbits 64 (a * b / 2 ^ 64)). rewrite HF by (done || lia). split; [|done].
  specialize (Hd fuel [a; b] ltac:(lia) eq_refl). cbn [map concat] in Hd. by rewrite app_nil_r in Hd.
Qed.
(** The double product: the same two words in the other order. *)
Theorem C87_mul_extend md md' h l h0 l0 : base h l -> target h0 l0 -> exists add_mid h1 mid h' l' h0',
  build_add l 128 h = (Ok add_mid, h1) /\ build_mul_extend md l 64 add_mid h1 = (Ok mid, h') /\ get_module h' l mid = Ok l' /\ build_mult2_64 md' l0 h0 = (Ok tt, h0') /\
  forall m, exists F, forall fuel inputs, (F <= fuel)%nat -> length inputs = 128%nat ->
    exists low high, length low = 64%nat /\ length high = 64%nat /\ eval_output m h' fuel l' inputs = Ok (low ++ high) /\ eval_output m h0' fuel l0 inputs = Ok (high ++ low).
Proof.
  intros Hb T. destruct (C41_mul_extend md h l 64 ltac:(lia) Hb) as (am & h1 & mid & h' & E1 & E2 & _ & (l' & Hl & _ & _ & Ev) & _).
  destruct (C54_words md' Debug h0 l0 T) as (h0' & E0 & _). exists am, h1, mid, h', l', h0'. split; [done|]. split; [done|]. split; [done|]. split; [done|].
  intros m. destruct (Ev m) as [d Hd]. destruct (C54_words md' m h0 l0 T) as (h2 & E3 & F & HF). rewrite E0 in E3. injection E3 as <-. exists (d + F)%nat.
  intros fuel inputs Hfu Hli. destruct (words2 inputs Hli) as (a & b & -> & Ha & Hb2). exists (zbits 64 (a * b)), (zbits 64 (a * b / 2 ^ 64)).
  split; [apply zbits_length|]. split; [apply zbits_length|]. rewrite HF by (done || lia). split; [|done]. rewrite Hd by lia. f_equal.
  change (2 ^ Z.of_nat 64) with (2 ^ 64). rewrite !Z.mod_small by done. change (2 * 64)%nat with (64 + 64)%nat. rewrite zbits_app. done.
Qed.
Example C87_example : BuildEval.fresh blank1 0 /\ base blank1 0 /\ target blank 0 /\ length (zbits 64 5 ++ zbits 64 7) = 128%nat /\ zbits 64 (5 * 7 / 2 ^ 64) ++ zbits 64 (5 * 7) <> zbits 128 (5 * 7).
Proof. split; [apply fresh_blank1|]. split; [apply fresh_base, fresh_blank1|]. split; [apply blank_target; lia|]. split; [done|]. by vm_compute. Qed.
