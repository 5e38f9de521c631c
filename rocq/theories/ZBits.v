(** Little-endian bit lists and integers. *)
From Verif Require Export Base.
From Coq Require Import Btauto.
Open Scope list_scope.
Local Open Scope Z_scope.

(** The [n] lowest bits of [z] in two's complement, lowest first. *)
Definition zbits (n : nat) (z : Z) : list bool := map (fun i => Z.testbit z (Z.of_nat i)) (seq 0 n).
(** The natural number with the given bits, lowest first. *)
Fixpoint zval (bits : list bool) : Z := match bits with [] => 0 | b :: bits => Z.b2z b + 2 * zval bits end.
Definition two_p (n : nat) : Z := 2 ^ Z.of_nat n.

Lemma two_p_pos n : 0 < two_p n. Proof. unfold two_p. apply Z.pow_pos_nonneg; lia. Qed.
Lemma two_p_0 : two_p 0 = 1. Proof. done. Qed.
Lemma two_p_S n : two_p (S n) = 2 * two_p n. Proof. unfold two_p. rewrite Nat2Z.inj_succ, Z.pow_succ_r by lia. done. Qed.
Lemma two_p_add a b : two_p (a + b) = two_p a * two_p b. Proof. unfold two_p. rewrite Nat2Z.inj_add, Z.pow_add_r by lia. done. Qed.
Lemma zbits_length n z : length (zbits n z) = n. Proof. unfold zbits. by rewrite map_length, seq_length. Qed.
Lemma zbits_S n z : zbits (S n) z = zbits n z ++ [Z.testbit z (Z.of_nat n)].
Proof. unfold zbits. by rewrite seq_S, map_app. Qed.
Lemma zbits_cons n z : zbits (S n) z = Z.odd z :: zbits n (z / 2).
Proof.
  unfold zbits. cbn [seq map]. rewrite Z.bit0_odd. f_equal. rewrite <- seq_shift, map_map. apply map_ext. intros i.
  rewrite Nat2Z.inj_succ, <- Z.div2_div, Z.div2_spec, Z.shiftr_spec by lia. f_equal.
Qed.
Lemma zbits_lookup n z k : (k < n)%nat -> zbits n z !! k = Some (Z.testbit z (Z.of_nat k)).
Proof. intros H. unfold zbits. rewrite list_lookup_fmap, lookup_seq_lt by done. done. Qed.
Lemma zbits_nth n z k : (k < n)%nat -> nth k (zbits n z) false = Z.testbit z (Z.of_nat k).
Proof. intros H. apply nth_lookup_Some. by apply zbits_lookup. Qed.
Lemma zval_range l : 0 <= zval l < two_p (length l).
Proof. induction l as [|b l IH]; cbn [zval length]; [rewrite two_p_0; lia|]. rewrite two_p_S. destruct b; cbn [Z.b2z]; lia. Qed.
Lemma zval_app a b : zval (a ++ b) = zval a + two_p (length a) * zval b.
Proof.
  induction a as [|x a IH]; [cbn [app length zval]; rewrite two_p_0; lia|].
  cbn [app length zval]. rewrite IH, two_p_S. lia.
Qed.
Lemma zval_zbits n z : zval (zbits n z) = z mod two_p n.
Proof.
  revert z. induction n as [|n IH]; intros z; [rewrite two_p_0, Z.mod_1_r; done|].
  rewrite zbits_cons. cbn [zval]. rewrite IH, two_p_S. pose proof (two_p_pos n).
  rewrite Z.rem_mul_r by lia. rewrite Zmod_odd. unfold Z.b2z. destruct (Z.odd z); lia.
Qed.
Lemma zbits_zval l n : length l = n -> zbits n (zval l) = l.
Proof.
  intros <-. induction l as [|b l IH]; [done|]. cbn [length zval]. rewrite zbits_cons. f_equal.
  - rewrite Z.odd_add_mul_2. by destruct b.
  - replace ((Z.b2z b + 2 * zval l) / 2) with (zval l); [done|]. rewrite Z.add_comm, Z.mul_comm, Z.div_add_l by lia. destruct b; cbn [Z.b2z]; [|rewrite Z.div_0_l by lia; lia].
    change (1 / 2) with 0. lia.
Qed.
Lemma zbits_inj n a b : a mod two_p n = b mod two_p n -> zbits n a = zbits n b.
Proof. intros H. rewrite <- (zbits_zval (zbits n a) n), <- (zbits_zval (zbits n b) n) by apply zbits_length. by rewrite !zval_zbits, H. Qed.
Lemma zbits_mod n a : zbits n (a mod two_p n) = zbits n a.
Proof. apply zbits_inj. apply Z.mod_mod. pose proof (two_p_pos n). lia. Qed.
Lemma zbits_eq n a b : zbits n a = zbits n b <-> a mod two_p n = b mod two_p n.
Proof. split; [|apply zbits_inj]. intros H. by rewrite <- !zval_zbits, H. Qed.
Lemma zval_inj a b : length a = length b -> zval a = zval b -> a = b.
Proof. intros Hl H. rewrite <- (zbits_zval a (length a)), <- (zbits_zval b (length b)) by done. by rewrite Hl, H. Qed.
Lemma zval_small n z : 0 <= z < two_p n -> zval (zbits n z) = z.
Proof. intros H. rewrite zval_zbits. by apply Z.mod_small. Qed.
Lemma zval_testbit l k : (k < length l)%nat -> nth k l false = Z.testbit (zval l) (Z.of_nat k).
Proof. intros H. rewrite <- (zbits_zval l (length l)) at 1 by done. by apply zbits_nth. Qed.
Lemma zval_take l k : zval (take k l) = zval l mod two_p k.
Proof.
  destruct (decide (k <= length l)%nat) as [H|H].
  - rewrite <- (take_drop k l) at 2. rewrite zval_app, take_length, Nat.min_l by done. pose proof (two_p_pos k).
    rewrite Z.mul_comm, Z.mod_add by lia. symmetry. apply Z.mod_small. pose proof (zval_range (take k l)) as Hr. rewrite take_length, Nat.min_l in Hr by done. done.
  - rewrite take_ge by lia. symmetry. apply Z.mod_small. pose proof (zval_range l) as Hr. split; [lia|].
    eapply Z.lt_le_trans; [apply Hr|]. unfold two_p. apply Z.pow_le_mono_r; lia.
Qed.
Lemma zval_drop l k : (k <= length l)%nat -> zval (drop k l) = zval l / two_p k.
Proof.
  intros H. rewrite <- (take_drop k l) at 2. rewrite zval_app, take_length, Nat.min_l by done. pose proof (two_p_pos k).
  rewrite Z.mul_comm, Z.div_add by lia. rewrite Z.div_small; [lia|]. pose proof (zval_range (take k l)) as Hr. rewrite take_length, Nat.min_l in Hr by done. done.
Qed.
Lemma zval_replicate_false n : zval (replicate n false) = 0.
Proof. induction n as [|n IH]; [done|]. cbn [replicate zval]. rewrite IH. done. Qed.
Lemma zval_replicate_true n : zval (replicate n true) = two_p n - 1.
Proof. induction n as [|n IH]; [done|]. cbn [replicate zval]. rewrite IH, two_p_S. cbn [Z.b2z]. lia. Qed.
Lemma zval_negb l : zval (map negb l) = two_p (length l) - 1 - zval l.
Proof. induction l as [|b l IH]; [done|]. cbn [map length zval]. rewrite IH, two_p_S. destruct b; cbn [negb Z.b2z]; lia. Qed.
Lemma zval_andb b l : zval (map (andb b) l) = Z.b2z b * zval l.
Proof. induction l as [|x l IH]; cbn [map zval]; [lia|]. rewrite IH. destruct b, x; cbn [andb Z.b2z]; lia. Qed.
Lemma zmod_S_bit b k : b mod two_p (S k) = b mod two_p k + Z.b2z (Z.testbit b (Z.of_nat k)) * two_p k.
Proof.
  rewrite <- !zval_zbits, zbits_S, zval_app, zbits_length. cbn [zval]. lia.
Qed.

(** The carry into position [k] when adding. *)
Definition carry (a b : Z) (k : nat) : bool := Z.testbit (Z.lxor (a + b) (Z.lxor a b)) (Z.of_nat k).
Lemma carry_spec a b : carry a b 0 = false /\
  forall k, carry a b (S k) = (Z.testbit a (Z.of_nat k) && Z.testbit b (Z.of_nat k)) || ((Z.testbit a (Z.of_nat k) || Z.testbit b (Z.of_nat k)) && carry a b k).
Proof.
  destruct (Z.add_carry_bits a b false) as (c & Hs & Hd & H0). cbn [Z.b2z] in Hs. rewrite Z.add_0_r in Hs.
  assert (Hc : forall k, carry a b k = Z.testbit c (Z.of_nat k)).
  { intros k. unfold carry. rewrite Hs. rewrite !Z.lxor_spec. btauto. }
  split; [rewrite Hc; apply H0|]. intros k. rewrite !Hc, Nat2Z.inj_succ.
  assert (Hd' : Z.testbit (c / 2) (Z.of_nat k) = Z.testbit c (Z.succ (Z.of_nat k))).
  { rewrite <- Z.div2_div, Z.div2_spec, Z.shiftr_spec by lia. f_equal. }
  rewrite <- Hd', Hd. rewrite Z.lor_spec, Z.land_spec, Z.land_spec, Z.lor_spec. btauto.
Qed.
Lemma sum_bit a b k : Z.testbit (a + b) (Z.of_nat k) = xorb (xorb (Z.testbit a (Z.of_nat k)) (Z.testbit b (Z.of_nat k))) (carry a b k).
Proof. unfold carry. rewrite !Z.lxor_spec. btauto. Qed.

(** Signed reading. *)
Definition signed (n : nat) (z : Z) : Z := let r := z mod two_p n in if 2 * r <? two_p n then r else r - two_p n.
Lemma top_bit n z : Z.testbit z (Z.of_nat n) = (two_p n <=? z mod two_p (S n)).
Proof.
  rewrite zmod_S_bit. pose proof (two_p_pos n). pose proof (Z.mod_pos_bound z (two_p n)). destruct (Z.testbit z (Z.of_nat n)); cbn [Z.b2z]; symmetry; [apply Z.leb_le|apply Z.leb_gt]; lia.
Qed.
Lemma top_bit_neg n z : (0 < n)%nat -> Z.testbit z (Z.of_nat (n - 1)) = (signed n z <? 0).
Proof.
  intros H. destruct n as [|n]; [lia|]. replace (S n - 1)%nat with n by lia. rewrite top_bit. unfold signed. rewrite two_p_S.
  pose proof (two_p_pos n). pose proof (Z.mod_pos_bound z (2 * two_p n) ltac:(lia)).
  destruct (Z.ltb_spec (2 * (z mod (2 * two_p n))) (2 * two_p n)); destruct (Z.leb_spec (two_p n) (z mod (2 * two_p n))); lia.
Qed.
Lemma signed_mod n z : (signed n z) mod two_p n = z mod two_p n.
Proof.
  unfold signed. pose proof (two_p_pos n). destruct (_ <? _); [apply Z.mod_mod; lia|]. rewrite <- (Z.mod_add (z mod two_p n - two_p n) 1) by lia.
  replace (z mod two_p n - two_p n + 1 * two_p n) with (z mod two_p n) by lia. apply Z.mod_mod. lia.
Qed.
Lemma signed_range n z : (0 < n)%nat -> - two_p (n - 1) <= signed n z < two_p (n - 1).
Proof.
  intros H. destruct n as [|n]; [lia|]. replace (S n - 1)%nat with n by lia. unfold signed. rewrite two_p_S. pose proof (two_p_pos n).
  pose proof (Z.mod_pos_bound z (2 * two_p n) ltac:(lia)). destruct (Z.ltb_spec (2 * (z mod (2 * two_p n))) (2 * two_p n)); lia.
Qed.
Lemma signed_id n z : (0 < n)%nat -> - two_p (n - 1) <= z < two_p (n - 1) -> signed n z = z.
Proof.
  intros Hn H. destruct n as [|n]; [lia|]. replace (S n - 1)%nat with n in H by lia. unfold signed. rewrite two_p_S. pose proof (two_p_pos n).
  destruct (Z.leb_spec 0 z).
  - rewrite Z.mod_small by lia. destruct (Z.ltb_spec (2 * z) (2 * two_p n)); lia.
  - assert (E : z mod (2 * two_p n) = z + 2 * two_p n). { rewrite <- (Z.mod_add z 1) by lia. rewrite Z.mul_1_l. apply Z.mod_small. lia. }
    rewrite E. destruct (Z.ltb_spec (2 * (z + 2 * two_p n)) (2 * two_p n)); lia.
Qed.
