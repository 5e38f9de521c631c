(** Properties C31-C34 and C50: bit, byte and hex conversions, extended gcd, modular inverse. *)
From Coq Require Import Ascii String Znumtheory Zpow_facts.
From Verif Require Import Utils.

(** * C31, C32 *)
(** Number of a little-endian byte / a big-endian byte. *)
Fixpoint le_value (bits : list bool) : N := match bits with [] => 0 | b :: bits => N.b2n b + 2 * le_value bits end.
Definition is_byte (b : N) : Prop := b < 256.

Lemma chunks8_ind (P : list bool -> Prop) : P [] -> (forall v, (0 < length v < 8)%nat -> P v) ->
  (forall ch rest, length ch = 8%nat -> P rest -> P (ch ++ rest)) -> forall v, P v.
Proof.
  intros H0 Hp Hc v. remember (length v) as n eqn:Hn. revert v Hn. induction n as [n IH] using lt_wf_ind. intros v ->.
  destruct (decide (8 <= length v)%nat) as [Hl|Hl].
  - rewrite <- (take_drop 8 v). apply Hc; [by rewrite take_length_le|]. eapply IH; [|done]. rewrite drop_length. lia.
  - destruct v as [|b v]; [done|]. apply Hp. simpl in *. lia.
Qed.
Ltac len8 ch := do 8 (destruct ch as [|? ch]; [done|]); destruct ch; [|done].
Lemma chunks8_app {A} (ch rest : list A) : length ch = 8%nat -> chunks8 (ch ++ rest) = ch :: chunks8 rest.
Proof. intros H. len8 ch. done. Qed.
Lemma chunks8_part {A} (v : list A) : (0 < length v < 8)%nat -> chunks8 v = [v].
Proof. intros [H1 H2]. do 8 (destruct v as [|? v]; [simpl in *; lia || done|]). simpl in H2. lia. Qed.

Lemma byte_le md ch : length ch = 8%nat -> byte_loop md sh_le ch (seq 0 8) 0 = Ok (le_value ch).
Proof. intros H. len8 ch. repeat match goal with b : bool |- _ => destruct b end; reflexivity. Qed.
Lemma byte_be md ch : length ch = 8%nat -> byte_loop md sh_be ch (seq 0 8) 0 = Ok (le_value (rev ch)).
Proof. intros H. len8 ch. repeat match goal with b : bool |- _ => destruct b end; reflexivity. Qed.
Lemma byte_le_part md v : (0 < length v < 8)%nat -> byte_loop md sh_le v (seq 0 8) 0 = Panic PIndex.
Proof.
  intros [H1 H2]. destruct v as [|? v]; [simpl in H1; lia|].
  do 7 (destruct v as [|? v]; [repeat match goal with b : bool |- _ => destruct b end; reflexivity|]). simpl in H2. lia.
Qed.
Lemma byte_be_part md v : (0 < length v < 8)%nat -> byte_loop md sh_be v (seq 0 8) 0 = Panic PIndex.
Proof.
  intros [H1 H2]. destruct v as [|? v]; [simpl in H1; lia|].
  do 7 (destruct v as [|? v]; [repeat match goal with b : bool |- _ => destruct b end; reflexivity|]). simpl in H2. lia.
Qed.

(** The two directions of the specification: bit [i] of byte [k] is bit [8k+i] (little endian) or [8k+7-i] (big endian). *)
Definition bits_of_bytes (pos : nat -> nat) (bytes : list N) (bits : list bool) : Prop :=
  length bits = (8 * length bytes)%nat /\ Forall is_byte bytes /\
  forall k i byte, bytes !! k = Some byte -> (i < 8)%nat -> bits !! (8 * k + pos i)%nat = Some (N.testbit byte (N.of_nat i)).
Definition le_pos (i : nat) : nat := i.
Definition be_pos (i : nat) : nat := (7 - i)%nat.

Lemma bits_of_bytes_cons pos b bytes ch bits : (forall i, i < 8 -> pos i < 8)%nat -> length ch = 8%nat -> is_byte b ->
  (forall i, (i < 8)%nat -> ch !! pos i = Some (N.testbit b (N.of_nat i))) -> bits_of_bytes pos bytes bits ->
  bits_of_bytes pos (b :: bytes) (ch ++ bits).
Proof.
  intros Hpos Hl Hb Hch (H1 & H2 & H3). split; [rewrite app_length; simpl; lia|]. split; [by constructor|].
  intros [|k] i byte Hk Hi; simpl in Hk.
  - injection Hk as <-. rewrite lookup_app_l by (specialize (Hpos i Hi); lia). by apply Hch.
  - rewrite lookup_app_r by lia. replace (8 * S k + pos i - length ch)%nat with (8 * k + pos i)%nat by lia. by apply H3.
Qed.
Lemma bits_of_bytes_uncons pos b bytes bits : (forall i, i < 8 -> pos i < 8)%nat -> bits_of_bytes pos (b :: bytes) bits ->
  exists ch rest, bits = ch ++ rest /\ length ch = 8%nat /\ is_byte b /\ bits_of_bytes pos bytes rest /\
    (forall i, (i < 8)%nat -> ch !! pos i = Some (N.testbit b (N.of_nat i))).
Proof.
  intros Hpos (H1 & H2 & H3). exists (take 8 bits), (drop 8 bits). rewrite take_drop. simpl in H1. inversion H2; subst.
  split; [done|]. split; [rewrite take_length_le; lia|]. split; [done|]. split.
  - split; [rewrite drop_length; lia|]. split; [done|]. intros k i byte Hk Hi. rewrite lookup_drop.
    replace (8 + (8 * k + pos i))%nat with (8 * S k + pos i)%nat by lia. by apply H3.
  - intros i Hi. rewrite lookup_take by (by apply Hpos). by apply (H3 0%nat i b).
Qed.

Lemma byte_testbit_eq b b' : is_byte b -> is_byte b' -> (forall i, (i < 8)%nat -> N.testbit b (N.of_nat i) = N.testbit b' (N.of_nat i)) -> b = b'.
Proof.
  unfold is_byte. intros Hb Hb' H. apply N.bits_inj. intros i. destruct (decide (i < 8)) as [Hi|Hi].
  - specialize (H (N.to_nat i)). rewrite N2Nat.id in H. apply H. lia.
  - rewrite <- (N.mod_small b (2 ^ 8)), <- (N.mod_small b' (2 ^ 8)) by done. by rewrite !N.mod_pow2_bits_high by lia.
Qed.
Lemma bits_of_bytes_fun pos bytes bytes' bits : bits_of_bytes pos bytes bits -> bits_of_bytes pos bytes' bits -> bytes = bytes'.
Proof.
  intros (H1 & H2 & H3) (H1' & H2' & H3'). apply list_eq_same_length with (n := length bytes); [lia|done|].
  intros k b b' Hk Hb Hb'. rewrite Forall_lookup in H2, H2'. apply byte_testbit_eq; [by eapply H2|by eapply H2'|].
  intros i Hi. pose proof (H3 k i b Hb Hi) as E. rewrite (H3' k i b' Hb' Hi) in E. by injection E.
Qed.
Lemma bits_of_bytes_inj pos bytes bits bits' : (forall j, (j < 8)%nat -> exists i, (i < 8)%nat /\ pos i = j) ->
  bits_of_bytes pos bytes bits -> bits_of_bytes pos bytes bits' -> bits = bits'.
Proof.
  intros Hsurj (H1 & H2 & H3) (H1' & H2' & H3'). apply list_eq_same_length with (n := (8 * length bytes)%nat); [done|done|].
  intros j x y Hj Hx Hy. pose proof (Nat.div_mod j 8 ltac:(lia)) as Hdm. pose proof (Nat.mod_upper_bound j 8 ltac:(lia)) as Hm.
  destruct (Hsurj (j mod 8)%nat Hm) as (i & Hi & Hp).
  destruct (lookup_lt_is_Some_2 bytes (j / 8)%nat) as [b Hb]; [lia|].
  pose proof (H3 _ i b Hb Hi) as E. pose proof (H3' _ i b Hb Hi) as E'. rewrite Hp, <- Hdm in E, E'. congruence.
Qed.
Lemma le_pos_ok i : (i < 8)%nat -> (le_pos i < 8)%nat. Proof. done. Qed.
Lemma be_pos_ok i : (i < 8)%nat -> (be_pos i < 8)%nat. Proof. unfold be_pos. lia. Qed.
Lemma le_surj j : (j < 8)%nat -> exists i, (i < 8)%nat /\ le_pos i = j. Proof. eauto. Qed.
Lemma be_surj j : (j < 8)%nat -> exists i, (i < 8)%nat /\ be_pos i = j. Proof. unfold be_pos. exists (7 - j)%nat. lia. Qed.

Lemma lt8 (P : nat -> Prop) : P 0%nat -> P 1%nat -> P 2%nat -> P 3%nat -> P 4%nat -> P 5%nat -> P 6%nat -> P 7%nat -> forall i, (i < 8)%nat -> P i.
Proof. intros. do 8 (destruct i as [|i]; [done|]). lia. Qed.
Lemma bit_at_testbit b i : bit_at b i = N.testbit b (N.of_nat i).
Proof.
  unfold bit_at. rewrite N.testbit_eqb, <- N.shiftr_div_pow2. by rewrite (N.land_ones _ 1).
Qed.

Theorem C31_bytes2bits_le bytes : Forall is_byte bytes -> bits_of_bytes le_pos bytes (bytes2bits_le bytes).
Proof.
  induction 1 as [|b bytes Hb _ IH]; [split; [done|]; split; [done|]; intros k i byte Hk; by rewrite lookup_nil in Hk|]. simpl.
  change (bit_at b 0 :: bit_at b 1 :: bit_at b 2 :: bit_at b 3 :: bit_at b 4 :: bit_at b 5 :: bit_at b 6 :: bit_at b 7 :: ?r)
    with ([bit_at b 0; bit_at b 1; bit_at b 2; bit_at b 3; bit_at b 4; bit_at b 5; bit_at b 6; bit_at b 7] ++ r).
  apply bits_of_bytes_cons; [apply le_pos_ok|done|done| |done].
  apply lt8; simpl; by rewrite bit_at_testbit.
Qed.
Theorem C31_bytes2bits_be bytes : Forall is_byte bytes -> bits_of_bytes be_pos bytes (bytes2bits_be bytes).
Proof.
  induction 1 as [|b bytes Hb _ IH]; [split; [done|]; split; [done|]; intros k i byte Hk; by rewrite lookup_nil in Hk|]. simpl.
  change (bit_at b 7 :: bit_at b 6 :: bit_at b 5 :: bit_at b 4 :: bit_at b 3 :: bit_at b 2 :: bit_at b 1 :: bit_at b 0 :: ?r)
    with ([bit_at b 7; bit_at b 6; bit_at b 5; bit_at b 4; bit_at b 3; bit_at b 2; bit_at b 1; bit_at b 0] ++ r).
  apply bits_of_bytes_cons; [apply be_pos_ok|done|done| |done].
  apply lt8; simpl; by rewrite bit_at_testbit.
Qed.
(** [bits2bytes] succeeds exactly on whole bytes (C32) and then returns the bytes with these bits. *)
Lemma le_value_byte ch : length ch = 8%nat -> is_byte (le_value ch) /\ forall i, (i < 8)%nat -> ch !! le_pos i = Some (N.testbit (le_value ch) (N.of_nat i)).
Proof.
  intros H. len8 ch. split; [|apply lt8]; repeat match goal with b : bool |- _ => destruct b end; reflexivity.
Qed.
Lemma be_value_byte ch : length ch = 8%nat -> is_byte (le_value (rev ch)) /\
  forall i, (i < 8)%nat -> ch !! be_pos i = Some (N.testbit (le_value (rev ch)) (N.of_nat i)).
Proof.
  intros H. len8 ch. split; [|apply lt8]; repeat match goal with b : bool |- _ => destruct b end; reflexivity.
Qed.
Lemma mod8_app (ch rest : list bool) : length ch = 8%nat -> (length (ch ++ rest) mod 8 = length rest mod 8)%nat.
Proof. intros H. rewrite app_length, H. replace (8 + length rest)%nat with (length rest + 1 * 8)%nat by lia. apply Nat.mod_add. lia. Qed.
Theorem C31_bits2bytes_le md bits : (length bits mod 8 = 0)%nat -> exists bytes, bits2bytes_le md bits = Ok bytes /\ bits_of_bytes le_pos bytes bits.
Proof.
  induction bits as [|v Hv|ch rest Hch IH] using chunks8_ind; intros Hm.
  - exists []. split; [done|]. split; [done|]. split; [done|]. intros k i byte Hk. by rewrite lookup_nil in Hk.
  - rewrite Nat.mod_small in Hm by lia. lia.
  - rewrite mod8_app in Hm by done. destruct (IH Hm) as (bytes & E & Hb). exists (le_value ch :: bytes).
    unfold bits2bytes_le in *. rewrite chunks8_app by done. cbn [res_mapM]. rewrite byte_le, E by done. split; [done|].
    destruct (le_value_byte ch Hch). apply bits_of_bytes_cons; auto using le_pos_ok.
Qed.
Theorem C31_bits2bytes_be md bits : (length bits mod 8 = 0)%nat -> exists bytes, bits2bytes_be md bits = Ok bytes /\ bits_of_bytes be_pos bytes bits.
Proof.
  induction bits as [|v Hv|ch rest Hch IH] using chunks8_ind; intros Hm.
  - exists []. split; [done|]. split; [done|]. split; [done|]. intros k i byte Hk. by rewrite lookup_nil in Hk.
  - rewrite Nat.mod_small in Hm by lia. lia.
  - rewrite mod8_app in Hm by done. destruct (IH Hm) as (bytes & E & Hb). exists (le_value (rev ch) :: bytes).
    unfold bits2bytes_be in *. rewrite chunks8_app by done. cbn [res_mapM]. rewrite byte_be, E by done. split; [done|].
    destruct (be_value_byte ch Hch). apply bits_of_bytes_cons; auto using be_pos_ok.
Qed.
Lemma whole_bytes pos bytes bits : bits_of_bytes pos bytes bits -> (length bits mod 8 = 0)%nat.
Proof. intros (H & _). rewrite H, Nat.mul_comm. apply Nat.mod_mul. lia. Qed.
(** The two round trips, in both byte orders. *)
Theorem C31_bytes_round_trip md bytes : Forall is_byte bytes ->
  bits2bytes_le md (bytes2bits_le bytes) = Ok bytes /\ bits2bytes_be md (bytes2bits_be bytes) = Ok bytes.
Proof.
  intros H. pose proof (C31_bytes2bits_le bytes H) as Hl. pose proof (C31_bytes2bits_be bytes H) as Hb.
  destruct (C31_bits2bytes_le md _ (whole_bytes _ _ _ Hl)) as (b1 & E1 & H1).
  destruct (C31_bits2bytes_be md _ (whole_bytes _ _ _ Hb)) as (b2 & E2 & H2).
  rewrite E1, E2, (bits_of_bytes_fun _ _ _ _ H1 Hl), (bits_of_bytes_fun _ _ _ _ H2 Hb). done.
Qed.
Theorem C31_bits_round_trip md bits : (length bits mod 8 = 0)%nat ->
  (exists bytes, bits2bytes_le md bits = Ok bytes /\ bytes2bits_le bytes = bits) /\
  (exists bytes, bits2bytes_be md bits = Ok bytes /\ bytes2bits_be bytes = bits).
Proof.
  intros H. split.
  - destruct (C31_bits2bytes_le md bits H) as (bytes & E & Hb). exists bytes. split; [done|].
    eapply bits_of_bytes_inj; [apply le_surj| |exact Hb]. apply C31_bytes2bits_le, Hb.
  - destruct (C31_bits2bytes_be md bits H) as (bytes & E & Hb). exists bytes. split; [done|].
    eapply bits_of_bytes_inj; [apply be_surj| |exact Hb]. apply C31_bytes2bits_be, Hb.
Qed.
Example C31_example : bits2bytes_le Debug [true; false; false; false; false; false; false; true] = Ok [129] /\
  bytes2bits_be [128; 3] = [true; false; false; false; false; false; false; false; false; false; false; false; false; false; true; true].
Proof. done. Qed.

Theorem C32_panic md bits : (length bits mod 8 <> 0)%nat ->
  bits2bytes_le md bits = Panic PIndex /\ bits2bytes_be md bits = Panic PIndex.
Proof.
  unfold bits2bytes_le, bits2bytes_be. induction bits as [|v Hv|ch rest Hch IH] using chunks8_ind; intros Hm.
  - done.
  - rewrite chunks8_part by done. cbn [res_mapM]. by rewrite byte_le_part, byte_be_part by done.
  - rewrite mod8_app in Hm by done. destruct (IH Hm) as (E1 & E2). rewrite chunks8_app by done. cbn [res_mapM].
    by rewrite byte_le, byte_be, E1, E2 by done.
Qed.
Theorem C32_no_panic md bits : (length bits mod 8 = 0)%nat ->
  is_ok (bits2bytes_le md bits) = true /\ is_ok (bits2bytes_be md bits) = true.
Proof.
  intros H. destruct (C31_bits2bytes_le md bits H) as (? & -> & _), (C31_bits2bytes_be md bits H) as (? & -> & _). done.
Qed.
Example C32_example : bits2bytes_le Release (replicate 9 true) = Panic PIndex.
Proof. by apply C32_panic. Qed.

(** * C33 *)
Definition is_hex (c : ascii) : bool :=
  let n := N_of_ascii c in ((48 <=? n) && (n <=? 57)) || ((65 <=? n) && (n <=? 70)) || ((97 <=? n) && (n <=? 102)).
Fixpoint all_hex (s : string) : bool := match s with EmptyString => true | String c s => is_hex c && all_hex s end.
(** Lower case of one ASCII character and of a string. *)
Definition lower (c : ascii) : ascii := let n := N_of_ascii c in if (65 <=? n) && (n <=? 90) then ascii_of_N (n + 32) else c.
Fixpoint lower_string (s : string) : string := match s with EmptyString => EmptyString | String c s => String (lower c) (lower_string s) end.

Lemma all_ascii (P : ascii -> Prop) : (forall n, n < 256 -> P (ascii_of_N n)) -> forall c, P c.
Proof. intros H c. rewrite <- (ascii_N_embedding c). apply H, N_ascii_bounded. Qed.
Lemma bounded_forall (P : N -> bool) k : forallb P (nrange k) = true -> forall n, n < k -> P n = true.
Proof. intros H n Hn. rewrite forallb_forall in H. by apply H, elem_of_list_In, elem_of_nrange. Qed.

Lemma hex_val_some c i : is_hex c = true -> exists x, hex_val c i = inl x /\ x < 16 /\ hex_digit x = lower c.
Proof.
  destruct c as [ [] [] [] [] [] [] [] []]; intros H; vm_compute in H; try discriminate H; eexists; (split; [reflexivity|]); split; reflexivity.
Qed.
Lemma hex_val_none c i : is_hex c = false -> hex_val c i = inr (HexInvalidChar c i).
Proof. destruct c as [ [] [] [] [] [] [] [] []]; intros H; vm_compute in H; try discriminate H; reflexivity. Qed.
Lemma hex_digit_val x i : x < 16 -> hex_val (hex_digit x) i = inl x.
Proof.
  intros H. assert (Hb : forall y, y < 16 -> (match hex_val (hex_digit y) 0 with inl z => z =? y | inr _ => false end) = true)
    by (apply bounded_forall; vm_compute; done).
  specialize (Hb x H). unfold hex_val in *. repeat case_match; try done; simplify_eq; f_equal; by apply N.eqb_eq.
Qed.
Lemma lor_hex x y : x < 16 -> y < 16 -> N.lor (N.shiftl x 4) y = 16 * x + y.
Proof.
  intros Hx Hy. assert (Hb : forall n, n < 256 -> (N.lor (N.shiftl (n / 16) 4) (n mod 16) =? 16 * (n / 16) + n mod 16) = true)
    by (apply bounded_forall; vm_compute; done).
  specialize (Hb (16 * x + y) ltac:(lia)). apply N.eqb_eq in Hb.
  replace ((16 * x + y) / 16) with x in Hb; [replace ((16 * x + y) mod 16) with y in Hb; [done|]|].
  - symmetry. rewrite N.mul_comm, N.add_comm, N.mod_add by lia. by apply N.mod_small.
  - rewrite N.mul_comm, N.div_add_l, N.div_small by lia. lia.
Qed.
Lemma bytes2hex_length bytes : String.length (bytes2hex bytes) = (2 * length bytes)%nat.
Proof. induction bytes as [|b bytes IH]; simpl; [done|]. rewrite IH. lia. Qed.
Lemma hex_pairs_bytes bytes i : Forall is_byte bytes -> hex_pairs (bytes2hex bytes) i = inl bytes.
Proof.
  intros H. revert i. induction H as [|b bytes Hb _ IH]; intros i; simpl; [done|]. unfold is_byte in Hb.
  assert (b / 16 < 16) by (apply N.div_lt_upper_bound; lia). pose proof (N.mod_upper_bound b 16 ltac:(lia)).
  rewrite !hex_digit_val, IH, lor_hex by done. do 2 f_equal. symmetry. apply N.div_mod. lia.
Qed.
Theorem C33_bytes_round_trip bytes : Forall is_byte bytes -> hex2bytes (bytes2hex bytes) = inl bytes.
Proof.
  intros H. unfold hex2bytes. rewrite bytes2hex_length, Nat.even_mul. simpl. by apply hex_pairs_bytes.
Qed.
Lemma string_pairs_ind (P : string -> Prop) : P EmptyString -> (forall a, P (String a EmptyString)) ->
  (forall a b s, P s -> P (String a (String b s))) -> forall s, P s.
Proof.
  intros H0 H1 H2 s. assert (P s /\ forall a, P (String a s)) as [? _]; [|done].
  induction s as [|c s [IH1 IH2]]; split; auto.
Qed.
(** [hex2bytes] accepts every even-length text of hex digits, and the result re-encodes to the text in lower case. *)
Theorem C33_accepts s : Nat.even (String.length s) = true -> all_hex s = true ->
  exists bytes, hex2bytes s = inl bytes /\ Forall is_byte bytes /\ bytes2hex bytes = lower_string s.
Proof.
  unfold hex2bytes. intros He. rewrite He. revert He. generalize 0. induction s as [|a|a b s IH] using string_pairs_ind; intros i He Ha.
  - exists []. done.
  - done.
  - simpl in *. apply andb_true_iff in Ha as [Ha Hs]. apply andb_true_iff in Hs as [Hb Hs].
    destruct (IH (i + 2) He Hs) as (bytes & E & Hby & Hx). destruct (hex_val_some a i Ha) as (x & Ex & Hx16 & Hxd).
    destruct (hex_val_some b (i + 1) Hb) as (y & Ey & Hy16 & Hyd). rewrite Ex, Ey, E. eexists. split; [done|].
    rewrite lor_hex by done. split; [constructor; [unfold is_byte; lia|done]|]. cbn [bytes2hex lower_string].
    replace ((16 * x + y) / 16) with x; [replace ((16 * x + y) mod 16) with y; [by rewrite Hxd, Hyd, Hx|]|].
    + rewrite N.mul_comm, N.add_comm, N.mod_add by lia. symmetry. by apply N.mod_small.
    + rewrite N.mul_comm, N.div_add_l, N.div_small by lia. lia.
Qed.
(** It rejects every other text, reporting odd length first and otherwise the first character that is no hex digit. *)
Theorem C33_rejects_odd s : Nat.even (String.length s) = false -> hex2bytes s = inr HexOddLength.
Proof. unfold hex2bytes. by intros ->. Qed.
Lemma hex_pairs_bad s : forall i, Nat.even (String.length s) = true -> all_hex s = false ->
  exists c n, hex_pairs s i = inr (HexInvalidChar c (i + N.of_nat n)) /\ String.get n s = Some c /\ is_hex c = false /\
    forall m c', (m < n)%nat -> String.get m s = Some c' -> is_hex c' = true.
Proof.
  induction s as [|a|a b s IH] using string_pairs_ind; intros i He Ha; [done|done|]. simpl in He, Ha. cbn [hex_pairs].
  destruct (is_hex a) eqn:Hxa.
  - destruct (hex_val_some a i Hxa) as (x & -> & _). destruct (is_hex b) eqn:Hxb.
    + destruct (hex_val_some b (i + 1) Hxb) as (y & -> & _). simpl in Ha. destruct (IH (i + 2) He Ha) as (c & n & E & Hg & Hc & Hm).
      rewrite E. exists c, (S (S n)). split; [do 2 f_equal; lia|]. split; [done|]. split; [done|].
      intros [|[|m] ] c' Hlt Hgm; simpl in Hgm; [congruence|congruence|]. eapply (Hm m); [lia|done].
    + rewrite (hex_val_none b _ Hxb). exists b, 1%nat. split; [done|]. split; [done|]. split; [done|].
      intros [|m] c' Hlt Hgm; [|lia]. simpl in Hgm. congruence.
  - rewrite (hex_val_none a _ Hxa). exists a, 0%nat. split; [do 2 f_equal; lia|]. split; [done|]. split; [done|]. lia.
Qed.
Theorem C33_rejects_char s : Nat.even (String.length s) = true -> all_hex s = false ->
  exists c n, hex2bytes s = inr (HexInvalidChar c (N.of_nat n)) /\ String.get n s = Some c /\ is_hex c = false /\
    forall m c', (m < n)%nat -> String.get m s = Some c' -> is_hex c' = true.
Proof. intros He Ha. unfold hex2bytes. rewrite He. by apply (hex_pairs_bad s 0). Qed.
Example C33_example : hex2bytes "0aFf" = inl [10; 255] /\ bytes2hex [10; 255] = "0aff"%string /\
  hex2bytes "0a0" = inr HexOddLength /\ hex2bytes "0g" = inr (HexInvalidChar "g" 1).
Proof. done. Qed.

(** * C34 *)
(** The recursion ends on every pair of integers. *)
Lemma ext_gcd_ok fuel a b : (Z.to_nat (Z.abs b) < fuel)%nat -> exists x y d, ext_gcd fuel a b = Ok (x, y, d).
Proof.
  revert a b. induction fuel as [|fuel IH]; intros a b Hf; [lia|]. simpl. destruct (Z.eqb_spec b 0) as [->|Hb]; [eauto|].
  destruct (IH b (Z.rem a b)) as (x & y & d & E); [pose proof (Z.rem_bound_abs a b Hb); lia|]. rewrite E. simpl. eauto.
Qed.
Theorem C34_terminates a b : exists x y d, ext_gcd (ext_gcd_fuel b) a b = Ok (x, y, d).
Proof. apply ext_gcd_ok. unfold ext_gcd_fuel. lia. Qed.
(** More fuel changes nothing: the result is that of the unbounded recursion. *)
Theorem C34_fuel fuel1 fuel2 a b r1 r2 : ext_gcd fuel1 a b = Ok r1 -> ext_gcd fuel2 a b = Ok r2 -> r1 = r2.
Proof.
  revert fuel2 a b r1 r2. induction fuel1 as [|fuel1 IH]; intros [|fuel2] a b r1 r2; simpl; try done.
  destruct (b =? 0)%Z; [congruence|]. destruct (ext_gcd fuel1 b (Z.rem a b)) as [ [ [s t] d]| | |] eqn:E1; try done.
  destruct (ext_gcd fuel2 b (Z.rem a b)) as [ [ [s' t'] d']| | |] eqn:E2; try done. simpl. intros [= <-] [= <-].
  pose proof (IH _ _ _ _ _ E1 E2). by simplify_eq.
Qed.
Theorem C34_bezout fuel a b x y d : ext_gcd fuel a b = Ok (x, y, d) ->
  (a * x + b * y = d /\ Z.abs d = Z.gcd a b /\ (0 <= a -> 0 <= b -> 0 <= d))%Z.
Proof.
  revert a b x y d. induction fuel as [|fuel IH]; intros a b x y d; simpl; [done|]. destruct (Z.eqb_spec b 0) as [->|Hb].
  - intros [= <- <- <-]. split; [lia|]. split; [by rewrite Z.gcd_0_r|lia].
  - destruct (ext_gcd fuel b (Z.rem a b)) as [ [ [s t] e]| | |] eqn:E; try done. simpl. intros [= <- <- <-].
    apply IH in E as (E1 & E2 & E3). pose proof (Z.quot_rem' a b) as Hqr. split; [rewrite <- E1; rewrite Hqr at 1; ring|]. split.
    + rewrite E2, (Z.gcd_comm a b), <- (Z.gcd_add_mult_diag_r b (Z.rem a b) (Z.quot a b)). f_equal. lia.
    + intros. apply E3; [done|]. apply Z.rem_nonneg; lia.
Qed.
Example C34_example : ext_gcd (ext_gcd_fuel 30) 111 30 = Ok (3, -11, 3)%Z /\ ext_gcd (ext_gcd_fuel 4) (-6) 4 = Ok (1, 1, -2)%Z.
Proof. done. Qed.

(** * C50 *)
Lemma ext_gcd_bounds fuel a b x y d : (0 <= a)%Z -> (0 <= b)%Z -> ext_gcd fuel a b = Ok (x, y, d) ->
  (Z.abs x <= Z.max b 1 /\ Z.abs y <= Z.max a 1)%Z.
Proof.
  revert a b x y d. induction fuel as [|fuel IH]; intros a b x y d Ha Hb; simpl; [done|]. destruct (Z.eqb_spec b 0) as [->|Hb0].
  - intros [= <- <- <-]. lia.
  - destruct (ext_gcd fuel b (Z.rem a b)) as [ [ [s t] e]| | |] eqn:E; try done. simpl. intros [= <- <- <-].
    pose proof (Z.rem_bound_pos a b Ha ltac:(lia)) as Hr. destruct (IH _ _ _ _ _ Hb (proj1 Hr) E) as [B1 B2]. split; [lia|].
    pose proof (Z.quot_rem' a b) as Hqr. pose proof (Z.quot_pos a b Ha ltac:(lia)) as Hq.
    destruct (decide (Z.rem a b = 0)%Z) as [Hz|Hnz].
    + rewrite Hz in *. destruct fuel as [|fuel]; [done|]. simpl in E. injection E as <- <- <-. lia.
    + assert (Hqt : (Z.abs (Z.quot a b * t) <= Z.quot a b * b)%Z).
      { rewrite Z.abs_mul, (Z.abs_eq (Z.quot a b)) by done. apply Z.mul_le_mono_nonneg_l; lia. }
      lia.
Qed.
(** [mod_inv] returns the inverse whenever there is one. *)
Theorem C50_inverse p m : (0 <= p)%Z -> (1 < m)%Z -> Z.gcd p m = 1%Z ->
  exists v, mod_inv p m = Ok v /\ (0 <= v < m)%Z /\ ((p * v) mod m = 1)%Z.
Proof.
  intros Hp Hm Hg. unfold mod_inv. destruct (C34_terminates p m) as (x & y & d & E). rewrite E. simpl. eexists. split; [done|].
  assert (Hm0 : (0 <= m)%Z) by lia. pose proof (ext_gcd_bounds _ _ _ _ _ _ Hp Hm0 E) as [B _]. pose proof (C34_bezout _ _ _ _ _ _ E) as (E1 & E2 & E3).
  assert (d = 1)%Z as -> by lia.
  assert (Hne : (Z.abs x <> m)%Z).
  { intros Hx. assert (Hdiv : (m | 1)%Z).
    { rewrite <- E1. apply Z.divide_add_r; [|apply Z.divide_factor_l]. apply Z.divide_mul_r. rewrite <- Hx. apply Z.divide_abs_l, Z.divide_refl. }
    apply Z.divide_1_r_nonneg in Hdiv; lia. }
  assert (Hmod : forall k, ((p * (x + k * m)) mod m = 1)%Z).
  { intros k. replace (p * (x + k * m))%Z with (1 + (p * k - y) * m)%Z by lia. rewrite Z.mod_add by lia. apply Z.mod_small. lia. }
  destruct (Z.ltb_spec x 0).
  - rewrite Z.abs_eq by lia. split; [lia|]. specialize (Hmod 1%Z). by rewrite Z.mul_1_l in Hmod.
  - rewrite Z.abs_eq by lia. split; [lia|]. specialize (Hmod 0%Z). by rewrite Z.mul_0_l, Z.add_0_r in Hmod.
Qed.
(** The case used by [AllocFpConfig::new]: an odd modulus [p] and [r = 2^e]; [p_minus_inv = r - mod_inv(p, r)]. *)
Theorem C50_montgomery p e : (0 <= p)%Z -> Z.odd p = true -> (1 <= e)%Z ->
  exists v, mod_inv p (2 ^ e) = Ok v /\ (0 <= v < 2 ^ e)%Z /\ ((p * v) mod 2 ^ e = 1)%Z /\
    (0 < 2 ^ e - v)%Z /\ ((p * (2 ^ e - v)) mod 2 ^ e = 2 ^ e - 1)%Z.
Proof.
  intros Hp Ho He. assert (H2 : (2 <= 2 ^ e)%Z) by (change 2%Z with (2 ^ 1)%Z at 1; apply Z.pow_le_mono_r; lia).
  destruct (C50_inverse p (2 ^ e)) as (v & E & Hv & Hm); [done|lia| |].
  { apply Zgcd_1_rel_prime. apply Zpow_facts.rel_prime_Zpower_r; [lia|].
    apply Zgcd_1_rel_prime. destruct (Z.odd_spec p) as [Hodd _]. destruct (Hodd Ho) as [k ->].
    rewrite Z.gcd_comm. replace (2 * k + 1)%Z with (1 + k * 2)%Z by lia. by rewrite Z.gcd_add_mult_diag_r. }
  exists v. split; [done|]. split; [done|]. split; [done|]. split; [lia|].
  replace (p * (2 ^ e - v))%Z with (- (p * v) + p * 2 ^ e)%Z by ring. rewrite Z.mod_add by lia. rewrite Z.mod_opp_l_nz; lia.
Qed.
Example C50_example : mod_inv 13 16 = Ok 5%Z /\ ((13 * 5) mod 16 = 1)%Z.
Proof. done. Qed.
