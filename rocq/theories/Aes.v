(** AES-128 as specified in FIPS-197, on bytes as numbers below 256. A specification: nothing here models code of the crate. *)
From Verif Require Export Base.
Open Scope N_scope.
Open Scope list_scope.

(** * Arithmetic in GF(2^8) (FIPS-197, 4.2) *)
Definition xtime (a : N) : N := N.lxor (N.land (2 * a) 255) (if N.testbit a 7 then 27 else 0).
(** [gmul k a b]: the product, over the [k] low bits of [b]. *)
Fixpoint gmul_bits (k : nat) (a b : N) : N :=
  match k with O => 0 | S k => N.lxor (if N.odd b then a else 0) (gmul_bits k (xtime a) (N.div2 b)) end.
Definition gmul (a b : N) : N := gmul_bits 8 a b.
(** The inverse, with 0 sent to 0: the power 254. *)
Definition ginv (a : N) : N :=
  let a2 := gmul a a in let a3 := gmul a2 a in let a6 := gmul a3 a3 in let a12 := gmul a6 a6 in let a15 := gmul a12 a3 in
  let a30 := gmul a15 a15 in let a60 := gmul a30 a30 in let a120 := gmul a60 a60 in let a126 := gmul a120 a6 in let a127 := gmul a126 a in gmul a127 a127.

(** * The cipher (FIPS-197, 5.1). The state is the list of its 16 bytes, column after column. *)
Definition sub_byte (a : N) : N :=
  let b := N.testbit (ginv a) in
  let bit i := xorb (b i) (xorb (b ((i + 4) mod 8)) (xorb (b ((i + 5) mod 8)) (xorb (b ((i + 6) mod 8)) (xorb (b ((i + 7) mod 8)) (N.testbit 99 i))))) in
  fold_right (fun i n => N.b2n (bit i) + 2 * n) 0 [0; 1; 2; 3; 4; 5; 6; 7].
Definition byte_at (s : list N) (i : nat) : N := nth i s 0.
Definition shift_rows (s : list N) : list N := map (fun i => byte_at s ((i + 4 * (i mod 4)) mod 16)) (seq 0 16).
Definition mix_columns (s : list N) : list N :=
  map (fun i => let c := (4 * (i / 4))%nat in let row k := byte_at s (c + (i + k) mod 4) in
    N.lxor (gmul 2 (row 0%nat)) (N.lxor (gmul 3 (row 1%nat)) (N.lxor (row 2%nat) (row 3%nat)))) (seq 0 16).
Definition xor_bytes : list N -> list N -> list N := zip_with N.lxor.

(** * The key schedule (FIPS-197, 5.2), for a key of four words *)
Fixpoint rcon (i : nat) : N := match i with O => 0 | S O => 1 | S i => xtime (rcon i) end.
Definition sub_word (w : list N) : list N := map sub_byte w.
Definition rot_word (w : list N) : list N := match w with a :: w => w ++ [a] | [] => [] end.
(** Words [i] to [i + k - 1]. *)
Fixpoint expand_words (k i : nat) (w : list (list N)) : list (list N) :=
  match k with
  | O => w
  | S k =>
      let temp := nth (i - 1) w [] in
      let temp := if (i mod 4 =? 0)%nat then xor_bytes (sub_word (rot_word temp)) [rcon (i / 4); 0; 0; 0] else temp in
      expand_words k (S i) (w ++ [xor_bytes (nth (i - 4) w []) temp])
  end.
Definition key_words (key : list N) : list (list N) := map (fun i => take 4 (drop (4 * i) key)) (seq 0 4).
Definition round_key (w : list (list N)) (r : nat) : list N := concat (take 4 (drop (4 * r) w)).

Fixpoint rounds (w : list (list N)) (rs : list nat) (s : list N) : list N :=
  match rs with [] => s | r :: rs => rounds w rs (xor_bytes (mix_columns (shift_rows (map sub_byte s))) (round_key w r)) end.
Definition aes128_encrypt (key block : list N) : list N :=
  let w := expand_words 40 4 (key_words key) in
  let s := xor_bytes block (round_key w 0) in
  let s := rounds w (seq 1 9) s in
  xor_bytes (shift_rows (map sub_byte s)) (round_key w 10).

(** The examples of FIPS-197, appendices B and C.1, and the first and last words of the expansion in A.1. *)
Example fips_B : aes128_encrypt [43; 126; 21; 22; 40; 174; 210; 166; 171; 247; 21; 136; 9; 207; 79; 60]
  [50; 67; 246; 168; 136; 90; 48; 141; 49; 49; 152; 162; 224; 55; 7; 52] = [57; 37; 132; 29; 2; 220; 9; 251; 220; 17; 133; 151; 25; 106; 11; 50].
Proof. vm_compute. reflexivity. Qed.
Example fips_C1 : aes128_encrypt [0; 1; 2; 3; 4; 5; 6; 7; 8; 9; 10; 11; 12; 13; 14; 15]
  [0; 17; 34; 51; 68; 85; 102; 119; 136; 153; 170; 187; 204; 221; 238; 255] = [105; 196; 224; 216; 106; 123; 4; 48; 216; 205; 183; 128; 112; 180; 197; 90].
Proof. vm_compute. reflexivity. Qed.
Example fips_A1 : let w := expand_words 40 4 (key_words [43; 126; 21; 22; 40; 174; 210; 166; 171; 247; 21; 136; 9; 207; 79; 60]) in
  nth 4 w [] = [160; 250; 254; 23] /\ nth 43 w [] = [182; 99; 12; 166].
Proof. vm_compute. done. Qed.
(** The inverse is one. *)
Definition bytes_all : list N := map N.of_nat (seq 0 256).
Lemma byte_case (P : N -> bool) : forallb P bytes_all = true -> forall a, a < 256 -> P a = true.
Proof.
  intros H a Ha. rewrite forallb_forall in H. apply H. unfold bytes_all. rewrite in_map_iff. exists (N.to_nat a). split; [apply N2Nat.id|].
  apply in_seq. lia.
Qed.
Lemma ginv_inverse a : a < 256 -> gmul a (ginv a) = if a =? 0 then 0 else 1.
Proof. intros H. apply N.eqb_eq. revert a H. apply byte_case. vm_compute. reflexivity. Qed.
