(** Model of /repo/src/utils.rs. Bytes are [N] below 256, strings are sequences of (UTF-8) bytes. *)
From Coq Require Import Ascii String.
From Verif Require Export Base.

(** [a + b] on u8. *)
Definition u8_add (md : mode) (a b : N) : res N :=
  if a + b <? 256 then Ok (a + b) else match md with Debug => Panic PArith | Release => Ok ((a + b) mod 256) end.
(** Vec index. *)
Definition res_nth {A} (v : list A) (i : nat) : res A := match v !! i with Some a => Ok a | None => Panic PIndex end.

(** [slice::chunks(8)]. *)
Fixpoint chunks8 {A} (v : list A) : list (list A) :=
  match v with
  | a :: b :: c :: d :: e :: f :: g :: h :: rest => [a; b; c; d; e; f; g; h] :: chunks8 rest
  | [] => []
  | part => [part]
  end.
(** The loop body of [bits2bytes_le] (9-13) and [bits2bytes_be] (29-33): [byte += (bits[i] as u8) << sh(i)] for i in 0..8. *)
Fixpoint byte_loop (md : mode) (sh : nat -> nat) (bits : list bool) (is : list nat) (byte : N) : res N :=
  match is with
  | [] => Ok byte
  | i :: is => res_bind (res_nth bits i) (fun b => res_bind (u8_add md byte (N.shiftl (N.b2n b) (N.of_nat (sh i)))) (byte_loop md sh bits is))
  end.
Fixpoint res_mapM {A B} (f : A -> res B) (xs : list A) : res (list B) :=
  match xs with
  | [] => Ok []
  | x :: xs => res_bind (f x) (fun y => res_bind (res_mapM f xs) (fun ys => Ok (y :: ys)))
  end.
Definition sh_le (i : nat) : nat := i.
Definition sh_be (i : nat) : nat := (7 - i)%nat.
(** [bits2bytes_le] (6-16). *)
Definition bits2bytes_le (md : mode) (bits : list bool) : res (list N) :=
  res_mapM (fun ch => byte_loop md sh_le ch (seq 0 8) 0) (chunks8 bits).
(** [bits2bytes_be] (26-36). *)
Definition bits2bytes_be (md : mode) (bits : list bool) : res (list N) :=
  res_mapM (fun ch => byte_loop md sh_be ch (seq 0 8) 0) (chunks8 bits).
(** [byte >> i & 1 == 1]. *)
Definition bit_at (byte : N) (i : nat) : bool := N.land (N.shiftr byte (N.of_nat i)) 1 =? 1.
(** [bytes2bits_le] (18-24). *)
Definition bytes2bits_le (bytes : list N) : list bool := flat_map (fun byte => map (bit_at byte) (seq 0 8)) bytes.
(** [bytes2bits_be] (38-48). *)
Definition bytes2bits_be (bytes : list N) : list bool := flat_map (fun byte => map (fun i => bit_at byte (7 - i)) (seq 0 8)) bytes.

(** The [hex] crate, version 0.4.3: [encode] writes two lower-case digits per byte. *)
Definition hex_digit (n : N) : ascii := ascii_of_N (if n <? 10 then 48 + n else 87 + n).
Fixpoint bytes2hex (bytes : list N) : string :=
  match bytes with
  | [] => EmptyString
  | b :: bytes => String (hex_digit (b / 16)) (String (hex_digit (b mod 16)) (bytes2hex bytes))
  end.
(** [FromHexError]. *)
Inductive hex_error := HexOddLength | HexInvalidChar (c : ascii) (index : N).
(** [hex::val]: the value of a digit. *)
Definition hex_val (c : ascii) (i : N) : N + hex_error :=
  let n := N_of_ascii c in
  if (65 <=? n) && (n <=? 70) then inl (n - 65 + 10)
  else if (97 <=? n) && (n <=? 102) then inl (n - 97 + 10)
  else if (48 <=? n) && (n <=? 57) then inl (n - 48)
  else inr (HexInvalidChar c i).
(** [decode]: [val(pair[0], 2 * i)? << 4 | val(pair[1], 2 * i + 1)?] for each pair, after the length check. *)
Fixpoint hex_pairs (s : string) (i : N) : list N + hex_error :=
  match s with
  | String a (String b s) =>
    match hex_val a i with
    | inr e => inr e
    | inl x => match hex_val b (i + 1) with
      | inr e => inr e
      | inl y => match hex_pairs s (i + 2) with inr e => inr e | inl bs => inl (N.lor (N.shiftl x 4) y :: bs) end
      end
    end
  | _ => inl []
  end.
(** [hex2bytes] (54-56). *)
Definition hex2bytes (s : string) : list N + hex_error :=
  if Nat.even (String.length s) then hex_pairs s 0 else inr HexOddLength.

(** [ext_gcd] (58-69). [BigInt] division truncates: [Z.quot] and [Z.rem]. [fuel] bounds the recursion depth. *)
Fixpoint ext_gcd (fuel : nat) (a b : Z) : res (Z * Z * Z) :=
  match fuel with
  | O => NoFuel
  | S fuel =>
    if (b =? 0)%Z then Ok (1, 0, a)%Z else
    let q := Z.quot a b in
    let r := Z.rem a b in
    res_bind (ext_gcd fuel b r) (fun '(s, t, d) => Ok (t, s - q * t, d)%Z)
  end.
(** Enough fuel for every pair (see [C34_terminates]). *)
Definition ext_gcd_fuel (b : Z) : nat := S (Z.to_nat (Z.abs b)).
(** [mod_inv] (/repo/src/circuits/finite_field/mod.rs 317-327): [to_bytes_le] drops the sign. *)
Definition mod_inv (val p : Z) : res Z :=
  res_bind (ext_gcd (ext_gcd_fuel p) val p) (fun '(x, _, _) =>
    Ok (Z.abs (if (x <? 0)%Z then x + p else x)%Z)).
