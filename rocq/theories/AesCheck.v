(** The layers of AES on bits, and the checks of a netlist against them, one S-box at a time. Not a model of any code. *)
From Verif Require Export Sbox Aes.
Open Scope N_scope.
Open Scope list_scope.

(** * Bytes and bits *)
(** The bits of a byte, high bit first: the order in the AES netlist. *)
Definition byte_bits (a : N) : list bool := map (N.testbit a) [7; 6; 5; 4; 3; 2; 1; 0].
Definition bytes_bits (s : list N) : list bool := concat (map byte_bits s).
Definition is_byte (a : N) : Prop := a < 256.
Lemma lxor_byte a b : is_byte a -> is_byte b -> is_byte (N.lxor a b).
Proof.
  unfold is_byte. assert (H : forall a, a < 256 <-> N.shiftr a 8 = 0).
  { intros x. rewrite N.shiftr_div_pow2. change (2 ^ 8) with 256. split; intros H; [by apply N.div_small|]. by apply N.div_small_iff in H. }
  rewrite !H, N.shiftr_lxor. by intros -> ->.
Qed.
Lemma byte_bits_lxor a b : byte_bits (N.lxor a b) = zip_with xorb (byte_bits a) (byte_bits b).
Proof. unfold byte_bits. cbn [map zip_with]. by rewrite !N.lxor_spec. Qed.
Lemma of_bits_byte a : is_byte a -> of_bits (rev (byte_bits a)) = a.
Proof. intros H. apply N.eqb_eq. revert a H. apply (byte_case (fun a => of_bits (rev (byte_bits a)) =? a)). vm_compute. reflexivity. Qed.
Lemma sub_byte_byte a : is_byte (sub_byte a).
Proof.
  unfold sub_byte, is_byte. cbn [fold_right]. assert (H : forall b n k, n < k -> N.b2n b + 2 * n < 2 * k) by (intros [] n k; cbn [N.b2n]; lia).
  change 256 with (2 * (2 * (2 * (2 * (2 * (2 * (2 * (2 * 1)))))))). by do 8 apply H.
Qed.

(** * Linear layers, over any addition *)
Definition xtl {A} (add : A -> A -> A) (l : list A) : list A :=
  match l with [b7; b6; b5; b4; b3; b2; b1; b0] => [b6; b5; b4; add b3 b7; add b2 b7; b1; add b0 b7; b7] | _ => [] end.
Definition mixl {A} (add : A -> A -> A) (s0 s1 s2 s3 k : list A) : list A :=
  zip_with add (zip_with add (xtl add s0) (zip_with add (zip_with add (xtl add s1) s1) (zip_with add s2 s3))) k.
Lemma zip_with_map {A B} (addA : A -> A -> A) (addB : B -> B -> B) (f : A -> B) : (forall x y, f (addA x y) = addB (f x) (f y)) ->
  forall l k, map f (zip_with addA l k) = zip_with addB (map f l) (map f k).
Proof. intros H. induction l as [|x l IH]; intros [|y k]; try done. cbn [zip_with map]. by rewrite H, IH. Qed.
Lemma xtl_map {A B} (addA : A -> A -> A) (addB : B -> B -> B) (f : A -> B) : (forall x y, f (addA x y) = addB (f x) (f y)) ->
  forall l, map f (xtl addA l) = xtl addB (map f l).
Proof.
  intros H [|b7 [|b6 [|b5 [|b4 [|b3 [|b2 [|b1 [|b0 [|] ] ] ] ] ] ] ] ]; try done. cbn [xtl map]. by rewrite !H.
Qed.
Lemma mixl_map {A B} (addA : A -> A -> A) (addB : B -> B -> B) (f : A -> B) : (forall x y, f (addA x y) = addB (f x) (f y)) ->
  forall s0 s1 s2 s3 k, map f (mixl addA s0 s1 s2 s3 k) = mixl addB (map f s0) (map f s1) (map f s2) (map f s3) (map f k).
Proof. intros H s0 s1 s2 s3 k. unfold mixl. by rewrite !(zip_with_map addA addB f H), !(xtl_map addA addB f H). Qed.
Definition mix_byte (s0 s1 s2 s3 : N) : N := N.lxor (gmul 2 s0) (N.lxor (gmul 3 s1) (N.lxor s2 s3)).
Lemma gmul_2 a : is_byte a -> gmul 2 a = xtime a.
Proof. intros H. apply N.eqb_eq. revert a H. apply (byte_case (fun a => gmul 2 a =? xtime a)). vm_compute. reflexivity. Qed.
Lemma gmul_3 a : is_byte a -> gmul 3 a = N.lxor (xtime a) a.
Proof. intros H. apply N.eqb_eq. revert a H. apply (byte_case (fun a => gmul 3 a =? N.lxor (xtime a) a)). vm_compute. reflexivity. Qed.
Lemma xtime_byte a : is_byte (xtime a).
Proof.
  unfold xtime. apply lxor_byte; [|unfold is_byte; by destruct (N.testbit a 7)]. unfold is_byte. change 255 with (N.ones 8). rewrite N.land_ones. by apply N.mod_lt.
Qed.
Lemma xtime_bits a : byte_bits (xtime a) = xtl xorb (byte_bits a).
Proof.
  unfold xtime. rewrite byte_bits_lxor. unfold byte_bits. cbn [map zip_with xtl]. rewrite !N.land_spec.
  change (N.testbit (2 * a) 7) with (N.testbit (2 * a) (N.succ 6)). change (N.testbit (2 * a) 6) with (N.testbit (2 * a) (N.succ 5)).
  change (N.testbit (2 * a) 5) with (N.testbit (2 * a) (N.succ 4)). change (N.testbit (2 * a) 4) with (N.testbit (2 * a) (N.succ 3)).
  change (N.testbit (2 * a) 3) with (N.testbit (2 * a) (N.succ 2)). change (N.testbit (2 * a) 2) with (N.testbit (2 * a) (N.succ 1)).
  change (N.testbit (2 * a) 1) with (N.testbit (2 * a) (N.succ 0)). rewrite !N.testbit_even_succ, N.testbit_even_0 by lia.
  generalize (N.testbit a 7) (N.testbit a 6) (N.testbit a 5) (N.testbit a 4) (N.testbit a 3) (N.testbit a 2) (N.testbit a 1) (N.testbit a 0).
  intros [] [] [] [] [] [] [] []; reflexivity.
Qed.
Lemma mix_bits s0 s1 s2 s3 k : is_byte s0 -> is_byte s1 -> byte_bits (N.lxor (mix_byte s0 s1 s2 s3) k) =
  mixl xorb (byte_bits s0) (byte_bits s1) (byte_bits s2) (byte_bits s3) (byte_bits k).
Proof. intros H0 H1. unfold mix_byte, mixl. by rewrite gmul_2, gmul_3, !byte_bits_lxor, !xtime_bits. Qed.
Lemma mix_byte_byte s0 s1 s2 s3 : is_byte s0 -> is_byte s1 -> is_byte s2 -> is_byte s3 -> is_byte (mix_byte s0 s1 s2 s3).
Proof. intros. unfold mix_byte. rewrite gmul_2, gmul_3 by done. pose proof (xtime_byte s0). pose proof (xtime_byte s1). auto using lxor_byte. Qed.

(** * Wires that carry bytes *)
Definition knows_byte (v : N -> bool) (a : N) (ws : list bitw) : Prop := Forall2 (says v) (byte_bits a) ws.
Definition knows (v : N -> bool) (s : list N) (W : list (list bitw)) : Prop := Forall2 (knows_byte v) s W.
Definition wbyte (W : list (list bitw)) (i : nat) : list bitw := nth i W [].
Lemma knows_at v s W i : knows v s W -> (i < length s)%nat -> knows_byte v (byte_at s i) (wbyte W i).
Proof. intros H. revert i. induction H as [|a ws s W Ha _ IH]; intros [|i] Hi; cbn in Hi; try lia; [done|]. apply IH. lia. Qed.
(** The leaves of a list of bytes: bit [j] of all of them is variable [i + j]. *)
Fixpoint bit_leaves (i : N) (ws : list bitw) : list (N * bool * N) :=
  match ws with [] => [] | w :: ws => map (fun l => (l, 2 ^ i)) w ++ bit_leaves (N.succ i) ws end.
Lemma bit_leaves_ok v bits ws : Forall2 (says v) bits ws -> forall pre suf, Forall (leaf_ok v (pre ++ bits ++ suf)) (bit_leaves (N.of_nat (length pre)) ws).
Proof.
  intros H. induction H as [|b w bits ws Hb _ IH]; intros pre suf; cbn [bit_leaves]; [constructor|]. apply Forall_app. split.
  - apply Forall_forall. intros l Hl. apply elem_of_list_In, in_map_iff in Hl as ([x p] & <- & Hl). unfold leaf_ok. rewrite mval_unit.
    rewrite app_nth2, Nat.sub_diag by lia. unfold says in Hb. rewrite Forall_forall in Hb. apply Hb. by apply elem_of_list_In.
  - specialize (IH (pre ++ [b]) suf). rewrite <- app_assoc in IH. rewrite app_length in IH. cbn [length app] in IH.
    replace (N.succ (N.of_nat (length pre))) with (N.of_nat (length pre + 1)) by lia. exact IH.
Qed.
Definition leaves_of (W : list (list bitw)) : list (N * bool * N) := bit_leaves 0 (concat W).
Lemma leaves_of_ok v s s' W : knows v s W -> Forall (leaf_ok v (bytes_bits (s ++ s'))) (leaves_of W).
Proof.
  intros H. unfold bytes_bits at 1. rewrite map_app, concat_app. apply (bit_leaves_ok v (bytes_bits s) (concat W)) with (pre := []). unfold bytes_bits.
  induction H as [|a ws s W Ha _ IH]; [constructor|]. cbn [map concat]. by apply Forall2_app.
Qed.
(** The bits of byte [k] as variables. *)
Definition byte_masks (k : N) : list N := map (fun b => 2 ^ (8 * k + b)) [0; 1; 2; 3; 4; 5; 6; 7].
Lemma byte_masks_val s k : (N.to_nat k < length s)%nat -> map (mval (bytes_bits s)) (byte_masks k) = byte_bits (byte_at s (N.to_nat k)).
Proof.
  intros Hk. unfold byte_masks. change [0; 1; 2; 3; 4; 5; 6; 7] with (map N.of_nat [0; 1; 2; 3; 4; 5; 6; 7]%nat). rewrite !map_map.
  assert (E : forall b, (b < 8)%nat -> mval (bytes_bits s) (2 ^ (8 * k + N.of_nat b)) = nth b (byte_bits (byte_at s (N.to_nat k))) false).
  { intros b Hb. replace (8 * k + N.of_nat b) with (N.of_nat (8 * N.to_nat k + b)) by lia. rewrite mval_unit. generalize dependent (N.to_nat k). clear k.
    induction s as [|a s IH]; intros k Hk; cbn [length] in Hk; [lia|]. unfold bytes_bits. cbn [map concat]. destruct k as [|k].
    - rewrite app_nth1 by (cbn; lia). done.
    - rewrite app_nth2 by (cbn [length byte_bits map]; lia). replace (8 * S k + b - length (byte_bits a))%nat with (8 * k + b)%nat by (cbn [length byte_bits map]; lia).
      apply IH. lia. }
  cbn [map]. rewrite (E 0%nat), (E 1%nat), (E 2%nat), (E 3%nat), (E 4%nat), (E 5%nat), (E 6%nat), (E 7%nat) by lia. done.
Qed.

(** * One S-box *)
Definition sbox_tables : list N := Eval vm_compute in map (fun b => of_bits (map (fun a => N.testbit (sub_byte a) b) bytes_all)) [7; 6; 5; 4; 3; 2; 1; 0].
Lemma sbox_tables_spec x : is_byte x -> map (fun t => N.testbit t x) sbox_tables = byte_bits (sub_byte x).
Proof.
  intros H. assert (sbox_tables = map (fun b => of_bits (map (fun a => N.testbit (sub_byte a) b) bytes_all)) [7; 6; 5; 4; 3; 2; 1; 0]) as -> by (vm_compute; reflexivity).
  rewrite map_map. apply map_ext. intros b. unfold is_byte in H. rewrite <- (N2Nat.id x) at 1. rewrite of_bits_spec. apply nth_lookup_Some.
  rewrite list_lookup_fmap. unfold bytes_all. rewrite list_lookup_fmap, lookup_seq_lt by lia. cbn [fmap option_fmap option_map Nat.add]. by rewrite N2Nat.id.
Qed.
(** A byte to find: the S-box output plus the constant [c] plus a byte given by sums of variables. *)
Fixpoint bit_targets (tabs : list N) (cs : list bool) (masks : list N) (ws : list bitw) : list (N * bool * (N * N)) :=
  match tabs, cs, masks, ws with
  | t :: tabs, c :: cs, m :: masks, w :: ws => map (fun '(x, p) => (x, xorb p c, (t, m))) w ++ bit_targets tabs cs masks ws
  | _, _, _, _ => []
  end.
Definition targets (c : N) (gs : list (list N * list bitw)) : list (N * bool * (N * N)) :=
  flat_map (fun '(masks, ws) => bit_targets sbox_tables (byte_bits c) masks ws) gs.
Definition box_ok (T : ptree cg) (L1 L2 : list (N * bool * N)) (xs : list N) (s : sbox) (c : N) (gs : list (list N * list bitw)) : bool :=
  sbox_ok T L1 (rev xs) s L2 (targets c gs) && forallb (fun '(_, ws) => (length ws =? 8)%nat) gs.
Lemma bit_targets_sound v vars x : forall tabs cs masks ws, length tabs = length ws -> length cs = length ws -> length masks = length ws ->
  Forall (fun '(w, p, (t, m)) => pval v (w, p) = xorb (N.testbit t x) (mval vars m)) (bit_targets tabs cs masks ws) ->
  Forall2 (says v) (zip_with xorb (zip_with xorb (map (fun t => N.testbit t x) tabs) cs) (map (mval vars) masks)) ws.
Proof.
  induction tabs as [|t tabs IH]; intros [|c cs] [|m masks] [|w ws] L1 L2 L3 H; try discriminate; [constructor|]. cbn [bit_targets] in H. apply Forall_app in H as [H1 H2].
  cbn [map zip_with]. constructor; [|apply IH; [by injection L1|by injection L2|by injection L3|done] ].
  apply Forall_forall. intros [y p] Hy. rewrite Forall_forall in H1. specialize (H1 (y, xorb p c, (t, m))).
  assert (pval v (y, xorb p c) = xorb (N.testbit t x) (mval vars m)) as E.
  { apply H1. apply elem_of_list_In, in_map_iff. exists (y, p). split; [done|]. by apply elem_of_list_In. }
  unfold pval in *. cbn [fst snd] in *. revert E. destruct p, c, (v y), (N.testbit t x), (mval vars m); done.
Qed.
Theorem box_sound v T vars L1 L2 xs s c gs x : tree_sat v T -> Forall (leaf_ok v vars) L1 -> Forall (leaf_ok v vars) L2 -> box_ok T L1 L2 xs s c gs = true ->
  is_byte x -> map (mval vars) xs = byte_bits x ->
  Forall (fun '(masks, ws) => forall y, map (mval vars) masks = byte_bits y -> knows_byte v (N.lxor (N.lxor (sub_byte x) c) y) ws) gs.
Proof.
  intros HT HL1 HL2 H Hx Ex. unfold box_ok in H. apply andb_true_iff in H as [H Hl].
  assert (length (rev xs) = 8%nat) as Lx by (rewrite rev_length, <- (map_length (mval vars)), Ex; done).
  pose proof (sbox_sound v T vars L1 (rev xs) s L2 (targets c gs) HT Lx H HL1 HL2) as S. rewrite map_rev, Ex, of_bits_byte in S by done. clear H.
  induction gs as [|[masks ws] gs IH]; [constructor|]. cbn [forallb] in Hl. apply andb_true_iff in Hl as [Hw Hl]. apply Nat.eqb_eq in Hw.
  unfold targets in S. cbn [flat_map] in S. apply Forall_app in S as [S1 S2]. constructor; [|by apply IH].
  intros y Hy. unfold knows_byte. rewrite !byte_bits_lxor, <- (sbox_tables_spec x), <- Hy by done.
  apply bit_targets_sound; [by rewrite Hw|by rewrite Hw| |done]. rewrite <- (map_length (mval vars)), Hy, Hw. done.
Qed.

(** * Rounds *)
Definition shift_at (i : nat) : nat := ((i + 4 * (i mod 4)) mod 16)%nat.
Definition is_state (s : list N) : Prop := length s = 16%nat /\ Forall is_byte s.
Lemma state_at s i : is_state s -> (i < 16)%nat -> is_byte (byte_at s i).
Proof. intros [L F] Hi. unfold byte_at. rewrite Forall_nth in F. apply F. lia. Qed.
Definition masks5 : list (list N) := Eval vm_compute in map byte_masks [0; 1; 2; 3; 4; 5; 6].
Definition mix_masks : list N := Eval vm_compute in mixl N.lxor (byte_masks 0) (byte_masks 1) (byte_masks 2) (byte_masks 3) (byte_masks 4).
Definition add_masks : list N := Eval vm_compute in zip_with N.lxor (byte_masks 0) (byte_masks 1).
(** The first round: the S-boxes of the block plus the key. *)
Definition first_round_ok (T : ptree cg) (P K B : list (list bitw)) (boxes : list sbox) : bool :=
  (length boxes =? 16)%nat && (length B =? 16)%nat &&
  forallb (fun i => match nth_error boxes i with
    | Some s => box_ok T (leaves_of [wbyte P i; wbyte K i]) [] add_masks s 0 [(repeat 0 8, wbyte B i)]
    | None => false end) (seq 0 16).
(** A later round: the S-boxes of the mixed columns of the shifted rows plus the key. *)
Definition in_leaves (B K : list (list bitw)) (i : nat) : list (list bitw) :=
  let c := (4 * (i / 4))%nat in let row k := wbyte B (shift_at (c + (i + k) mod 4)) in [row 0%nat; row 1%nat; row 2%nat; row 3%nat; wbyte K i].
Definition mid_round_ok (T : ptree cg) (B K B' : list (list bitw)) (boxes : list sbox) : bool :=
  (length boxes =? 16)%nat && (length B' =? 16)%nat &&
  forallb (fun i => match nth_error boxes i with
    | Some s => box_ok T (leaves_of (in_leaves B K i)) [] mix_masks s 0 [(repeat 0 8, wbyte B' i)]
    | None => false end) (seq 0 16).
(** The last round: no mixing after the S-boxes, and the last round key added; its bytes from 4 on may be given as the sum of [k] and [k']. *)
Definition last_masks2 : list N := Eval vm_compute in zip_with N.lxor (byte_masks 5) (byte_masks 6).
Definition pair_leaves (ws : list bitw) : list (N * bool * N) :=
  flat_map (fun '(w, m) => map (fun l => (l, m)) w) (combine ws last_masks2).
Definition last_round_ok (T : ptree cg) (B K K' O : list (list bitw)) (boxes : list sbox) : bool :=
  (length boxes =? 16)%nat && (length O =? 16)%nat &&
  forallb (fun i => match nth_error boxes i with
    | Some s =>
        let x := in_leaves B K (shift_at i) in
        if (i <? 4)%nat then box_ok T (leaves_of x) (leaves_of (x ++ [wbyte K' i])) mix_masks s 0 [(nth 5 masks5 [], wbyte O i)]
        else box_ok T (leaves_of x) (leaves_of (x ++ [wbyte K' (i - 4); wbyte K i]) ++ pair_leaves (wbyte K' i)) mix_masks s 0 [(last_masks2, wbyte O i)]
    | None => false end) (seq 0 16).
(** One step of the key schedule: the S-boxes of the last word, byte [j] for each of the four words. *)
Definition key_masks (i : nat) : list N := fold_left (zip_with N.lxor) (take (S i) (drop 1 masks5)) (repeat 0 8).
Definition key_masks4 : list (list N) := Eval vm_compute in map key_masks [0; 1; 2; 3]%nat.
Definition key_round_ok (T : ptree cg) (K K' : list (list bitw)) (rc : N) (boxes : list sbox) : bool :=
  (length boxes =? 4)%nat && (length K' =? 16)%nat &&
  forallb (fun j => match nth_error boxes j with
    | Some s =>
        let L := leaves_of [wbyte K (12 + (j + 1) mod 4); wbyte K j; wbyte K (4 + j); wbyte K (8 + j); wbyte K (12 + j)] in
        box_ok T L L (nth 0 masks5 []) s
        (if (j =? 0)%nat then rc else 0) (combine key_masks4 [wbyte K' j; wbyte K' (4 + j); wbyte K' (8 + j); wbyte K' (12 + j)])
    | None => false end) (seq 0 4).

(** * The checks are sound *)
Lemma byte_at_map f s i : (i < length s)%nat -> byte_at (map f s) i = f (byte_at s i).
Proof. intros H. unfold byte_at. rewrite (nth_indep _ 0 (f 0)) by (by rewrite map_length). apply map_nth. Qed.
Lemma byte_at_xor a b i : (i < length a)%nat -> (i < length b)%nat -> byte_at (xor_bytes a b) i = N.lxor (byte_at a i) (byte_at b i).
Proof.
  revert b i. induction a as [|x a IH]; intros [|y b] [|i]; cbn [length]; intros Ha Hb; try lia; [done|]. apply (IH b i); lia.
Qed.
Lemma byte_at_seq f n i : (i < n)%nat -> byte_at (map f (seq 0 n)) i = f i.
Proof. intros H. unfold byte_at. apply nth_lookup_Some. by rewrite list_lookup_fmap, lookup_seq_lt. Qed.
Lemma knows_intro v s W : length s = 16%nat -> length W = 16%nat -> (forall i, (i < 16)%nat -> knows_byte v (byte_at s i) (wbyte W i)) -> knows v s W.
Proof.
  intros Ls Lw H. apply Forall2_same_length_lookup_2; [congruence|]. intros i a ws Ha Hw. apply lookup_lt_Some in Ha as Hi. specialize (H i ltac:(lia)).
  unfold byte_at, wbyte in H. by rewrite (nth_lookup_Some _ _ _ _ Ha), (nth_lookup_Some _ _ _ _ Hw) in H.
Qed.
Lemma state_intro s : length s = 16%nat -> (forall i, (i < 16)%nat -> is_byte (byte_at s i)) -> is_state s.
Proof. intros L H. split; [done|]. apply (Forall_nth _ 0). intros i Hi. apply H. lia. Qed.
Lemma sub_state s : is_state s -> is_state (map sub_byte s).
Proof. intros [L _]. split; [by rewrite map_length|]. apply Forall_forall. intros a Ha. apply elem_of_list_In, in_map_iff in Ha as (b & <- & _). apply sub_byte_byte. Qed.
Lemma xor_state a b : is_state a -> is_state b -> is_state (xor_bytes a b).
Proof.
  intros Ha Hb. pose proof (proj1 Ha) as La. pose proof (proj1 Hb) as Lb. apply state_intro.
  - unfold xor_bytes. rewrite zip_with_length, La, Lb. done.
  - intros i Hi. rewrite byte_at_xor by lia. apply lxor_byte; by apply state_at.
Qed.
Lemma shift_at_lt i : (shift_at i < 16)%nat.
Proof. by apply Nat.mod_upper_bound. Qed.
Lemma shift_byte s i : (i < 16)%nat -> byte_at (shift_rows s) i = byte_at s (shift_at i).
Proof. intros H. unfold shift_rows. by rewrite byte_at_seq. Qed.
Lemma shift_state s : is_state s -> is_state (shift_rows s).
Proof. intros H. apply state_intro; [done|]. intros i Hi. rewrite shift_byte by done. apply state_at; [done|]. apply shift_at_lt. Qed.
Lemma mix_at s i : (i < 16)%nat -> let c := (4 * (i / 4))%nat in let row k := byte_at s (c + (i + k) mod 4) in
  byte_at (mix_columns s) i = mix_byte (row 0%nat) (row 1%nat) (row 2%nat) (row 3%nat).
Proof. intros H. unfold mix_columns. by rewrite byte_at_seq. Qed.
Lemma column_lt i k : (i < 16)%nat -> (4 * (i / 4) + (i + k) mod 4 < 16)%nat.
Proof. intros H. pose proof (Nat.mod_upper_bound (i + k) 4 ltac:(lia)). assert (i / 4 < 4)%nat by (apply Nat.div_lt_upper_bound; lia). lia. Qed.
Lemma mix_state s : is_state s -> is_state (mix_columns s).
Proof.
  intros H. apply state_intro; [done|]. intros i Hi. rewrite mix_at by done. apply mix_byte_byte; (apply state_at; [done|]); by apply column_lt.
Qed.
(** The state before the S-boxes of a later round. *)
Definition round_in (b k : list N) : list N := xor_bytes (mix_columns (shift_rows b)) k.
Definition in_bytes (b k : list N) (i : nat) : list N :=
  let c := (4 * (i / 4))%nat in let row m := byte_at b (shift_at (c + (i + m) mod 4)) in [row 0%nat; row 1%nat; row 2%nat; row 3%nat; byte_at k i].
Lemma round_in_state b k : is_state b -> is_state k -> is_state (round_in b k).
Proof. intros Hb Hk. apply xor_state; [|done]. by apply mix_state, shift_state. Qed.
Lemma in_knows v b k B K i : is_state b -> is_state k -> knows v b B -> knows v k K -> (i < 16)%nat -> knows v (in_bytes b k i) (in_leaves B K i).
Proof.
  intros Sb Sk Hb Hk Hi. pose proof (proj1 Sb) as Lb. pose proof (proj1 Sk) as Lk. unfold in_bytes, in_leaves. cbv zeta.
  repeat (constructor; [apply knows_at; [done|]; rewrite ?Lb, ?Lk; solve [apply shift_at_lt|done] |]). constructor.
Qed.
Lemma mix_masks_val b k i suf : is_state b -> is_state k -> (i < 16)%nat ->
  map (mval (bytes_bits (in_bytes b k i ++ suf))) mix_masks = byte_bits (byte_at (round_in b k) i).
Proof.
  intros Sb Sk Hi. change mix_masks with (mixl N.lxor (byte_masks 0) (byte_masks 1) (byte_masks 2) (byte_masks 3) (byte_masks 4)).
  rewrite (mixl_map N.lxor xorb) by (intros; apply mval_lxor). rewrite !byte_masks_val by (rewrite app_length; cbn; lia).
  unfold round_in. rewrite byte_at_xor; [|done|rewrite (proj1 Sk); done]. rewrite mix_at by done. cbv zeta. rewrite !shift_byte by (by apply column_lt).
  rewrite mix_bits; [done| |]; (apply state_at; [done|apply shift_at_lt]).
Qed.
Lemma zero_masks vars : map (mval vars) (repeat 0 8) = byte_bits 0.
Proof. cbn [repeat map]. by rewrite !mval_0. Qed.
Lemma forallb_seq (P : nat -> bool) n i : forallb P (seq 0 n) = true -> (i < n)%nat -> P i = true.
Proof. rewrite forallb_forall. intros H Hi. apply H, in_seq. lia. Qed.
Lemma first_round_sound v T p k P K B boxes : tree_sat v T -> is_state p -> is_state k -> knows v p P -> knows v k K ->
  first_round_ok T P K B boxes = true -> knows v (map sub_byte (xor_bytes p k)) B.
Proof.
  intros HT Sp Sk Hp Hk H. unfold first_round_ok in H. apply andb_true_iff in H as [H H2]. apply andb_true_iff in H as [_ H1]. apply Nat.eqb_eq in H1.
  pose proof (proj1 Sp) as Lp. pose proof (proj1 Sk) as Lk. pose proof (xor_state _ _ Sp Sk) as Sx.
  apply knows_intro; [by rewrite map_length, (proj1 Sx)|done|]. intros i Hi. apply (forallb_seq _ _ i) in H2; [|done]. cbv beta zeta in H2.
  destruct (nth_error boxes i) as [s|]; [|done]. rewrite byte_at_map by (by rewrite (proj1 Sx)).
  assert (K2 : knows v [byte_at p i; byte_at k i] [wbyte P i; wbyte K i]).
  { repeat (constructor; [apply knows_at; [done|]; rewrite ?Lp, ?Lk; done|]). constructor. }
  pose proof (leaves_of_ok v _ [] _ K2) as HL. cbn [app] in HL.
  pose proof (box_sound v T _ _ _ _ _ _ _ (byte_at (xor_bytes p k) i) HT HL (Forall_nil_2 _) H2 (state_at _ _ Sx Hi)) as S.
  rewrite byte_at_xor in S by lia. specialize (S ltac:(change add_masks with (zip_with N.lxor (byte_masks 0) (byte_masks 1));
    rewrite (zip_with_map N.lxor xorb) by (intros; apply mval_lxor); rewrite !byte_masks_val by (cbn; lia); by rewrite byte_bits_lxor)).
  apply Forall_cons in S as [S _]. specialize (S 0 (zero_masks _)). by rewrite !N.lxor_0_r, <- byte_at_xor in S by lia.
Qed.
Lemma mid_round_sound v T b k B K B' boxes : tree_sat v T -> is_state b -> is_state k -> knows v b B -> knows v k K ->
  mid_round_ok T B K B' boxes = true -> knows v (map sub_byte (round_in b k)) B'.
Proof.
  intros HT Sb Sk Hb Hk H. unfold mid_round_ok in H. apply andb_true_iff in H as [H H2]. apply andb_true_iff in H as [_ H1]. apply Nat.eqb_eq in H1.
  pose proof (round_in_state _ _ Sb Sk) as Sx.
  apply knows_intro; [by rewrite map_length, (proj1 Sx)|done|]. intros i Hi. apply (forallb_seq _ _ i) in H2; [|done]. cbv beta zeta in H2.
  destruct (nth_error boxes i) as [s|]; [|done]. rewrite byte_at_map by (by rewrite (proj1 Sx)).
  pose proof (leaves_of_ok v _ [] _ (in_knows v b k B K i Sb Sk Hb Hk Hi)) as HL.
  pose proof (box_sound v T _ _ _ _ _ _ _ (byte_at (round_in b k) i) HT HL (Forall_nil_2 _) H2 (state_at _ _ Sx Hi) (mix_masks_val b k i [] Sb Sk Hi)) as S.
  apply Forall_cons in S as [S _]. specialize (S 0 (zero_masks _)). by rewrite !N.lxor_0_r in S.
Qed.
Lemma in_bytes_length b k i : length (in_bytes b k i) = 5%nat.
Proof. done. Qed.
Lemma in_bytes_5 b k i x l : byte_at (in_bytes b k i ++ x :: l) (N.to_nat 5) = x.
Proof. done. Qed.
Lemma in_bytes_6 b k i x y l : byte_at (in_bytes b k i ++ x :: y :: l) (N.to_nat 6) = y.
Proof. done. Qed.
(** The last round; the last round key is the sum of its own earlier word and the word of the key before. *)
Lemma last_round_sound v T b k k' B K K' O boxes : tree_sat v T -> is_state b -> is_state k -> is_state k' -> knows v b B -> knows v k K -> knows v k' K' ->
  (forall i, (4 <= i < 16)%nat -> byte_at k' i = N.lxor (byte_at k' (i - 4)) (byte_at k i)) ->
  last_round_ok T B K K' O boxes = true -> knows v (xor_bytes (shift_rows (map sub_byte (round_in b k))) k') O.
Proof.
  intros HT Sb Sk Sk' Hb Hk Hk' Hkey H. unfold last_round_ok in H. apply andb_true_iff in H as [H H2]. apply andb_true_iff in H as [_ H1]. apply Nat.eqb_eq in H1.
  pose proof (round_in_state _ _ Sb Sk) as Sx. pose proof (shift_state _ (sub_state _ Sx)) as Ss.
  apply knows_intro; [apply (proj1 (xor_state _ _ Ss Sk'))|done|]. intros i Hi. apply (forallb_seq _ _ i) in H2; [|done]. cbv beta zeta in H2.
  rewrite byte_at_xor by (rewrite ?(proj1 Ss), ?(proj1 Sk'); done). rewrite shift_byte by done. pose proof (shift_at_lt i) as Hs.
  rewrite byte_at_map by (by rewrite (proj1 Sx)).
  destruct (nth_error boxes i) as [s|]; [|done].
  pose proof (in_knows v b k B K (shift_at i) Sb Sk Hb Hk Hs) as Hin.
  destruct (Nat.ltb_spec i 4) as [Hi4|Hi4].
  - assert (Hk1 : knows v [byte_at k' i] [wbyte K' i]) by (constructor; [apply knows_at; [done|by rewrite (proj1 Sk')]|constructor]).
    pose proof (leaves_of_ok v _ [byte_at k' i] _ Hin) as L1. pose proof (leaves_of_ok v _ [] _ (Forall2_app Hin Hk1)) as L2. rewrite app_nil_r in L2.
    pose proof (box_sound v T _ _ _ _ _ _ _ (byte_at (round_in b k) (shift_at i)) HT L1 L2 H2 (state_at _ _ Sx Hs) (mix_masks_val b k _ _ Sb Sk Hs)) as S.
    apply Forall_cons in S as [S _]. specialize (S (byte_at k' i)). rewrite N.lxor_0_r in S. apply S.
    change (nth 5 masks5 []) with (byte_masks 5). rewrite byte_masks_val by (rewrite app_length, in_bytes_length; cbn; lia). done.
  - assert (Hk1 : knows v [byte_at k' (i - 4); byte_at k i] [wbyte K' (i - 4); wbyte K i]).
    { constructor; [apply knows_at; [done|rewrite (proj1 Sk'); lia]|]. constructor; [apply knows_at; [done|rewrite (proj1 Sk); lia]|constructor]. }
    pose proof (leaves_of_ok v _ [byte_at k' (i - 4); byte_at k i] _ Hin) as L1.
    pose proof (leaves_of_ok v _ [] _ (Forall2_app Hin Hk1)) as L2. rewrite app_nil_r in L2.
    set (vars := bytes_bits (in_bytes b k (shift_at i) ++ [byte_at k' (i - 4); byte_at k i])) in *.
    assert (Em : map (mval vars) last_masks2 = byte_bits (byte_at k' i)).
    { change last_masks2 with (zip_with N.lxor (byte_masks 5) (byte_masks 6)). rewrite (zip_with_map N.lxor xorb) by (intros; apply mval_lxor).
      unfold vars. rewrite !byte_masks_val by (rewrite app_length, in_bytes_length; cbn; lia). rewrite (Hkey i), byte_bits_lxor by lia. rewrite in_bytes_5, in_bytes_6. reflexivity. }
    assert (L3 : Forall (leaf_ok v vars) (pair_leaves (wbyte K' i))).
    { assert (Hw : knows_byte v (byte_at k' i) (wbyte K' i)) by (apply knows_at; [done|by rewrite (proj1 Sk')]).
      unfold knows_byte in Hw. rewrite <- Em in Hw. unfold pair_leaves. revert Hw. generalize (wbyte K' i) last_masks2. clearbody vars. clear.
      intros ws ms H. remember (map (mval vars) ms) as bs eqn:E. revert ms E. induction H as [|c w bs ws Hc _ IH]; intros [|m ms] E; try done; [constructor|].
      cbn [map] in E. injection E as Ec Es. cbn [combine flat_map]. apply Forall_app. split; [|by apply IH].
      apply Forall_forall. intros l Hl. apply elem_of_list_In, in_map_iff in Hl as ([x p] & <- & Hl). unfold leaf_ok. rewrite <- Ec.
      unfold says in Hc. rewrite Forall_forall in Hc. apply Hc. by apply elem_of_list_In. }
    pose proof (box_sound v T _ _ _ _ _ _ _ (byte_at (round_in b k) (shift_at i)) HT L1 (proj2 (Forall_app _ _ _) (conj L2 L3)) H2 (state_at _ _ Sx Hs)
      (mix_masks_val b k _ _ Sb Sk Hs)) as S.
    apply Forall_cons in S as [S _]. specialize (S (byte_at k' i)). rewrite N.lxor_0_r in S. apply S. exact Em.
Qed.

(** * The key schedule, four words at a time *)
Definition next4 (w : list (list N)) (rc : N) : list (list N) :=
  match w with
  | [a; b; c; d] =>
      let a' := xor_bytes a (xor_bytes (sub_word (rot_word d)) [rc; 0; 0; 0]) in
      let b' := xor_bytes b a' in let c' := xor_bytes c b' in let d' := xor_bytes d c' in [a'; b'; c'; d']
  | _ => []
  end.
Definition is_quad (w : list (list N)) : Prop := length w = 4%nat /\ Forall (fun x => length x = 4%nat /\ Forall is_byte x) w.
Lemma quad_inv w : is_quad w -> exists a0 a1 a2 a3 b0 b1 b2 b3 c0 c1 c2 c3 d0 d1 d2 d3,
  w = [[a0; a1; a2; a3]; [b0; b1; b2; b3]; [c0; c1; c2; c3]; [d0; d1; d2; d3]].
Proof.
  intros [L F]. destruct w as [|a [|b [|c [|d [|] ] ] ] ]; try done. repeat apply Forall_cons in F as [[? _] F].
  destruct a as [|? [|? [|? [|? [|] ] ] ] ]; try done. destruct b as [|? [|? [|? [|? [|] ] ] ] ]; try done.
  destruct c as [|? [|? [|? [|? [|] ] ] ] ]; try done. destruct d as [|? [|? [|? [|? [|] ] ] ] ]; try done. by do 16 eexists.
Qed.
Lemma quad_state w : is_quad w -> is_state (concat w).
Proof.
  intros Q. destruct (quad_inv w Q) as (a0 & a1 & a2 & a3 & b0 & b1 & b2 & b3 & c0 & c1 & c2 & c3 & d0 & d1 & d2 & d3 & ->). destruct Q as [_ F].
  split; [done|]. apply Forall_concat. apply Forall_forall. intros x Hx. rewrite Forall_forall in F. by apply F in Hx as [_ Hx].
Qed.
Fixpoint key_sum (k : list N) (j n : nat) : N := match n with O => N.lxor 0 (byte_at k j) | S m => N.lxor (key_sum k j m) (byte_at k (4 * n + j)) end.
Ltac xor_solve := apply N.bits_inj; intros ?n; rewrite !N.lxor_spec, ?N.bits_0;
  repeat match goal with |- context [N.testbit ?a ?n] => destruct (N.testbit a n) end; reflexivity.
Lemma next4_at w rc i j : is_quad w -> (i < 4)%nat -> (j < 4)%nat ->
  byte_at (concat (next4 w rc)) (4 * i + j) =
  N.lxor (N.lxor (sub_byte (byte_at (concat w) (12 + (j + 1) mod 4))) (if (j =? 0)%nat then rc else 0)) (key_sum (concat w) j i).
Proof.
  intros Q Hi Hj. destruct (quad_inv w Q) as (a0 & a1 & a2 & a3 & b0 & b1 & b2 & b3 & c0 & c1 & c2 & c3 & d0 & d1 & d2 & d3 & ->).
  destruct i as [|[|[|[|] ] ] ]; try lia; destruct j as [|[|[|[|] ] ] ]; try lia;
  cbn [next4 rot_word sub_word map app xor_bytes zip_with concat byte_at nth Nat.mul Nat.add Nat.eqb key_sum Nat.modulo Nat.divmod fst snd Nat.sub];
  generalize (sub_byte d0) (sub_byte d1) (sub_byte d2) (sub_byte d3); intros; xor_solve.
Qed.
Lemma key_masks_val a b c d e i : (i < 4)%nat -> map (mval (bytes_bits [a; b; c; d; e])) (nth i key_masks4 []) =
  byte_bits match i with O => N.lxor 0 b | S O => N.lxor (N.lxor 0 b) c | S (S O) => N.lxor (N.lxor (N.lxor 0 b) c) d | _ => N.lxor (N.lxor (N.lxor (N.lxor 0 b) c) d) e end.
Proof.
  intros Hi.
  assert (E : forall m x y, map (mval (bytes_bits [a; b; c; d; e])) m = byte_bits x -> (N.to_nat y < 5)%nat ->
    map (mval (bytes_bits [a; b; c; d; e])) (zip_with N.lxor m (byte_masks y)) = byte_bits (N.lxor x (byte_at [a; b; c; d; e] (N.to_nat y)))).
  { intros m x y Hm Hy. rewrite (zip_with_map N.lxor xorb) by (intros; apply mval_lxor). by rewrite Hm, byte_masks_val, byte_bits_lxor. }
  pose proof (E _ _ 1 (zero_masks _) ltac:(cbn; lia)) as E1. pose proof (E _ _ 2 E1 ltac:(cbn; lia)) as E2.
  pose proof (E _ _ 3 E2 ltac:(cbn; lia)) as E3. pose proof (E _ _ 4 E3 ltac:(cbn; lia)) as E4.
  destruct i as [|[|[|[|] ] ] ]; [exact E1|exact E2|exact E3|exact E4|lia].
Qed.
Lemma key_round_sound v T w rc K K' boxes : tree_sat v T -> is_quad w -> is_byte rc -> knows v (concat w) K ->
  key_round_ok T K K' rc boxes = true -> knows v (concat (next4 w rc)) K' /\ is_quad (next4 w rc).
Proof.
  intros HT Q Hrc Hk H. assert (is_quad (next4 w rc)) as Q'.
  { destruct (quad_inv w Q) as (a0 & a1 & a2 & a3 & b0 & b1 & b2 & b3 & c0 & c1 & c2 & c3 & d0 & d1 & d2 & d3 & ->). destruct Q as [_ F].
    repeat apply Forall_cons in F as [[_ ?] F]. repeat match goal with H : Forall is_byte (_ :: _) |- _ => apply Forall_cons in H as [? H] end.
    pose proof sub_byte_byte. assert (is_byte 0) by done.
    split; [done|]. cbn [next4 rot_word sub_word map app xor_bytes zip_with]. repeat (constructor; [split; [done|auto 20 using lxor_byte, Forall_cons, Forall_nil]|]). constructor. }
  split; [|done]. pose proof (quad_state w Q) as Sk. pose proof (proj1 Sk) as Lk.
  unfold key_round_ok in H. apply andb_true_iff in H as [H H2]. apply andb_true_iff in H as [_ H1]. apply Nat.eqb_eq in H1.
  apply knows_intro; [apply (proj1 (quad_state _ Q'))|done|]. intros n Hn.
  pose proof (Nat.div_mod_eq n 4) as En. set (i := (n / 4)%nat) in *. set (j := (n mod 4)%nat) in *.
  assert (j < 4)%nat as Hj by (by apply Nat.mod_upper_bound). assert (i < 4)%nat as Hi by lia. clearbody i j. subst n.
  apply (forallb_seq _ _ j) in H2; [|done]. cbv beta zeta in H2. rewrite next4_at by done.
  destruct (nth_error boxes j) as [s|]; [|done].
  set (x := (12 + (j + 1) mod 4)%nat) in *. assert (x < 16)%nat as Hx. { pose proof (Nat.mod_upper_bound (j + 1) 4 ltac:(lia)). lia. }
  assert (HK : knows v [byte_at (concat w) x; byte_at (concat w) j; byte_at (concat w) (4 + j); byte_at (concat w) (8 + j); byte_at (concat w) (12 + j)]
    [wbyte K x; wbyte K j; wbyte K (4 + j); wbyte K (8 + j); wbyte K (12 + j)]).
  { repeat (constructor; [apply knows_at; [done|rewrite Lk; lia]|]). constructor. }
  pose proof (leaves_of_ok v _ [] _ HK) as HL. cbn [app] in HL.
  pose proof (box_sound v T _ _ _ _ _ _ _ (byte_at (concat w) x) HT HL HL H2 (state_at _ _ Sk Hx)) as S.
  specialize (S ltac:(change (nth 0 masks5 []) with (byte_masks 0); rewrite byte_masks_val by (cbn; lia); reflexivity)).
  clear H2 HL HK. generalize dependent (byte_at (concat w) x). intros y S.
  pose proof (key_masks_val y (byte_at (concat w) j) (byte_at (concat w) (4 + j)) (byte_at (concat w) (8 + j)) (byte_at (concat w) (12 + j)) i Hi) as M.
  set (vars := bytes_bits _) in *. clearbody vars.
  assert (nth_error (combine key_masks4 [wbyte K' j; wbyte K' (4 + j); wbyte K' (8 + j); wbyte K' (12 + j)]) i = Some (nth i key_masks4 [], wbyte K' (4 * i + j))) as Ei.
  { destruct i as [|[|[|[|] ] ] ]; [..|lia]; reflexivity. }
  apply nth_error_In, elem_of_list_In in Ei. rewrite Forall_forall in S. specialize (S _ Ei). cbv beta iota in S. apply S. rewrite M. f_equal.
  destruct i as [|[|[|[|] ] ] ]; [..|lia]; reflexivity.
Qed.
(** The words of the expansion, four at a time. *)
Lemma nth_pre {A} (pre l : list A) (d : A) n k : length pre = n -> nth (n + k) (pre ++ l) d = nth k l d.
Proof. intros <-. rewrite app_nth2 by lia. f_equal. lia. Qed.
Lemma expand_step k r pre w : length pre = (4 * r)%nat -> length w = 4%nat ->
  expand_words (4 + k) (4 * r + 4) (pre ++ w) = expand_words k (4 * S r + 4) ((pre ++ w) ++ next4 w (rcon (S r))).
Proof.
  intros L Lw. destruct w as [|a [|b [|c [|d [|] ] ] ] ]; try done. clear Lw.
  assert (M0 : ((4 * r + 4) mod 4 = 0)%nat) by (replace (4 * r + 4)%nat with (S r * 4)%nat by lia; by apply Nat.mod_mul).
  assert (D0 : ((4 * r + 4) / 4 = S r)%nat) by (replace (4 * r + 4)%nat with (S r * 4)%nat by lia; by apply Nat.div_mul).
  assert (Mk : forall m, (0 < m < 4)%nat -> ((m + (4 * r + 4)) mod 4 =? 0)%nat = false).
  { intros m Hm. apply Nat.eqb_neq. replace (m + (4 * r + 4))%nat with (m + S r * 4)%nat by lia. rewrite Nat.mod_add, Nat.mod_small by lia. lia. }
  cbn [Nat.add expand_words]. rewrite M0, D0. cbn [Nat.eqb].
  change (S (4 * r + 4)) with (1 + (4 * r + 4))%nat. rewrite (Mk 1%nat) by lia.
  change (S (1 + (4 * r + 4))) with (2 + (4 * r + 4))%nat. rewrite (Mk 2%nat) by lia.
  change (S (2 + (4 * r + 4))) with (3 + (4 * r + 4))%nat. rewrite (Mk 3%nat) by lia.
  replace (4 * r + 4 - 1)%nat with (4 * r + 3)%nat by lia. replace (4 * r + 4 - 4)%nat with (4 * r + 0)%nat by lia.
  replace (1 + (4 * r + 4) - 1)%nat with (4 * r + 4)%nat by lia. replace (1 + (4 * r + 4) - 4)%nat with (4 * r + 1)%nat by lia.
  replace (2 + (4 * r + 4) - 1)%nat with (4 * r + 5)%nat by lia. replace (2 + (4 * r + 4) - 4)%nat with (4 * r + 2)%nat by lia.
  replace (3 + (4 * r + 4) - 1)%nat with (4 * r + 6)%nat by lia. replace (3 + (4 * r + 4) - 4)%nat with (4 * r + 3)%nat by lia.
  rewrite <- !app_assoc. rewrite !(nth_pre pre _ _ _ _ L). cbn [app nth next4].
  f_equal. lia.
Qed.
Lemma next4_length w rc : length w = 4%nat -> length (next4 w rc) = 4%nat.
Proof. intros L. by destruct w as [|a [|b [|c [|d [|] ] ] ] ]. Qed.
Fixpoint quads (n r : nat) (w : list (list N)) : list (list (list N)) :=
  match n with O => [w] | S n => w :: quads n (S r) (next4 w (rcon (S r))) end.
Lemma expand_quads n : forall r pre w, length pre = (4 * r)%nat -> length w = 4%nat ->
  expand_words (4 * n) (4 * r + 4) (pre ++ w) = pre ++ concat (quads n r w).
Proof.
  induction n as [|n IH]; intros r pre w L Lw; [cbn; by rewrite app_nil_r|].
  replace (4 * S n)%nat with (4 + 4 * n)%nat by lia. rewrite expand_step by done. cbn [quads concat]. rewrite IH.
  - by rewrite <- app_assoc.
  - rewrite app_length. lia.
  - by apply next4_length.
Qed.
Lemma quads_length n : forall r w, length w = 4%nat -> Forall (fun q => length q = 4%nat) (quads n r w).
Proof. induction n as [|n IH]; intros r w L; cbn [quads]; constructor; try done. apply IH. by apply next4_length. Qed.
Lemma round_key_concat qs r : Forall (fun q => length q = 4%nat) qs -> (r < length qs)%nat -> round_key (concat qs) r = concat (nth r qs []).
Proof.
  unfold round_key. intros F. revert r. induction F as [|q qs Hq F IH]; intros r Hr; cbn in Hr; [lia|]. destruct r as [|r]; cbn [concat nth].
  - rewrite Nat.mul_0_r, drop_0, take_app_alt by done. done.
  - rewrite drop_app_ge by lia. replace (4 * S r - length q)%nat with (4 * r)%nat by lia. apply IH. lia.
Qed.
Lemma key_words_quad key : is_state key -> is_quad (key_words key) /\ concat (key_words key) = key.
Proof.
  intros [L F]. do 16 (destruct key as [|? key]; [done|]). destruct key; [|done]. split; [|reflexivity]. split; [reflexivity|].
  repeat (apply Forall_cons in F as [? F]). unfold key_words. cbn. repeat (constructor; [split; [done|by repeat constructor]|]). constructor.
Qed.
Lemma next4_step w rc i : is_quad w -> (4 <= i < 16)%nat ->
  byte_at (concat (next4 w rc)) i = N.lxor (byte_at (concat (next4 w rc)) (i - 4)) (byte_at (concat w) i).
Proof.
  intros Q Hi. pose proof (Nat.div_mod_eq i 4) as En. set (m := (i / 4)%nat) in *. set (j := (i mod 4)%nat) in *.
  assert (j < 4)%nat as Hj by (by apply Nat.mod_upper_bound). assert (0 < m < 4)%nat as Hm by lia. clearbody m j. subst i.
  destruct m as [|m]; [lia|]. replace (4 * S m + j - 4)%nat with (4 * m + j)%nat by lia. rewrite !next4_at by (done || lia).
  change (key_sum (concat w) j (S m)) with (N.lxor (key_sum (concat w) j m) (byte_at (concat w) (4 * S m + j))).
  symmetry. apply N.lxor_assoc.
Qed.

(** * The whole circuit *)
Fixpoint wires (a : N) (n : nat) : list (list bitw) := match n with O => [] | S n => map (fun w => [(w, false)]) (nseq a 8) :: wires (a + 8) n end.
Lemma nseq_split a k m : nseq a (k + m) = nseq a k ++ nseq (a + N.of_nat k) m.
Proof. revert a. induction k as [|k IH]; intros a; [by rewrite N.add_0_r|]. cbn [Nat.add nseq app]. f_equal. rewrite IH. do 2 f_equal. lia. Qed.
(** The byte with the given bits, most significant first, and the bytes of a list of bits. *)
Definition bits_byte (l : list bool) : N := fold_left (fun a b => 2 * a + N.b2n b) l 0.
Definition bits_bytes (l : list bool) : list N := map (fun i => bits_byte (take 8 (drop (8 * i) l))) (seq 0 (length l / 8)).
Lemma bits_byte_bits l : length l = 8%nat -> byte_bits (bits_byte l) = l /\ is_byte (bits_byte l).
Proof.
  intros L. do 8 (destruct l as [|? l]; [done|]). destruct l; [|done].
  repeat match goal with b : bool |- _ => destruct b end; split; reflexivity.
Qed.
Lemma byte_bits_byte a : is_byte a -> bits_byte (byte_bits a) = a.
Proof. intros H. apply N.eqb_eq. revert a H. apply (byte_case (fun a => bits_byte (byte_bits a) =? a)). vm_compute. reflexivity. Qed.
Lemma bytes_bits_length s : length (bytes_bits s) = (8 * length s)%nat.
Proof. induction s as [|a s IH]; [done|]. unfold bytes_bits in *. cbn [map concat]. rewrite app_length, IH. cbn. lia. Qed.
Lemma bits_bytes_cons b l : length b = 8%nat -> bits_bytes (b ++ l) = bits_byte b :: bits_bytes l.
Proof.
  intros L. unfold bits_bytes. rewrite app_length, L. replace ((8 + length l) / 8)%nat with (S (length l / 8)).
  2: { replace (8 + length l)%nat with (length l + 1 * 8)%nat by lia. rewrite Nat.div_add by done. lia. }
  cbn [seq map]. f_equal.
  - rewrite Nat.mul_0_r, drop_0, take_app_alt by done. done.
  - rewrite <- seq_shift, map_map. apply map_ext. intros i. rewrite drop_app_ge by lia. do 3 f_equal. lia.
Qed.
Lemma bits_bytes_bits s : Forall is_byte s -> bits_bytes (bytes_bits s) = s.
Proof. induction 1 as [|a s Ha _ IH]; [done|]. unfold bytes_bits in *. cbn [map concat]. rewrite bits_bytes_cons by done. by rewrite IH, byte_bits_byte. Qed.
Lemma bytes_bits_bytes n : forall l, length l = (8 * n)%nat -> bytes_bits (bits_bytes l) = l /\ Forall is_byte (bits_bytes l) /\ length (bits_bytes l) = n.
Proof.
  induction n as [|n IH]; intros l L; [destruct l; [repeat split; constructor|done]|]. rewrite <- (take_drop 8 l). assert (length (take 8 l) = 8%nat) as L8 by (rewrite take_length; lia).
  rewrite bits_bytes_cons by done. destruct (IH (drop 8 l)) as (E & F & Ln); [rewrite drop_length; lia|]. destruct (bits_byte_bits _ L8) as [E8 F8].
  unfold bytes_bits in *. cbn [map concat length]. rewrite E8, E. split; [done|]. split; [by constructor|by rewrite Ln].
Qed.
Lemma wires_known v s : forall a, map v (nseq a (8 * length s)) = bytes_bits s <-> knows v s (wires a (length s)).
Proof.
  unfold knows, knows_byte, bytes_bits. induction s as [|x s IH]; intros a; [split; constructor|].
  cbn [length map concat wires]. replace (8 * S (length s))%nat with (8 + 8 * length s)%nat by lia. rewrite nseq_split, map_app.
  assert (E : map v (nseq a 8) = byte_bits x <-> Forall2 (says v) (byte_bits x) (map (fun w => [(w, false)]) (nseq a 8))).
  { generalize (nseq a 8) (byte_bits x). clear. induction l as [|w l IH]; intros [|b bs]; cbn [map]; split; intros H; try done; try (by inversion H).
    - injection H as Hb H. constructor; [|by apply IH]. constructor; [|constructor]. unfold pval. cbn. by destruct (v w).
    - apply Forall2_cons in H as [Hb H]. apply Forall_cons in Hb as [Hb _]. unfold pval in Hb. cbn [fst snd] in Hb. rewrite xorb_false_l in Hb. f_equal; [done|by apply IH]. }
  rewrite Forall2_cons, <- IH, <- E. change (a + N.of_nat 8) with (a + 8). split.
  - intros H. apply app_inj_1 in H; [done|]. by rewrite map_length, nseq_length.
  - intros [-> ->]. done.
Qed.
Lemma schedule_sound v T w0 w1 w2 w3 w4 w5 w6 w7 w8 w9 w10 K0 K1 K2 K3 K4 K5 K6 K7 K8 K9 K10 x0 x1 x2 x3 x4 x5 x6 x7 x8 x9 : tree_sat v T -> is_quad w0 -> knows v (concat w0) K0 ->
  w1 = next4 w0 1 -> w2 = next4 w1 2 -> w3 = next4 w2 4 -> w4 = next4 w3 8 -> w5 = next4 w4 16 -> w6 = next4 w5 32 -> w7 = next4 w6 64 -> w8 = next4 w7 128 -> w9 = next4 w8 27 -> w10 = next4 w9 54 ->
  key_round_ok T K0 K1 1 x0 && key_round_ok T K1 K2 2 x1 && key_round_ok T K2 K3 4 x2 && key_round_ok T K3 K4 8 x3 && key_round_ok T K4 K5 16 x4 && key_round_ok T K5 K6 32 x5 && key_round_ok T K6 K7 64 x6 && key_round_ok T K7 K8 128 x7 && key_round_ok T K8 K9 27 x8 && key_round_ok T K9 K10 54 x9 = true ->
  (is_quad w1  /\  knows v (concat w1) K1) /\ (is_quad w2  /\  knows v (concat w2) K2) /\ (is_quad w3  /\  knows v (concat w3) K3) /\ (is_quad w4  /\  knows v (concat w4) K4) /\ (is_quad w5  /\  knows v (concat w5) K5) /\ (is_quad w6  /\  knows v (concat w6) K6) /\ (is_quad w7  /\  knows v (concat w7) K7) /\ (is_quad w8  /\  knows v (concat w8) K8) /\ (is_quad w9  /\  knows v (concat w9) K9) /\ (is_quad w10  /\  knows v (concat w10) K10).
Proof.
  intros HT Q0 HK0 E1 E2 E3 E4 E5 E6 E7 E8 E9 E10 HK.
  apply andb_true_iff in HK as [HK H9].
  apply andb_true_iff in HK as [HK H8].
  apply andb_true_iff in HK as [HK H7].
  apply andb_true_iff in HK as [HK H6].
  apply andb_true_iff in HK as [HK H5].
  apply andb_true_iff in HK as [HK H4].
  apply andb_true_iff in HK as [HK H3].
  apply andb_true_iff in HK as [HK H2].
  apply andb_true_iff in HK as [HK H1].
  rename HK into H0.
  destruct (key_round_sound v T w0 1 K0 K1 x0 HT Q0 eq_refl HK0 H0) as [HK1 Q1]. rewrite <- E1 in HK1, Q1.
  destruct (key_round_sound v T w1 2 K1 K2 x1 HT Q1 eq_refl HK1 H1) as [HK2 Q2]. rewrite <- E2 in HK2, Q2.
  destruct (key_round_sound v T w2 4 K2 K3 x2 HT Q2 eq_refl HK2 H2) as [HK3 Q3]. rewrite <- E3 in HK3, Q3.
  destruct (key_round_sound v T w3 8 K3 K4 x3 HT Q3 eq_refl HK3 H3) as [HK4 Q4]. rewrite <- E4 in HK4, Q4.
  destruct (key_round_sound v T w4 16 K4 K5 x4 HT Q4 eq_refl HK4 H4) as [HK5 Q5]. rewrite <- E5 in HK5, Q5.
  destruct (key_round_sound v T w5 32 K5 K6 x5 HT Q5 eq_refl HK5 H5) as [HK6 Q6]. rewrite <- E6 in HK6, Q6.
  destruct (key_round_sound v T w6 64 K6 K7 x6 HT Q6 eq_refl HK6 H6) as [HK7 Q7]. rewrite <- E7 in HK7, Q7.
  destruct (key_round_sound v T w7 128 K7 K8 x7 HT Q7 eq_refl HK7 H7) as [HK8 Q8]. rewrite <- E8 in HK8, Q8.
  destruct (key_round_sound v T w8 27 K8 K9 x8 HT Q8 eq_refl HK8 H8) as [HK9 Q9]. rewrite <- E9 in HK9, Q9.
  destruct (key_round_sound v T w9 54 K9 K10 x9 HT Q9 eq_refl HK9 H9) as [HK10 Q10]. rewrite <- E10 in HK10, Q10.
  exact (conj (conj Q1 HK1) (conj (conj Q2 HK2) (conj (conj Q3 HK3) (conj (conj Q4 HK4) (conj (conj Q5 HK5) (conj (conj Q6 HK6) (conj (conj Q7 HK7) (conj (conj Q8 HK8) (conj (conj Q9 HK9) (conj Q10 HK10)))))))))).
Qed.
Lemma quads_eq w0 w1 w2 w3 w4 w5 w6 w7 w8 w9 w10 : w1 = next4 w0 1 -> w2 = next4 w1 2 -> w3 = next4 w2 4 -> w4 = next4 w3 8 -> w5 = next4 w4 16 -> w6 = next4 w5 32 -> w7 = next4 w6 64 -> w8 = next4 w7 128 -> w9 = next4 w8 27 -> w10 = next4 w9 54 ->
  quads 10 0 w0 = [w0; w1; w2; w3; w4; w5; w6; w7; w8; w9; w10].
Proof.
  intros E1 E2 E3 E4 E5 E6 E7 E8 E9 E10. cbn [quads].
  change (rcon 1) with 1. rewrite <- E1.
  change (rcon 2) with 2. rewrite <- E2.
  change (rcon 3) with 4. rewrite <- E3.
  change (rcon 4) with 8. rewrite <- E4.
  change (rcon 5) with 16. rewrite <- E5.
  change (rcon 6) with 32. rewrite <- E6.
  change (rcon 7) with 64. rewrite <- E7.
  change (rcon 8) with 128. rewrite <- E8.
  change (rcon 9) with 27. rewrite <- E9.
  change (rcon 10) with 54. rewrite <- E10.
  reflexivity.
Qed.
Lemma rounds_sound v T p P O w k0 k1 k2 k3 k4 k5 k6 k7 k8 k9 k10 K0 K1 K2 K3 K4 K5 K6 K7 K8 K9 K10 B1 B2 B3 B4 B5 B6 B7 B8 B9 y1 y2 y3 y4 y5 y6 y7 y8 y9 y10 :
  tree_sat v T -> is_state p -> knows v p P ->
  is_state k0 -> knows v k0 K0 -> is_state k1 -> knows v k1 K1 -> is_state k2 -> knows v k2 K2 -> is_state k3 -> knows v k3 K3 -> is_state k4 -> knows v k4 K4 -> is_state k5 -> knows v k5 K5 -> is_state k6 -> knows v k6 K6 -> is_state k7 -> knows v k7 K7 -> is_state k8 -> knows v k8 K8 -> is_state k9 -> knows v k9 K9 -> is_state k10 -> knows v k10 K10 ->
  round_key w 0 = k0 -> round_key w 1 = k1 -> round_key w 2 = k2 -> round_key w 3 = k3 -> round_key w 4 = k4 -> round_key w 5 = k5 -> round_key w 6 = k6 -> round_key w 7 = k7 -> round_key w 8 = k8 -> round_key w 9 = k9 -> round_key w 10 = k10 ->
  (forall i, (4 <= i < 16)%nat -> byte_at k10 i = N.lxor (byte_at k10 (i - 4)) (byte_at k9 i)) ->
  first_round_ok T P K0 B1 y1 && mid_round_ok T B1 K1 B2 y2 && mid_round_ok T B2 K2 B3 y3 && mid_round_ok T B3 K3 B4 y4 && mid_round_ok T B4 K4 B5 y5 && mid_round_ok T B5 K5 B6 y6 && mid_round_ok T B6 K6 B7 y7 && mid_round_ok T B7 K7 B8 y8 && mid_round_ok T B8 K8 B9 y9 && last_round_ok T B9 K9 K10 O y10 = true ->
  knows v (xor_bytes (shift_rows (map sub_byte (rounds w (seq 1 9) (xor_bytes p (round_key w 0))))) (round_key w 10)) O.
Proof.
  intros HT Sp HP S0 HK0 S1 HK1 S2 HK2 S3 HK3 S4 HK4 S5 HK5 S6 HK6 S7 HK7 S8 HK8 S9 HK9 S10 HK10 R0 R1 R2 R3 R4 R5 R6 R7 R8 R9 R10 Hstep HB.
  cbn [rounds seq]. rewrite R0, R1, R2, R3, R4, R5, R6, R7, R8, R9, R10.
  apply andb_true_iff in HB as [HB J10].
  apply andb_true_iff in HB as [HB J9].
  apply andb_true_iff in HB as [HB J8].
  apply andb_true_iff in HB as [HB J7].
  apply andb_true_iff in HB as [HB J6].
  apply andb_true_iff in HB as [HB J5].
  apply andb_true_iff in HB as [HB J4].
  apply andb_true_iff in HB as [HB J3].
  apply andb_true_iff in HB as [HB J2].
  pose proof (first_round_sound v T p k0 P K0 B1 y1 HT Sp S0 HP HK0 HB) as Z1. pose proof (sub_state _ (xor_state _ _ Sp S0)) as T1.
  generalize dependent (map sub_byte (xor_bytes p k0)). intros s1 Z1 T1.
  pose proof (mid_round_sound v T s1 k1 B1 K1 B2 y2 HT T1 S1 Z1 HK1 J2) as Z2. pose proof (sub_state _ (round_in_state _ _ T1 S1)) as T2.
  fold (round_in s1 k1). generalize dependent (map sub_byte (round_in s1 k1)). intros s2 Z2 T2.
  pose proof (mid_round_sound v T s2 k2 B2 K2 B3 y3 HT T2 S2 Z2 HK2 J3) as Z3. pose proof (sub_state _ (round_in_state _ _ T2 S2)) as T3.
  fold (round_in s2 k2). generalize dependent (map sub_byte (round_in s2 k2)). intros s3 Z3 T3.
  pose proof (mid_round_sound v T s3 k3 B3 K3 B4 y4 HT T3 S3 Z3 HK3 J4) as Z4. pose proof (sub_state _ (round_in_state _ _ T3 S3)) as T4.
  fold (round_in s3 k3). generalize dependent (map sub_byte (round_in s3 k3)). intros s4 Z4 T4.
  pose proof (mid_round_sound v T s4 k4 B4 K4 B5 y5 HT T4 S4 Z4 HK4 J5) as Z5. pose proof (sub_state _ (round_in_state _ _ T4 S4)) as T5.
  fold (round_in s4 k4). generalize dependent (map sub_byte (round_in s4 k4)). intros s5 Z5 T5.
  pose proof (mid_round_sound v T s5 k5 B5 K5 B6 y6 HT T5 S5 Z5 HK5 J6) as Z6. pose proof (sub_state _ (round_in_state _ _ T5 S5)) as T6.
  fold (round_in s5 k5). generalize dependent (map sub_byte (round_in s5 k5)). intros s6 Z6 T6.
  pose proof (mid_round_sound v T s6 k6 B6 K6 B7 y7 HT T6 S6 Z6 HK6 J7) as Z7. pose proof (sub_state _ (round_in_state _ _ T6 S6)) as T7.
  fold (round_in s6 k6). generalize dependent (map sub_byte (round_in s6 k6)). intros s7 Z7 T7.
  pose proof (mid_round_sound v T s7 k7 B7 K7 B8 y8 HT T7 S7 Z7 HK7 J8) as Z8. pose proof (sub_state _ (round_in_state _ _ T7 S7)) as T8.
  fold (round_in s7 k7). generalize dependent (map sub_byte (round_in s7 k7)). intros s8 Z8 T8.
  pose proof (mid_round_sound v T s8 k8 B8 K8 B9 y9 HT T8 S8 Z8 HK8 J9) as Z9. pose proof (sub_state _ (round_in_state _ _ T8 S8)) as T9.
  fold (round_in s8 k8). generalize dependent (map sub_byte (round_in s8 k8)). intros s9 Z9 T9.
  fold (round_in s9 k9). exact (last_round_sound v T s9 k9 k10 B9 K9 K10 O y10 HT T9 S9 S10 Z9 HK9 HK10 Hstep J10).
Qed.
Lemma expand_all w : length w = 4%nat -> expand_words 40 4 w = concat (quads 10 0 w).
Proof. intros L. exact (expand_quads 10 0 [] w eq_refl L). Qed.
Lemma aes128_sound v T p key P O K0 K1 K2 K3 K4 K5 K6 K7 K8 K9 K10 x0 x1 x2 x3 x4 x5 x6 x7 x8 x9 B1 B2 B3 B4 B5 B6 B7 B8 B9 y1 y2 y3 y4 y5 y6 y7 y8 y9 y10 :
  tree_sat v T -> is_state p -> is_state key -> knows v p P -> knows v key K0 ->
  key_round_ok T K0 K1 1 x0 && key_round_ok T K1 K2 2 x1 && key_round_ok T K2 K3 4 x2 && key_round_ok T K3 K4 8 x3 && key_round_ok T K4 K5 16 x4 && key_round_ok T K5 K6 32 x5 && key_round_ok T K6 K7 64 x6 && key_round_ok T K7 K8 128 x7 && key_round_ok T K8 K9 27 x8 && key_round_ok T K9 K10 54 x9 = true ->
  first_round_ok T P K0 B1 y1 && mid_round_ok T B1 K1 B2 y2 && mid_round_ok T B2 K2 B3 y3 && mid_round_ok T B3 K3 B4 y4 && mid_round_ok T B4 K4 B5 y5 && mid_round_ok T B5 K5 B6 y6 && mid_round_ok T B6 K6 B7 y7 && mid_round_ok T B7 K7 B8 y8 && mid_round_ok T B8 K8 B9 y9 && last_round_ok T B9 K9 K10 O y10 = true ->
  knows v (aes128_encrypt key p) O.
Proof.
  intros HT Sp Sk HP HK0 HK HB. destruct (key_words_quad key Sk) as [Q0 E0]. unfold aes128_encrypt.
  rewrite (expand_all _ (proj1 Q0)). pose proof (quads_length 10 0 (key_words key) (proj1 Q0)) as Fq. cbv zeta.
  generalize dependent (key_words key). intros w0 Q0 E0 Fq. rewrite <- E0 in HK0.
  destruct (ex_intro (fun w => w = next4 w0 1) _ eq_refl) as [w1 E1].
  destruct (ex_intro (fun w => w = next4 w1 2) _ eq_refl) as [w2 E2].
  destruct (ex_intro (fun w => w = next4 w2 4) _ eq_refl) as [w3 E3].
  destruct (ex_intro (fun w => w = next4 w3 8) _ eq_refl) as [w4 E4].
  destruct (ex_intro (fun w => w = next4 w4 16) _ eq_refl) as [w5 E5].
  destruct (ex_intro (fun w => w = next4 w5 32) _ eq_refl) as [w6 E6].
  destruct (ex_intro (fun w => w = next4 w6 64) _ eq_refl) as [w7 E7].
  destruct (ex_intro (fun w => w = next4 w7 128) _ eq_refl) as [w8 E8].
  destruct (ex_intro (fun w => w = next4 w8 27) _ eq_refl) as [w9 E9].
  destruct (ex_intro (fun w => w = next4 w9 54) _ eq_refl) as [w10 E10].
  rewrite (quads_eq w0 w1 w2 w3 w4 w5 w6 w7 w8 w9 w10 E1 E2 E3 E4 E5 E6 E7 E8 E9 E10) in *.
  destruct (schedule_sound v T w0 w1 w2 w3 w4 w5 w6 w7 w8 w9 w10 K0 K1 K2 K3 K4 K5 K6 K7 K8 K9 K10 x0 x1 x2 x3 x4 x5 x6 x7 x8 x9 HT Q0 HK0 E1 E2 E3 E4 E5 E6 E7 E8 E9 E10 HK) as
    ([Q1 HK1] & [Q2 HK2] & [Q3 HK3] & [Q4 HK4] & [Q5 HK5] & [Q6 HK6] & [Q7 HK7] & [Q8 HK8] & [Q9 HK9] & [Q10 HK10]).
  apply (rounds_sound v T p P O _ (concat w0) (concat w1) (concat w2) (concat w3) (concat w4) (concat w5) (concat w6) (concat w7) (concat w8) (concat w9) (concat w10) K0 K1 K2 K3 K4 K5 K6 K7 K8 K9 K10 B1 B2 B3 B4 B5 B6 B7 B8 B9 y1 y2 y3 y4 y5 y6 y7 y8 y9 y10);
    try assumption; try (apply quad_state; assumption); try (apply round_key_concat; [exact Fq|cbn [length]; lia]).
  intros i Hi. rewrite E10. apply next4_step; assumption.
Qed.
