(** Certificates for the dividers: rows of adder cells and multiplexers, checked cell by cell with cuts. Not a model of any code. *)
From Verif Require Export Cuts.
Open Scope N_scope.
Open Scope list_scope.

(** * Wires and constants *)
Inductive lit := LW (w : N) | LC (b : bool).
Definition lval (v : N -> bool) (l : lit) : bool := match l with LW w => v w | LC b => b end.
Definition lit_table (full : N) (env : list (N * N)) (l : lit) : option N :=
  match l with LW w => aget env w | LC b => Some (if b then full else 0) end.
(** Leaves and the gates above them, operands first. *)
Notation cut := (list N * list N)%type.
Definition lcut (T : ptree cg) (c : cut) (ls : list lit) (f : list bool -> bool) : bool :=
  let full := N.ones (2 ^ N.of_nat (length (fst c))) in
  match env ← eval_cut T full (leaf_env (fst c)) (snd c); mapM (lit_table full env) ls with
  | Some ts => forallb (fun m => f (map (fun t => N.testbit t m) ts)) (rows (length (fst c)))
  | None => false
  end.
Lemma lcut_sound v T c ls f : tree_sat v T -> lcut T c ls f = true -> f (map (lval v) ls) = true.
Proof.
  intros HT H. unfold lcut in H. destruct c as [leaves order]. cbn [fst snd] in H.
  destruct (eval_cut _ _ _ _) as [env|] eqn:E; [|done]. cbn [mbind option_bind] in H.
  pose proof (eval_cut_sound v T _ _ order HT (row_of_lt v leaves) _ _ (leaf_env_sound v leaves) E) as He.
  destruct (mapM _ ls) as [ts|] eqn:Em; [|done]. rewrite forallb_forall in H. specialize (H (row_of v leaves)).
  assert (map (fun t => N.testbit t (row_of v leaves)) ts = map (lval v) ls) as Hm.
  { clear -He Em. apply mapM_Some in Em. induction Em as [|l t ls ts Hl _ IH]; [done|]. cbn [map]. rewrite IH. f_equal.
    destruct l as [w|b]; cbn [lit_table lval] in *; [by apply He|]. injection Hl as <-. destruct b; [|by rewrite N.bits_0].
    by rewrite N.ones_spec_low by apply row_of_lt. }
  rewrite Hm in H. apply H.
  apply elem_of_list_In, elem_of_list_lookup. exists (N.to_nat (row_of v leaves)). unfold rows. rewrite nseq_lookup.
  pose proof (row_of_lt v leaves) as Hr. rewrite decide_True; [f_equal; lia|]. by apply to_nat_pow_lt.
Qed.

(** * Rows of adder cells *)
(** With [q] the row adds the complement of [r] and [d] and complements the sum, i.e. subtracts [d] from [r]; without [q] it adds. *)
Definition maj (a b c : bool) : bool := (a && b) || (a && c) || (b && c).
Fixpoint row_bits (q c : bool) (rs ds : list bool) : list bool :=
  match rs, ds with
  | r :: rs, d :: ds => xorb (xorb r d) c :: row_bits q (maj (xorb q r) d c) rs ds
  | _, _ => []
  end.
Fixpoint row_carry (q c : bool) (rs ds : list bool) : bool :=
  match rs, ds with r :: rs, d :: ds => row_carry q (maj (xorb q r) d c) rs ds | _, _ => c end.
Lemma row_bits_length q : forall rs c ds, length rs = length ds -> length (row_bits q c rs ds) = length rs.
Proof. induction rs as [|r rs IH]; intros c [|d ds] H; try done. cbn [row_bits length] in *. f_equal. apply IH. lia. Qed.
Lemma row_arith q : forall rs c ds, length rs = length ds ->
  (zval (map (xorb q) rs) + zval ds + Z.b2z c = zval (map (xorb q) (row_bits q c rs ds)) + two_p (length rs) * Z.b2z (row_carry q c rs ds))%Z.
Proof.
  induction rs as [|r rs IH]; intros c [|d ds] H; try done; cbn [row_bits row_carry map zval length].
  - rewrite two_p_0. lia.
  - specialize (IH (maj (xorb q r) d c) ds ltac:(cbn in H; lia)). rewrite two_p_S.
    set (X := zval (map (xorb q) rs)) in *. set (Y := zval (map (xorb q) (row_bits _ _ _ _))) in *. set (K := Z.b2z (row_carry _ _ _ _)) in *.
    clearbody X Y K. destruct q, r, d, c; cbn [xorb maj andb orb Z.b2z] in *; lia.
Qed.
Lemma row_sub rs ds : length rs = length ds ->
  (zval (row_bits true false rs ds) = zval rs - zval ds + two_p (length rs) * Z.b2z (row_carry true false rs ds))%Z.
Proof.
  intros H. pose proof (row_arith true rs false ds H) as A. change (map (xorb true)) with (map negb) in A.
  rewrite !zval_negb, row_bits_length in A by done. cbn [Z.b2z] in A. lia.
Qed.
Lemma row_add rs ds : length rs = length ds ->
  (zval (row_bits false false rs ds) = zval rs + zval ds - two_p (length rs) * Z.b2z (row_carry false false rs ds))%Z.
Proof.
  intros H. pose proof (row_arith false rs false ds H) as A.
  assert (forall l, map (xorb false) l = l) as E by (intros l; induction l as [|[] l IH]; [done|cbn [map xorb]; by rewrite IH|cbn [map xorb]; by rewrite IH]).
  rewrite !E in A. cbn [Z.b2z] in A. lia.
Qed.

(** A cell with the wires of its sum and its carry, where they exist. *)
Record cell := Cell { ce_cut : cut; ce_t : option lit; ce_c : option lit }.
Definition opt {A} (o : option A) : list A := match o with Some a => [a] | None => [] end.
Definition cell_rel (ht hc : bool) (bs : list bool) : bool :=
  match bs with
  | q :: r :: d :: c :: rest =>
      let t := xorb (xorb r d) c in let c' := maj (xorb q r) d c in
      match ht, hc, rest with
      | true, true, [x; y] => eqb x t && eqb y c'
      | true, false, [x] => eqb x t
      | false, true, [y] => eqb y c'
      | _, _, _ => false
      end
  | _ => false
  end.
Definition some {A} (o : option A) : bool := match o with Some _ => true | None => false end.
Fixpoint row_ok (T : ptree cg) (q c : lit) (rs ds : list lit) (cells : list cell) : bool :=
  match rs, ds, cells with
  | [], [], [] => true
  | r :: rs, d :: ds, ce :: cells =>
      lcut T (ce_cut ce) ([q; r; d; c] ++ opt (ce_t ce) ++ opt (ce_c ce)) (cell_rel (some (ce_t ce)) (some (ce_c ce))) &&
      match ce_c ce with Some c' => row_ok T q c' rs ds cells | None => match rs, ds, cells with [], [], [] => true | _, _, _ => false end end
  | _, _, _ => false
  end.
Fixpoint row_last (c : lit) (cells : list cell) : option lit :=
  match cells with [] => Some c | ce :: cells => match ce_c ce with Some c' => row_last c' cells | None => None end end.
Lemma row_sound v T q : tree_sat v T -> forall cells c rs ds, row_ok T q c rs ds cells = true ->
  length rs = length cells /\ length ds = length cells /\
  let ts := row_bits (lval v q) (lval v c) (map (lval v) rs) (map (lval v) ds) in
  Forall2 (fun ce t => forall l, ce_t ce = Some l -> lval v l = t) cells ts /\
  (forall l, row_last c cells = Some l -> lval v l = row_carry (lval v q) (lval v c) (map (lval v) rs) (map (lval v) ds)).
Proof.
  intros HT. induction cells as [|ce cells IH]; intros c [|r rs] [|d ds] H; try done.
  - cbn [row_last map row_bits row_carry]. split; [done|]. split; [done|]. split; [constructor|]. by intros l [= ->].
  - cbn [row_ok] in H. apply andb_true_iff in H as [H1 H2]. apply (lcut_sound v) in H1; [|done]. destruct ce as [cu ot oc]. cbn [ce_cut ce_t ce_c] in *.
    cbn [row_last map row_bits row_carry length ce_c]. cbn [map app cell_rel] in H1.
    destruct oc as [c'|].
    + assert (lval v c' = maj (xorb (lval v q) (lval v r)) (lval v d) (lval v c) /\ forall l, ot = Some l -> lval v l = xorb (xorb (lval v r) (lval v d)) (lval v c)) as [Hc Ht].
      { destruct ot as [t|]; cbn [opt some app map] in H1.
        - apply andb_true_iff in H1 as [Ha Hb]. apply eqb_prop in Ha, Hb. split; [done|]. by intros l [= <-].
        - apply eqb_prop in H1. done. }
      destruct (IH c' rs ds H2) as (L1 & L2 & F & K). rewrite Hc in F, K. split; [lia|]. split; [lia|]. split; [|done]. constructor; [|done]. done.
    + destruct rs, ds, cells; try done. split; [done|]. split; [done|]. split; [|done]. cbn [map row_bits]. constructor; [|constructor].
      cbn [ce_t]. intros l ->. cbn [opt some app map] in H1. by apply eqb_prop in H1.
Qed.

(** * Multiplexers *)
(** Wire by wire: the output is [x] when [s] holds and [y] otherwise. *)
Definition mux_rel (bs : list bool) : bool := match bs with [s; x; y; n] => eqb n (if s then x else y) | _ => false end.
Fixpoint mux_ok (T : ptree cg) (s : lit) (xs ys ns : list lit) (cuts : list cut) : bool :=
  match xs, ys, ns, cuts with
  | [], [], [], [] => true
  | x :: xs, y :: ys, n :: ns, c :: cuts => lcut T c [s; x; y; n] mux_rel && mux_ok T s xs ys ns cuts
  | _, _, _, _ => false
  end.
Lemma mux_sound v T s : tree_sat v T -> forall xs ys ns cuts, mux_ok T s xs ys ns cuts = true ->
  length xs = length ns /\ length ys = length ns /\ map (lval v) ns = if lval v s then map (lval v) xs else map (lval v) ys.
Proof.
  intros HT. induction xs as [|x xs IH]; intros [|y ys] [|n ns] [|c cuts] H; try done.
  - split; [done|]. split; [done|]. by destruct (lval v s).
  - cbn [mux_ok] in H. apply andb_true_iff in H as [H1 H2]. apply (lcut_sound v) in H1; [|done]. cbn [map mux_rel] in H1. apply eqb_prop in H1.
    destruct (IH _ _ _ H2) as (L1 & L2 & E). cbn [length map]. rewrite E, H1. split; [lia|]. split; [lia|]. by destruct (lval v s).
Qed.

(** * Most significant bit first *)
Open Scope Z_scope.
Fixpoint valm (acc : Z) (bs : list bool) : Z := match bs with [] => acc | b :: bs => valm (2 * acc + Z.b2z b) bs end.
Lemma valm_shift bs : forall acc, valm acc bs = acc * two_p (length bs) + valm 0 bs.
Proof.
  induction bs as [|b bs IH]; intros acc; cbn [valm length]; [rewrite two_p_0; lia|]. rewrite IH, (IH (2 * 0 + Z.b2z b)), two_p_S. lia.
Qed.
Lemma valm_rev l : valm 0 (rev l) = zval l.
Proof.
  assert (H : forall a b acc, valm acc (a ++ b) = valm (valm acc a) b) by (induction a as [|x a IH]; intros b acc; [done|apply IH]).
  induction l as [|b l IH]; [done|]. cbn [rev zval]. rewrite H. cbn [valm]. rewrite IH. lia.
Qed.

(** * Restoring division *)
(** One stage: the row subtracts the low part of the divisor, [us_lt] tells that the result is negative or the high part is not 0,
    [us_q] is its inverse, and the multiplexers keep the larger of the two remainders. *)
Record ustage := UStage { us_cells : list cell; us_ltcut : cut; us_lt : N; us_q : N; us_ns : list N; us_mux : list cut }.
Definition or_rel (bs : list bool) : bool := match bs with [x; y; z] => eqb x (y || z) | _ => false end.
Definition is_inv (T : ptree cg) (a o : N) : bool := match tget T o with Some (CI x _) => (x =? a)%N | _ => false end.
Lemma is_inv_sound v T a o : tree_sat v T -> is_inv T a o = true -> v o = negb (v a).
Proof.
  intros HT H. unfold is_inv in H. destruct (tget T o) as [ [p q r|p q r|p r|p r]|] eqn:E; try done. apply N.eqb_eq in H as ->.
  destruct (HT _ _ E) as [Hs Ho]. cbn in Hs, Ho. by subst.
Qed.
(** [hs]: for each suffix of the divisor, a wire that tells whether it is not 0. *)
Definition first_or (hs : list (lit * cut)) : lit := match hs with [] => LC false | (h, _) :: _ => h end.
Fixpoint ors_ok (T : ptree cg) (ds : list N) (hs : list (lit * cut)) : bool :=
  match ds, hs with
  | [], [] => true
  | d :: ds, (h, c) :: hs => lcut T c [h; LW d; first_or hs] or_rel && ors_ok T ds hs
  | _, _ => false
  end.
Lemma ors_sound v T : tree_sat v T -> forall ds hs, ors_ok T ds hs = true -> lval v (first_or hs) = negb (zval (map v ds) =? 0).
Proof.
  intros HT. induction ds as [|d ds IH]; intros [|[h c] hs] H; try done. cbn [ors_ok] in H. apply andb_true_iff in H as [H1 H2].
  apply (lcut_sound v) in H1; [|done]. cbn [map or_rel] in H1. apply eqb_prop in H1. cbn [first_or]. rewrite H1, (IH _ H2). cbn [lval map zval].
  pose proof (zval_range (map v ds)). destruct (v d); cbn [Z.b2z orb].
  - symmetry. apply negb_true_iff, Z.eqb_neq. lia.
  - destruct (Z.eqb_spec (zval (map v ds)) 0), (Z.eqb_spec (0 + 2 * zval (map v ds)) 0); try lia; done.
Qed.
Definition ts_of (cells : list cell) : list lit := flat_map (fun ce => opt (ce_t ce)) cells.
Definition stage_ok (T : ptree cg) (a : N) (ns dlo : list N) (h : lit) (st : ustage) : bool :=
  let rs := map LW (a :: ns) in
  row_ok T (LC true) (LC false) rs (map LW dlo) (us_cells st) && forallb (fun ce => some (ce_t ce)) (us_cells st) &&
  match row_last (LC false) (us_cells st) with Some b => lcut T (us_ltcut st) [LW (us_lt st); b; h] or_rel | None => false end &&
  is_inv T (us_lt st) (us_q st) &&
  mux_ok T (LW (us_lt st)) rs (ts_of (us_cells st)) (map LW (us_ns st)) (us_mux st).
Fixpoint stages_ok (T : ptree cg) (dividend : list N) (ns dlo dhi : list N) (hs : list (lit * cut)) (sts : list ustage) : bool :=
  match dividend, dhi, sts with
  | [], [], [] => true
  | a :: dividend, d :: dhi, st :: sts =>
      stage_ok T a ns (dlo ++ [d]) (first_or hs) st && stages_ok T dividend (us_ns st) (dlo ++ [d]) dhi (tail hs) sts
  | _, _, _ => false
  end.
Lemma map_lval_LW v ws : map (lval v) (map LW ws) = map v ws.
Proof. induction ws as [|w ws IH]; [done|]. cbn [map lval]. by rewrite IH. Qed.
Lemma ts_of_sound v cells ts : forallb (fun ce => some (ce_t ce)) cells = true ->
  Forall2 (fun ce t => forall l, ce_t ce = Some l -> lval v l = t) cells ts -> map (lval v) (ts_of cells) = ts.
Proof.
  intros H F. induction F as [|ce t cells ts Hc _ IH]; [done|]. cbn [forallb] in H. apply andb_true_iff in H as [H1 H2].
  unfold ts_of. cbn [flat_map]. destruct (ce_t ce) as [l|]; [|done]. cbn [opt app map]. rewrite (Hc l) by done. f_equal. by apply IH.
Qed.
Lemma stage_sound v T a ns dlo h st (D R : Z) hi : tree_sat v T -> stage_ok T a ns dlo h st = true ->
  0 <= hi -> lval v h = negb (hi =? 0) -> D = zval (map v dlo) + two_p (length dlo) * hi -> R = 2 * zval (map v ns) + Z.b2z (v a) ->
  length dlo = length (us_ns st) /\ v (us_q st) = (D <=? R) /\ zval (map v (us_ns st)) = if D <=? R then R - D else R.
Proof.
  intros HT H Hhi Hh HD HR. unfold stage_ok in H. rewrite !andb_true_iff in H. destruct H as ((((H1 & H2) & H3) & H4) & H5).
  destruct (row_sound v T _ HT _ _ _ _ H1) as (L1 & L2 & F & K). cbn [lval] in F, K. rewrite !map_lval_LW in F, K.
  apply (is_inv_sound v) in H4; [|done]. destruct (mux_sound v T _ HT _ _ _ _ H5) as (M1 & M2 & M3). rewrite !map_lval_LW in M3.
  rewrite (ts_of_sound v _ _ H2 F) in M3. cbn [lval] in M3.
  destruct (row_last _ _) as [b|]; [|done]. apply (lcut_sound v) in H3; [|done]. cbn [map or_rel lval] in H3. apply eqb_prop in H3.
  rewrite (K b eq_refl), Hh in H3. clear K F H1 H2 H5. rewrite !map_length in *. cbn [length] in *.
  assert (Hl : length (map v (a :: ns)) = length (map v dlo)) by (rewrite !map_length; cbn [length]; lia).
  pose proof (row_sub _ _ Hl) as Hs. set (k := row_carry _ _ _ _) in *.
  assert (zval (map v (a :: ns)) = R) as Er by (cbn [map zval]; lia). rewrite Er in Hs.
  rewrite map_length in Hs. change (length (a :: ns)) with (S (length ns)) in Hs.
  assert (S (length ns) = length dlo) as El by lia. rewrite El in Hs.
  assert (0 <= zval (row_bits true false (map v (a :: ns)) (map v dlo)) < two_p (length dlo)) as Hr.
  { pose proof (zval_range (row_bits true false (map v (a :: ns)) (map v dlo))) as Hx. rewrite row_bits_length in Hx by done.
    rewrite map_length in Hx. cbn [length] in Hx. by rewrite El in Hx. }
  assert (0 <= R < two_p (length dlo)) as HRr.
  { pose proof (zval_range (map v (a :: ns))) as Hx. rewrite map_length in Hx. cbn [length] in Hx. rewrite El, Er in Hx. done. }
  pose proof (zval_range (map v dlo)) as HDr. rewrite map_length in HDr. set (P := two_p (length dlo)) in *.
  assert (v (us_lt st) = (R <? D)) as Elt.
  { rewrite H3. destruct (Z.eqb_spec hi 0) as [-> |Hn]; cbn [negb].
    - rewrite orb_false_r. destruct k; cbn [Z.b2z] in Hs; symmetry; [apply Z.ltb_lt|apply Z.ltb_ge]; lia.
    - rewrite orb_true_r. symmetry. apply Z.ltb_lt. nia. }
  split; [lia|]. rewrite H4, M3, Elt. rewrite Z.leb_antisym. destruct (Z.ltb_spec R D) as [Hlt|Hge]; cbn [negb]; [split; [done|]; apply Er|].
  split; [done|]. assert (hi = 0) as -> by nia.
  destruct k; cbn [Z.b2z] in Hs; lia.
Qed.
Theorem stages_sound v T : tree_sat v T -> forall dividend ns dlo dhi hs sts (D P Q : Z),
  stages_ok T dividend ns dlo dhi hs sts = true -> ors_ok T (tail dhi) hs = true -> length ns = length dlo ->
  D = zval (map v dlo) + two_p (length dlo) * zval (map v dhi) ->
  (0 < D -> P = Q * D + zval (map v ns) -> zval (map v ns) < D ->
    exists R, valm P (map v dividend) = valm Q (map v (map us_q sts)) * D + R /\ 0 <= R < D) /\
  (D = 0 -> Forall (fun w => v w = true) (map us_q sts)).
Proof.
  intros HT. induction dividend as [|a dividend IH]; intros ns dlo [|d dhi] hs [|st sts] D P Q H Ho Hl HD; try done.
  - split; [|constructor]. cbn [map valm]. intros Hp HP Hn. exists (zval (map v ns)). split; [done|]. pose proof (zval_range (map v ns)). lia.
  - cbn [stages_ok] in H. apply andb_true_iff in H as [H1 H2]. cbn [tail] in Ho.
    pose proof (ors_sound v T HT _ _ Ho) as Hh. pose proof (zval_range (map v dhi)) as Hr.
    assert (D = zval (map v (dlo ++ [d])) + two_p (length (dlo ++ [d])) * zval (map v dhi)) as HD'.
    { rewrite HD, map_app, zval_app, app_length, map_length. cbn [map zval length]. rewrite Nat.add_1_r, two_p_S. lia. }
    destruct (stage_sound v T a ns (dlo ++ [d]) (first_or hs) st D _ _ HT H1 (proj1 Hr) Hh HD' eq_refl) as (L & Eq & En).
    set (R' := 2 * zval (map v ns) + Z.b2z (v a)) in *.
    assert (ors_ok T (tail dhi) (tail hs) = true) as Ho'.
    { destruct dhi as [|d' dhi], hs as [|[h c] hs]; try done. cbn [ors_ok] in Ho. by apply andb_true_iff in Ho as [_ Ho]. }
    destruct (IH (us_ns st) (dlo ++ [d]) dhi (tail hs) sts D (2 * P + Z.b2z (v a)) (2 * Q + Z.b2z (v (us_q st))) H2 Ho' (eq_sym L) HD') as [I1 I2].
    pose proof (zval_range (map v ns)) as Hn0. assert (0 <= Z.b2z (v a) <= 1) by (destruct (v a); cbn; lia). split.
    + intros Hp HP Hn. cbn [map valm]. apply I1; [done| |].
      * rewrite En, Eq, HP. destruct (Z.leb_spec D R'); cbn [Z.b2z]; lia.
      * rewrite En. destruct (Z.leb_spec D R'); lia.
    + intros Hz. cbn [map]. constructor; [|by apply I2]. rewrite Eq. apply Z.leb_le. lia.
Qed.

(** * Non-restoring division *)
(** One row: the previous remainder, shifted, minus or plus the divisor according to the previous quotient bit. *)
Record srow := SRow { sr_cells : list cell; sr_sign : N; sr_q : N }.
Definition lit_is (o : option lit) (w : N) : bool := match o with Some (LW x) => (x =? w)%N | _ => false end.
Definition srow_ok (T : ptree cg) (a : lit) (q : lit) (prev : list lit) (ds : list N) (r : srow) : bool :=
  row_ok T q (LC false) (a :: take 63 prev) (map LW ds) (sr_cells r) && (length prev =? 64)%nat &&
  match last (sr_cells r) with Some ce => lit_is (ce_t ce) (sr_sign r) | None => false end && is_inv T (sr_sign r) (sr_q r).
Definition isnil {A} (l : list A) : bool := match l with [] => true | _ => false end.
Fixpoint srows_ok (T : ptree cg) (dividend : list lit) (q : lit) (prev : list lit) (ds : list N) (rs : list srow) : bool :=
  match dividend, rs with
  | [], [] => true
  | a :: dividend, r :: rs =>
      srow_ok T a q prev ds r && (isnil rs || forallb (fun ce => some (ce_t ce)) (sr_cells r)) &&
      srows_ok T dividend (LW (sr_q r)) (ts_of (sr_cells r)) ds rs
  | _, _ => false
  end.

Definition cong64 (a b : Z) : Prop := (2 ^ 64 | a - b).
Lemma cong64_eq a b : a = b -> cong64 a b.
Proof. intros ->. unfold cong64. rewrite Z.sub_diag. apply Z.divide_0_r. Qed.
Lemma two_p_split n : two_p (S n) = 2 * two_p n.
Proof. apply two_p_S. Qed.
(** The last of 64 bits is the sign. *)
Lemma sign_bit bs x b : length bs = 64%nat -> last bs = Some b -> cong64 (zval bs) x -> - 2 ^ 63 <= x < 2 ^ 63 -> b = (x <? 0).
Proof.
  intros Hl Hb [k Hk] Hx. apply last_Some in Hb as [l ->]. rewrite app_length in Hl. cbn [length] in Hl.
  rewrite zval_app in Hk. cbn [zval] in Hk. assert (length l = 63%nat) as El by lia. rewrite El in Hk.
  pose proof (zval_range l) as Hr. rewrite El in Hr. change (two_p 63) with (2 ^ 63) in *. change (2 ^ 64) with (2 * 2 ^ 63) in Hk.
  set (B := 2 ^ 63) in *. assert (B > 0) by done. destruct b; cbn [Z.b2z] in Hk; symmetry; [apply Z.ltb_lt|apply Z.ltb_ge]; nia.
Qed.
Lemma sign_bit_top bs x b : length bs = 64%nat -> last bs = Some b -> zval bs = x -> b = (2 ^ 63 <=? x).
Proof.
  intros Hl Hb Hk. apply last_Some in Hb as [l ->]. rewrite app_length in Hl. cbn [length] in Hl.
  rewrite zval_app in Hk. cbn [zval] in Hk. assert (length l = 63%nat) as El by lia. rewrite El in Hk.
  pose proof (zval_range l) as Hr. rewrite El in Hr. change (two_p 63) with (2 ^ 63) in *.
  destruct b; cbn [Z.b2z] in Hk; symmetry; [apply Z.leb_le|apply Z.leb_gt]; lia.
Qed.
Lemma last_Forall2 {A B} (P : A -> B -> Prop) l k x : Forall2 P l k -> last l = Some x -> exists y, last k = Some y /\ P x y.
Proof.
  intros F. induction F as [|a b l k Hab F IH]; [done|]. destruct F as [|a' b' l k Hab' F].
  - intros [= ->]. by exists b.
  - intros H. apply IH. done.
Qed.
Lemma srow_sound v T a q prev ds r S D : tree_sat v T -> srow_ok T a q prev ds r = true -> D = zval (map v ds) ->
  cong64 (zval (map (lval v) prev)) S ->
  exists ts s, length ts = 64%nat /\ last ts = Some s /\ v (sr_q r) = negb s /\
    cong64 (zval ts) (2 * S + Z.b2z (lval v a) - (if lval v q then D else - D)) /\
    (forallb (fun ce => some (ce_t ce)) (sr_cells r) = true -> map (lval v) (ts_of (sr_cells r)) = ts).
Proof.
  intros HT H HD HS. unfold srow_ok in H. rewrite !andb_true_iff in H. destruct H as (((H1 & H2) & H3) & H4). apply Nat.eqb_eq in H2.
  destruct (row_sound v T _ HT _ _ _ _ H1) as (L1 & L2 & F & _). cbn [lval] in F. rewrite map_lval_LW in F.
  cbn [length] in L1. rewrite take_length, H2 in L1. change (63 `min` 64)%nat with 63%nat in L1. rewrite map_length in L2.
  set (rs := map (lval v) (a :: take 63 prev)) in *. set (ts := row_bits _ _ _ _) in *.
  assert (length rs = length (map v ds)) as Hl. { subst rs. rewrite !map_length. cbn [length]. rewrite take_length, H2. cbn. lia. }
  assert (length rs = 64%nat) as Hl64. { rewrite Hl, map_length. lia. }
  assert (length ts = 64%nat) as Ht. { subst ts. by rewrite row_bits_length. }
  destruct (last (sr_cells r)) as [ce|] eqn:Ec; [|done]. destruct (last_Forall2 _ _ _ _ F Ec) as (s & Es & Hs).
  exists ts, s. split; [done|]. split; [done|]. split.
  - apply (is_inv_sound v) in H4; [|done]. rewrite H4. f_equal. destruct (ce_t ce) as [ [w|b]|] eqn:Et; try done. cbn [lit_is] in H3. apply N.eqb_eq in H3 as ->.
    by rewrite <- (Hs _ eq_refl).
  - split; [|intros Hf; by apply ts_of_sound].
    assert (cong64 (zval rs) (2 * S + Z.b2z (lval v a))) as Hrs.
    { subst rs. cbn [map zval]. assert (exists b, zval (map (lval v) prev) = zval (map (lval v) (take 63 prev)) + 2 ^ 63 * b) as [b Hb].
      { exists (zval (map (lval v) (drop 63 prev))). rewrite <- (take_drop 63 prev) at 1. rewrite map_app, zval_app, map_length, take_length, H2. done. }
      destruct HS as [k Hk]. rewrite Hb in Hk. exists (2 * k - b). change (2 ^ 64) with (2 * 2 ^ 63) in *. clear -Hk. set (B := 2 ^ 63) in *. nia. }
    destruct Hrs as [k Hk]. subst ts. destruct (lval v q).
    + rewrite (row_sub _ _ Hl), Hl64. change (two_p 64) with (2 ^ 64). rewrite HD. exists (k + Z.b2z (row_carry true false rs (map v ds))). lia.
    + rewrite (row_add _ _ Hl), Hl64. change (two_p 64) with (2 ^ 64). rewrite HD. exists (k - Z.b2z (row_carry false false rs (map v ds))). lia.
Qed.
Theorem srows_sound v T ds D : tree_sat v T -> D = zval (map v ds) -> 0 < D <= 2 ^ 63 -> forall dividend q prev rs (S P Q : Z),
  srows_ok T dividend q prev ds rs = true -> (dividend <> [] -> cong64 (zval (map (lval v) prev)) S) ->
  - D <= S < D -> lval v q = negb (S <? 0) -> P = Q * D + (if S <? 0 then S + D else S) ->
  exists R, valm P (map (lval v) dividend) = valm Q (map v (map sr_q rs)) * D + R /\ 0 <= R < D.
Proof.
  intros HT HD HDr. induction dividend as [|a dividend IH]; intros q prev [|r rs] S P Q H Hc HS Hq HP; try done.
  - cbn [map valm]. exists (if S <? 0 then S + D else S). split; [done|]. destruct (Z.ltb_spec S 0); lia.
  - cbn [srows_ok] in H. rewrite !andb_true_iff in H. destruct H as ((H1 & H2) & H3).
    destruct (srow_sound v T a q prev ds r S D HT H1 HD (Hc ltac:(done))) as (ts & s & Lt & Ls & Eq & Ec & Et).
    set (S' := 2 * S + Z.b2z (lval v a) - (if lval v q then D else - D)) in *.
    assert (0 <= Z.b2z (lval v a) <= 1) by (destruct (lval v a); cbn; lia).
    assert (- D <= S' < D) as HS'. { subst S'. rewrite Hq. destruct (Z.ltb_spec S 0); cbn [negb]; lia. }
    assert (s = (S' <? 0)) as ->. { eapply sign_bit; [done|done|exact Ec|]. lia. }
    cbn [map valm]. apply (IH (LW (sr_q r)) (ts_of (sr_cells r)) rs S').
    + done.
    + intros Hn. destruct rs as [|r' rs]; [by destruct dividend|]. cbn [isnil orb] in H2. by rewrite Et.
    + done.
    + done.
    + rewrite Eq, HP. subst S'. rewrite Hq. destruct (Z.ltb_spec S 0); cbn [negb]; set (S' := 2 * S + _ - _); destruct (Z.ltb_spec S' 0); cbn [negb Z.b2z]; lia.
Qed.
(** With divisor 0 every quotient bit is 1, unless the dividend is [2^63]. *)
Theorem srows_zero v T ds : tree_sat v T -> zval (map v ds) = 0 -> forall dividend q prev rs (P Q : Z),
  srows_ok T dividend q prev ds rs = true -> (dividend <> [] -> cong64 (zval (map (lval v) prev)) P) -> 0 <= P ->
  valm P (map (lval v) dividend) <= 2 ^ 63 -> dividend <> [] ->
  valm Q (map v (map sr_q rs)) = Q * two_p (length dividend) + two_p (length dividend) - 1 - Z.b2z (valm P (map (lval v) dividend) =? 2 ^ 63).
Proof.
  intros HT HD. induction dividend as [|a dividend IH]; intros q prev [|r rs] P Q H Hc HP HA Hn; try done.
  cbn [srows_ok] in H. rewrite !andb_true_iff in H. destruct H as ((H1 & H2) & H3).
  destruct (srow_sound v T a q prev ds r P 0 HT H1 (eq_sym HD) (Hc ltac:(done))) as (ts & s & Lt & Ls & Eq & Ec & Et).
  assert (cong64 (zval ts) (2 * P + Z.b2z (lval v a))) as Ec' by (by destruct (lval v q); [rewrite Z.sub_0_r in Ec|rewrite Z.opp_0, Z.sub_0_r in Ec]).
  clear Ec. set (P' := 2 * P + Z.b2z (lval v a)) in *. assert (0 <= Z.b2z (lval v a) <= 1) by (destruct (lval v a); cbn; lia).
  cbn [map valm length] in *. fold P' in HA |- *. rewrite valm_shift, map_length in HA. pose proof (two_p_pos (length dividend)) as Hp.
  assert (0 <= valm 0 (map (lval v) dividend)) as Hv.
  { rewrite <- (rev_involutive (map (lval v) dividend)), valm_rev. apply zval_range. }
  assert (0 <= P' <= 2 ^ 63) as HP' by nia.
  assert (zval ts = P') as Hz.
  { destruct Ec' as [k Hk]. pose proof (zval_range ts) as Hr. rewrite Lt in Hr. change (two_p 64) with (2 ^ 64) in Hr. change (2 ^ 64) with (2 * 2 ^ 63) in *.
    set (B := 2 ^ 63) in *. assert (B > 0) by done. assert (k = 0) by nia. nia. }
  pose proof (sign_bit_top _ _ _ Lt Ls Hz) as ->. destruct dividend as [|a2 dividend].
  - destruct rs; [|done]. cbn [map valm length] in *. rewrite Eq. change (two_p 1) with 2. 
    destruct (Z.leb_spec (2 ^ 63) P'), (Z.eqb_spec P' (2 ^ 63)); cbn [negb Z.b2z]; lia.
  - assert (P' < 2 ^ 63) as Hlt. { cbn [length] in HA, Hp. rewrite two_p_S in HA. pose proof (two_p_pos (length dividend)).
      set (B := 2 ^ 63) in *. assert (B > 0) by done. set (t := two_p (length dividend)) in *. nia. }
    rewrite (IH (LW (sr_q r)) (ts_of (sr_cells r)) rs P'); [|done| |lia| |done].
    + rewrite Eq, (proj2 (Z.leb_gt _ _) Hlt). cbn [negb Z.b2z]. rewrite (two_p_S (length (a2 :: dividend))). lia.
    + intros _. destruct rs as [|r' rs]; [done|]. cbn [isnil orb] in H2. rewrite Et by done. by apply cong64_eq.
    + by rewrite valm_shift, map_length.
Qed.
