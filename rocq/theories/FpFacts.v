(** What the prime field modules compute. *)
From Verif Require Export Fp IntOps.
Open Scope list_scope.

(** The configuration in a new sub-circuit. *)
Lemma int_cfg_sub h l mid s h1 cfg n : sub_of h l mid s h1 -> int_cfg l h l cfg n -> int_cfg l h1 s (with_ref cfg s) n.
Proof. intros So [H0 H1 H2 H3 H4 H5 H6 H7 H8 H9]. split; cbn; [done|..]; by eapply (so_mspec _ _ _ _ _ So). Qed.
(** Values move to a later heap. *)
Ltac carry X :=
  repeat match goal with
  | H : int_val ?h _ _ _ _ _ |- _ => match type of X with ext _ h _ => apply (int_val_ext _ _ _ _ _ _ _ X) in H end
  | H : gf ?h _ _ _ |- _ => match type of X with ext _ h _ => apply (gf_ext _ _ _ _ _ _ X) in H end
  end.
Lemma int_from_bit p h l i os cfg n g f : (0 < n)%nat -> bs p h l i os -> int_cfg p h l cfg n -> gf h l g f ->
  exists z h', int_from_gate_ids [g] cfg n h = (Ok z, h') /\ bs p h' l i os /\ ext l h h' /\ int_cfg p h' l cfg n /\ int_val h' l cfg n z (fun ρ => Z.b2z (f ρ)).
Proof.
  intros Hn B C F. destruct (int_from_ok p h l i os cfg n Hn B C [g] _ ltac:(cbn; lia) (proj1 (gfs_one _ _ _ _) F)) as (z & h' & pad & E & (B' & M & C') & Hz & Vz).
  exists z, h'. split; [done|]. split; [done|]. split; [apply M|]. split; [done|]. eapply int_val_eq; [exact Vz|]. intros ρ. cbn [zval]. f_equal. lia.
Qed.

(** The bodies of the builders: what is done between allocating the operands and outputting the result. *)
Definition fp_body_ok (p : nat) (h : heap) (s : nat) (i : N) (cfg : int_config) (n : nat) (m : M aint) (V : (N -> bool) -> Z) : Prop :=
  exists z h', m h = (Ok z, h') /\ bs p h' s i [] /\ ext s h h' /\ int_cfg p h' s cfg n /\ fin_outs s h h' (ai_val z) /\ int_val h' s cfg n z V.
Definition fp_build2 (l : nat) (cfg : int_config) (n : nat) (body : nat -> int_config -> aint -> aint -> M aint) : M N :=
  '(mid, s) <- r_sub_circuit l ;; x <- int_new (with_ref cfg s) n ;; y <- int_new (with_ref cfg s) n ;;
  out <- body s (with_ref cfg s) x y ;; int_output out n ;; st_ret mid.
Definition fp_build1 (l : nat) (cfg : int_config) (n : nat) (body : nat -> int_config -> aint -> M aint) : M N :=
  '(mid, s) <- r_sub_circuit l ;; x <- int_new (with_ref cfg s) n ;;
  out <- body s (with_ref cfg s) x ;; int_output out n ;; st_ret mid.
Lemma fp_build2_ok l cfg n body h F : (0 < n)%nat -> base h l -> int_cfg l h l cfg n ->
  (forall s h2 i x y X Y, bs l h2 s i [] -> int_cfg l h2 s (with_ref cfg s) n -> (forall mid n_in n_o G, mspec l h l mid n_in n_o G -> mspec l h2 s mid n_in n_o G) ->
     int_val h2 s (with_ref cfg s) n x X -> int_val h2 s (with_ref cfg s) n y Y ->
     fp_body_ok l h2 s i (with_ref cfg s) n (body s (with_ref cfg s) x y) (fun ρ => F (X ρ) (Y ρ))) ->
  exists mid h', fp_build2 l cfg n body h = (Ok mid, h') /\ built h l h' /\ mspec l h' l mid (n + n) n (fun bits => zbits n (F (zval (take n bits)) (zval (drop n bits)))).
Proof.
  intros Hn Hb C Hbody. destruct (t_sub h l Hb) as (mid & s & h1 & E1 & B1 & So). pose proof (int_cfg_sub _ _ _ _ _ _ _ So C) as C1.
  destruct (int_new_ok l h1 s 0 [] _ n Hn B1 C1) as (x & h2 & E2 & (B2 & M2 & C2) & V2).
  destruct (int_new_ok l h2 s _ [] _ n Hn B2 C2) as (y & h3 & E3 & (B3 & M3 & C3) & V3).
  pose proof (int_val_mv _ _ _ _ _ _ _ _ _ M3 V2) as V2'.
  destruct (Hbody s h3 _ x y (fun ρ => zval (inb 0 n ρ)) (fun ρ => zval (inb (0 + N.of_nat n) n ρ)) B3 C3) as (z & h4 & E4 & B4 & X4 & C4 & Fo4 & V4); [|exact V2'|exact V3|].
  { intros mid' n_in n_o G Hm. eapply mspec_mv; [exact B2|exact M3|]. eapply mspec_mv; [exact B1|exact M2|]. by apply (so_mspec _ _ _ _ _ So). }
  destruct (int_output_ok l h4 s _ [] _ n Hn B4 C4 z _ V4) as (h5 & E5 & B5 & M5 & C5).
  exists mid, h5. split.
  - unfold fp_build2. by rewrite (st_bind_ok _ _ _ _ _ E1), (st_bind_ok _ _ _ _ _ E2), (st_bind_ok _ _ _ _ _ E3), (st_bind_ok _ _ _ _ _ E4), (st_bind_ok _ _ _ _ _ E5).
  - rewrite N.add_0_l in B3, B4, B5, V3, V4. replace (N.of_nat n + N.of_nat n) with (N.of_nat (n + n)) in * by lia. cbn [app] in B5.
    eapply (t_fin h l mid s h1 h3 h5 _ _ (n + n) n (ai_val z) _ _ So); [eapply ext_trans; [apply M2|apply M3]|exact B3|reflexivity|eapply ext_trans; [exact X4|apply M5]|exact B5| | | |].
    + eapply gfs_mv; [exact M5|exact (iv_val _ _ _ _ _ _ V4)].
    + by eapply fin_outs_out.
    + apply V4.
    + intros bits Hbits. destruct (inb2_wires n bits Hbits) as [Hx Hy]. cbn beta. rewrite N.add_0_l in Hy. by rewrite Hx, Hy.
Qed.
Lemma fp_build1_ok l cfg n body h F : (0 < n)%nat -> base h l -> int_cfg l h l cfg n ->
  (forall s h2 i x X, bs l h2 s i [] -> int_cfg l h2 s (with_ref cfg s) n -> int_val h2 s (with_ref cfg s) n x X ->
     fp_body_ok l h2 s i (with_ref cfg s) n (body s (with_ref cfg s) x) (fun ρ => F (X ρ))) ->
  exists mid h', fp_build1 l cfg n body h = (Ok mid, h') /\ built h l h' /\ mspec l h' l mid n n (fun bits => zbits n (F (zval bits))).
Proof.
  intros Hn Hb C Hbody. destruct (t_sub h l Hb) as (mid & s & h1 & E1 & B1 & So). pose proof (int_cfg_sub _ _ _ _ _ _ _ So C) as C1.
  destruct (int_new_ok l h1 s 0 [] _ n Hn B1 C1) as (x & h2 & E2 & (B2 & M2 & C2) & V2).
  destruct (Hbody s h2 _ x (fun ρ => zval (inb 0 n ρ)) B2 C2) as (z & h4 & E4 & B4 & X4 & C4 & Fo4 & V4); [exact V2|].
  destruct (int_output_ok l h4 s _ [] _ n Hn B4 C4 z _ V4) as (h5 & E5 & B5 & M5 & C5).
  exists mid, h5. split.
  - unfold fp_build1. by rewrite (st_bind_ok _ _ _ _ _ E1), (st_bind_ok _ _ _ _ _ E2), (st_bind_ok _ _ _ _ _ E4), (st_bind_ok _ _ _ _ _ E5).
  - rewrite N.add_0_l in B2, B4, B5. cbn [app] in B5.
    eapply (t_fin h l mid s h1 h2 h5 _ _ n n (ai_val z) _ _ So); [apply M2|exact B2|reflexivity|eapply ext_trans; [exact X4|apply M5]|exact B5| | | |].
    + eapply gfs_mv; [exact M5|exact (iv_val _ _ _ _ _ _ V4)].
    + by eapply fin_outs_out.
    + apply V4.
    + intros bits Hbits. cbn beta. rewrite inb_wires by (rewrite Hbits; cbn; lia). by rewrite drop_0, take_ge by lia.
Qed.

(** One step of a straight-line body: the lemma gives the new heap, and the values known so far are carried along. *)
Ltac step E B C X z V lem :=
  let h' := fresh "h" in let M := fresh "M" in
  destruct lem as (z & h' & E & (B & M & C) & V); pose proof (mv_ext _ _ _ _ _ M) as X; carry X.
Ltac stepx E B C X z V lem :=
  let h' := fresh "h" in destruct lem as (z & h' & E & B & X & C & V); carry X.

Ltac chain := repeat first [apply ext_refl | eapply ext_trans; [eassumption|]].
Ltac finish M :=
  match type of M with mv ?s ?h1 ?h2 _ _ =>
    match goal with |- bs _ _ _ _ _ /\ ext _ ?h _ /\ _ =>
      let XX := fresh "XX" in assert (XX : ext s h h1) by chain;
      split; [assumption|]; split; [exact (ext_trans _ _ _ _ XX (mv_ext _ _ _ _ _ M))|]; split; [assumption|]; split; [exact (fin_outs_new _ _ _ _ _ _ XX M)|]
    end end.

(** * Addition *)
Definition fp_add_body (md : mode) (n : nat) (p : N) (s : nat) (cfg : int_config) (x y : aint) : M aint :=
  p_int <- int_from_biguint p cfg n ;;
  sum <- int_add md x y ;;
  is_plus_larger <- int_larger md sum p_int n ;;
  is_plus_larger_int <- int_from_gate_ids [is_plus_larger] cfg n ;;
  zero <- int_zero cfg n ;;
  minus_zero <- int_neg md zero n ;;
  is_minus_less <- int_less md sum minus_zero n ;;
  is_minus_less_int <- int_from_gate_ids [is_minus_less] cfg n ;;
  or_bit <- r_or s is_plus_larger is_minus_less ;;
  else_bit <- r_not s or_bit ;;
  else_int <- int_from_gate_ids [else_bit] cfg n ;;
  d <- int_sub md sum p_int ;;
  a <- int_mul md is_plus_larger_int d ;;
  e <- int_add md sum p_int ;;
  b <- int_mul md is_minus_less_int e ;;
  ab <- int_add md a b ;;
  c <- int_mul md else_int sum ;;
  int_add md ab c.
(** What it computes, modulo [2^n]. *)
Definition fp_addz (n : nat) (p a b : Z) : Z :=
  let s := (a + b)%Z in
  let gt := negb (zless n s p || zeq n s p) in
  let lt := zless n s 0 in
  (Z.b2z gt * (s - p) + Z.b2z lt * (s + p) + Z.b2z (negb (gt || lt)) * s)%Z.
Lemma fp_add_body_ok md n p s cfg l h i x y X Y : (0 < n)%nat -> (8 * length (to_bytes_le p) <= n)%nat -> bs l h s i [] -> int_cfg l h s cfg n ->
  int_val h s cfg n x X -> int_val h s cfg n y Y -> fp_body_ok l h s i cfg n (fp_add_body md n p s cfg x y) (fun ρ => fp_addz n (Z.of_N p) (X ρ) (Y ρ)).
Proof.
  intros Hn Hp B C Vx Vy.
  step E1 B1 C1 X1 p_int V1 (int_biguint_ok l h s i [] cfg n Hn B C p Hp).
  step E2 B2 C2 X2 sm V2 (int_add_ok md l _ s i [] cfg n Hn B1 C1 x y _ _ Vx Vy).
  step E3 B3 C3 X3 b_gt V3 (int_larger_ok md l _ s i [] cfg n Hn B2 C2 sm p_int _ _ V2 V1).
  stepx E4 B4 C4 X4 gt_int V4 (int_from_bit l _ s i [] cfg n b_gt _ Hn B3 C3 V3).
  step E5 B5 C5 X5 zero V5 (int_zero_ok l _ s i [] cfg n Hn B4 C4).
  destruct (int_neg_ok md l _ s i [] cfg n zero _ Hn B5 C5 V5) as (mz & h6 & E6 & B6 & X6 & C6 & _ & V6). carry X6.
  step E7 B7 C7 X7 b_lt V7 (int_less_ok md l _ s i [] cfg n Hn B6 C6 sm mz _ _ V2 V6).
  stepx E8 B8 C8 X8 lt_int V8 (int_from_bit l _ s i [] cfg n b_lt _ Hn B7 C7 V7).
  destruct (t_or _ _ _ _ _ B8 b_gt b_lt _ _ V3 V7) as (ob & h9 & E9 & B9 & M9 & V9). pose proof (mv_ext _ _ _ _ _ M9) as X9. carry X9.
  pose proof (int_cfg_mv _ _ _ _ _ _ _ _ _ _ B8 M9 C8) as C9.
  destruct (t_not _ _ _ _ _ B9 ob _ V9) as (eb & h10 & E10 & B10 & M10 & V10). pose proof (mv_ext _ _ _ _ _ M10) as X10. carry X10.
  pose proof (int_cfg_mv _ _ _ _ _ _ _ _ _ _ B9 M10 C9) as C10.
  stepx E11 B11 C11 X11 else_int V11 (int_from_bit l _ s i [] cfg n eb _ Hn B10 C10 V10).
  step E12 B12 C12 X12 d V12 (int_sub_ok md l _ s i [] cfg n Hn B11 C11 sm p_int _ _ V2 V1).
  step E13 B13 C13 X13 a V13 (int_mul_ok md l _ s i [] cfg n Hn B12 C12 gt_int d _ _ V4 V12).
  step E14 B14 C14 X14 e V14 (int_add_ok md l _ s i [] cfg n Hn B13 C13 sm p_int _ _ V2 V1).
  step E15 B15 C15 X15 b V15 (int_mul_ok md l _ s i [] cfg n Hn B14 C14 lt_int e _ _ V8 V14).
  step E16 B16 C16 X16 ab V16 (int_add_ok md l _ s i [] cfg n Hn B15 C15 a b _ _ V13 V15).
  step E17 B17 C17 X17 c V17 (int_mul_ok md l _ s i [] cfg n Hn B16 C16 else_int sm _ _ V11 V2).
  destruct (int_add_ok md l _ s i [] cfg n Hn B17 C17 ab c _ _ V16 V17) as (out & h18 & E18 & (B18 & M18 & C18) & V18).
  exists out, h18. split.
  { unfold fp_add_body. rewrite (st_bind_ok _ _ _ _ _ E1), (st_bind_ok _ _ _ _ _ E2), (st_bind_ok _ _ _ _ _ E3), (st_bind_ok _ _ _ _ _ E4), (st_bind_ok _ _ _ _ _ E5),
      (st_bind_ok _ _ _ _ _ E6), (st_bind_ok _ _ _ _ _ E7), (st_bind_ok _ _ _ _ _ E8), (st_bind_ok _ _ _ _ _ E9), (st_bind_ok _ _ _ _ _ E10), (st_bind_ok _ _ _ _ _ E11),
      (st_bind_ok _ _ _ _ _ E12), (st_bind_ok _ _ _ _ _ E13), (st_bind_ok _ _ _ _ _ E14), (st_bind_ok _ _ _ _ _ E15), (st_bind_ok _ _ _ _ _ E16), (st_bind_ok _ _ _ _ _ E17). done. }
  finish M18. eapply int_val_eq; [exact V18|]. intros ρ. cbn beta. done.
Qed.
Ltac regroup := repeat first [rewrite bind_assoc | apply bind_ext; intros ? ?]; try reflexivity.
Lemma fp_build_add_body md l cfg n p h : fp_build_add md l cfg n p h = fp_build2 l cfg n (fp_add_body md n p) h.
Proof. unfold fp_build_add, fp_build2, fp_add_body. apply bind_ext. intros [mid s] h1. regroup. Qed.
Lemma fp_build_add_ok md l cfg n p h : (0 < n)%nat -> (8 * length (to_bytes_le p) <= n)%nat -> base h l -> int_cfg l h l cfg n ->
  exists mid h', fp_build_add md l cfg n p h = (Ok mid, h') /\ built h l h' /\
    mspec l h' l mid (n + n) n (fun bits => zbits n (fp_addz n (Z.of_N p) (zval (take n bits)) (zval (drop n bits)))).
Proof.
  intros Hn Hp Hb C. rewrite fp_build_add_body. apply (fp_build2_ok l cfg n (fp_add_body md n p) h (fp_addz n (Z.of_N p)) Hn Hb C).
  intros s h2 i x y X Y B2 C2 _ Vx Vy. by apply fp_add_body_ok.
Qed.

(** A call of a module with [n] outputs whose result is packed again. *)
Lemma int_module_ok md p h l i os cfg n mid n_in F ids G V : (0 < n)%nat -> bs p h l i os -> int_cfg p h l cfg n -> mspec p h l mid n_in n F -> gfs h l ids G ->
  length ids = n_in -> (forall ρ, F (G ρ) = zbits n (V ρ)) ->
  exists outs h1 z h', r_module md l mid ids h = (Ok outs, h1) /\ int_from_gate_ids outs cfg n h1 = (Ok z, h') /\ bs p h' l i os /\ ext l h h' /\ int_cfg p h' l cfg n /\
    (forall h0, ext l h0 h -> fin_outs l h0 h' (ai_val z)) /\ int_val h' l cfg n z V.
Proof.
  intros Hn B C Hm Hg Hl HV. destruct (t_module md p h l i os mid n_in n F ids G B Hm Hg Hl Hn) as (outs & h1 & E1 & B1 & M1 & L1 & F1).
  pose proof (int_cfg_mv _ _ _ _ _ _ _ _ _ _ B M1 C) as C1.
  destruct (int_from_ok p h1 l i os cfg n Hn B1 C1 outs _ ltac:(lia) F1) as (z & h' & pad & E & (B' & M & C') & Hz & Vz).
  exists outs, h1, z, h'. split; [done|]. split; [done|]. split; [done|]. split; [eapply ext_trans; [apply M1|apply M]|]. split; [done|]. split.
  - intros h0 X0. assert (pad = []) as ->. { pose proof (iv_len _ _ _ _ _ _ Vz) as Hlz. rewrite Hz, app_length in Hlz. destruct pad; [done|cbn in Hlz; lia]. }
    rewrite Hz, app_nil_r. pose proof (fin_outs_new _ _ _ _ _ _ X0 M1) as Fo. eapply fin_outs_mv; [|exact M|exact Fo|].
    + eapply ext_trans; [exact X0|apply M1].
    + intros ? []%elem_of_nil.
  - eapply int_val_eq; [exact Vz|]. intros ρ. cbn beta. rewrite HV, zval_zbits. apply Zmod_mod.
Qed.
Lemma zval_halves n a b : (zval (take n (zbits n a ++ zbits n b)) = a mod two_p n /\ zval (drop n (zbits n a ++ zbits n b)) = b mod two_p n)%Z.
Proof. rewrite take_app_alt, drop_app_alt by by rewrite zbits_length. by rewrite !zval_zbits. Qed.

Lemma mspec_bs_ext p i os q h h' l mid n_in n_out F : bs p h l i os -> ext l h h' -> mspec q h l mid n_in n_out F -> mspec q h' l mid n_in n_out F.
Proof. intros [c B] X. apply mspec_ext; [apply B|apply B|exact X]. Qed.

(** * Subtraction *)
Definition fp_sub_body (md : mode) (n : nat) (add_mid : N) (s : nat) (cfg : int_config) (x y : aint) : M aint :=
  y <- int_neg md y n ;; outs <- r_module md s add_mid (ai_val x ++ ai_val y) ;; int_from_gate_ids outs cfg n.
Lemma fp_build_sub_body md l cfg n mid h : fp_build_sub md l cfg n mid h = fp_build2 l cfg n (fp_sub_body md n mid) h.
Proof. unfold fp_build_sub, fp_build2, fp_sub_body. apply bind_ext. intros [mid' s] h1. regroup. Qed.
Lemma signed_cong n a b : (a mod two_p n = b mod two_p n)%Z -> signed n a = signed n b.
Proof. unfold signed. by intros ->. Qed.
Section mod_n.
Local Open Scope Z_scope.
Context (n : nat).
Definition eqn (a b : Z) : Prop := a mod two_p n = b mod two_p n.
Lemma eqn_add a a' b b' : eqn a a' -> eqn b b' -> eqn (a + b) (a' + b').
Proof. unfold eqn. intros Ha Hb. by rewrite Zplus_mod, Ha, Hb, <- Zplus_mod. Qed.
Lemma eqn_sub a a' b b' : eqn a a' -> eqn b b' -> eqn (a - b) (a' - b').
Proof. unfold eqn. intros Ha Hb. by rewrite Zminus_mod, Ha, Hb, <- Zminus_mod. Qed.
Lemma eqn_mul a a' b b' : eqn a a' -> eqn b b' -> eqn (a * b) (a' * b').
Proof. unfold eqn. intros Ha Hb. by rewrite Zmult_mod, Ha, Hb, <- Zmult_mod. Qed.
Lemma eqn_mod a : eqn (a mod two_p n) a.
Proof. apply Zmod_mod. Qed.
Lemma eqn_refl a : eqn a a. Proof. done. Qed.
Lemma zless_eqn a a' b b' : eqn a a' -> eqn b b' -> zless n a b = zless n a' b'.
Proof. intros Ha Hb. unfold zless. by rewrite (signed_cong n (a - b) (a' - b')) by by apply eqn_sub. Qed.
Lemma zeq_eqn a a' b b' : eqn a a' -> eqn b b' -> zeq n a b = zeq n a' b'.
Proof. unfold eqn, zeq. by intros -> ->. Qed.
Lemma fp_addz_eqn p a a' b b' : eqn a a' -> eqn b b' -> eqn (fp_addz n p a b) (fp_addz n p a' b').
Proof.
  intros Ha Hb. unfold fp_addz. pose proof (eqn_add _ _ _ _ Ha Hb) as Hs. cbn zeta.
  rewrite (zless_eqn (a + b) (a' + b') p p), (zeq_eqn (a + b) (a' + b') p p), (zless_eqn (a + b) (a' + b') 0 0) by done.
  repeat first [apply eqn_add | apply eqn_sub | apply eqn_mul]; try done.
Qed.
End mod_n.
Lemma fp_build_sub_ok md l cfg n p add_mid h : (0 < n)%nat -> base h l -> int_cfg l h l cfg n ->
  mspec l h l add_mid (n + n) n (fun bits => zbits n (fp_addz n p (zval (take n bits)) (zval (drop n bits)))) ->
  exists mid h', fp_build_sub md l cfg n add_mid h = (Ok mid, h') /\ built h l h' /\
    mspec l h' l mid (n + n) n (fun bits => zbits n (fp_addz n p (zval (take n bits)) (- zval (drop n bits)))).
Proof.
  intros Hn Hb C Hm. rewrite fp_build_sub_body. apply (fp_build2_ok l cfg n (fp_sub_body md n add_mid) h (fun a b => fp_addz n p a (- b)) Hn Hb C).
  intros s h2 i x y X Y B2 C2 Hms Vx Vy.
  destruct (int_neg_ok md l _ s i [] _ n y _ Hn B2 C2 Vy) as (ny & h3 & E3 & B3 & X3 & C3 & _ & V3). carry X3.
  assert (Hm3 : mspec l h3 s add_mid (n + n) n (fun bits => zbits n (fp_addz n p (zval (take n bits)) (zval (drop n bits))))).
  { exact (mspec_bs_ext _ _ _ _ _ _ _ _ _ _ _ B2 X3 (Hms _ _ _ _ Hm)). }
  destruct (int_module_ok md l h3 s i [] _ n add_mid (n + n) _ (ai_val x ++ ai_val ny) _ (fun ρ => fp_addz n p (X ρ) (- Y ρ)) Hn B3 C3 Hm3
    (gfs_app _ _ _ _ _ _ (iv_val _ _ _ _ _ _ Vx) (iv_val _ _ _ _ _ _ V3))) as (outs & h4 & z & h5 & E4 & E5 & B5 & X5 & C5 & Fo & V5).
  { rewrite app_length, (iv_len _ _ _ _ _ _ Vx), (iv_len _ _ _ _ _ _ V3). done. }
  { intros ρ. cbn beta. destruct (zval_halves n (X ρ) (- Y ρ)) as [-> ->]. apply zbits_inj. apply fp_addz_eqn; apply eqn_mod. }
  exists z, h5. split; [unfold fp_sub_body; by rewrite (st_bind_ok _ _ _ _ _ E3), (st_bind_ok _ _ _ _ _ E4)|].
  split; [done|]. split; [by eapply ext_trans|]. split; [done|]. split; [by apply Fo|done].
Qed.

(** * Montgomery reduction *)
Lemma gfs_insert h l gs F i g f : gfs h l gs F -> gf h l g f -> gfs h l (<[i := g]> gs) (fun ρ => <[i := f ρ]> (F ρ)).
Proof. intros [H1 H2] [H3 H4]. split; [by apply Forall_insert|]. intros ρ. by apply Forall2_insert. Qed.
(** Bits [r..r+k] cleared. *)
Definition cleared (n r k : nat) (z : Z) : list bool := map (fun j => if decide (r <= j < r + k)%nat then false else Z.testbit z (Z.of_nat j)) (seq 0 n).
Lemma cleared_length n r k z : length (cleared n r k z) = n.
Proof. unfold cleared. by rewrite map_length, seq_length. Qed.
Lemma cleared_lookup n r k z j : (j < n)%nat -> cleared n r k z !! j = Some (if decide (r <= j < r + k)%nat then false else Z.testbit z (Z.of_nat j)).
Proof. intros Hj. unfold cleared. by rewrite list_lookup_fmap, lookup_seq_lt. Qed.
Lemma cleared_0 n r z : cleared n r 0 z = zbits n z.
Proof.
  apply list_eq_lookup; [by rewrite cleared_length, zbits_length|]. intros j Hj. rewrite cleared_length in Hj. rewrite cleared_lookup, zbits_lookup by done.
  by rewrite decide_False by lia.
Qed.
Lemma cleared_S n r k z : (r + k < n)%nat -> <[(r + k)%nat := false]> (cleared n r k z) = cleared n r (S k) z.
Proof.
  intros Hk. apply list_eq_lookup; [by rewrite insert_length, !cleared_length|]. intros j Hj. rewrite insert_length, cleared_length in Hj.
  rewrite (cleared_lookup n r (S k)) by done. destruct (decide (j = r + k)%nat) as [-> |Hne].
  - rewrite list_lookup_insert by by rewrite cleared_length. by rewrite decide_True by lia.
  - rewrite list_lookup_insert_ne by done. rewrite cleared_lookup by done. f_equal.
    destruct (decide (r <= j < r + k)%nat); [by rewrite decide_True by lia|by rewrite decide_False by lia].
Qed.
Lemma cleared_all n r z : (r <= n)%nat -> cleared n r (n - r) z = zbits n (z mod two_p r).
Proof.
  intros Hr. apply list_eq_lookup; [by rewrite cleared_length, zbits_length|]. intros j Hj. rewrite cleared_length in Hj. rewrite cleared_lookup, zbits_lookup by done.
  f_equal. unfold two_p. destruct (decide (r <= j < r + (n - r))%nat); [rewrite Z.mod_pow2_bits_high by lia; done|rewrite Z.mod_pow2_bits_low by lia; done].
Qed.
Lemma clear_bits_ok p h l i os cfg n c v V r f : (r <= n)%nat -> bs p h l i os -> int_cfg p h l cfg n -> gf h l f (fun _ => false) -> int_val h l cfg n (AInt v c) V ->
  exists v' h', clear_bits l f r n v h = (Ok v', h') /\ bs p h' l i os /\ ext l h h' /\ int_cfg p h' l cfg n /\ int_val h' l cfg n (AInt v' c) (fun ρ => V ρ mod two_p r)%Z.
Proof.
  intros Hr B C Ff [Hc Hl Fv]. cbn in Hc, Hl, Fv. unfold clear_bits.
  destruct (foldM_inv (fun v i => g <- st_nth v i ;; g' <- r_and l g f ;; st_ret (<[i := g']> v)) (range r n)
    (fun k v h' => bs p h' l i os /\ ext l h h' /\ int_cfg p h' l cfg n /\ length v = n /\ gfs h' l v (fun ρ => cleared n r k (V ρ))) v h) as (v' & h' & E & B' & X' & C' & L' & F').
  - intros k v1 j h1 [-> Hk]%range_lookup (B1 & X1 & C1 & L1 & F1).
    destruct (gfs_lookup _ _ _ _ (r + k)%nat F1 ltac:(lia)) as (g & Hg & Fg).
    destruct (t_and _ _ _ _ _ B1 g f _ _ Fg (gf_ext _ _ _ _ _ _ X1 Ff)) as (g' & h2 & E2 & B2 & M2 & F2).
    exists (<[(r + k)%nat := g']> v1), h2. split; [by rewrite (st_bind_ok _ _ _ _ _ (st_nth_ok _ _ _ _ Hg)), (st_bind_ok _ _ _ _ _ E2)|].
    split; [done|]. split; [eapply ext_trans; [exact X1|apply M2]|]. split; [exact (int_cfg_mv _ _ _ _ _ _ _ _ _ _ B1 M2 C1)|]. split; [by rewrite insert_length|].
    eapply gfs_eq; [apply gfs_insert; [eapply gfs_mv; [exact M2|exact F1]|exact F2]|]. intros ρ. cbn beta. rewrite andb_false_r. apply cleared_S. lia.
  - split; [done|]. split; [apply ext_refl|]. split; [done|]. split; [done|]. eapply gfs_eq; [exact Fv|]. intros ρ. cbn beta. by rewrite cleared_0.
  - exists v', h'. split; [done|]. split; [done|]. split; [done|]. split; [done|]. split; [done|done|]. cbn [ai_val]. eapply gfs_eq; [exact F'|]. intros ρ. cbn beta.
    rewrite range_length. by apply cleared_all.
Qed.
Definition fp_mont_body (md : mode) (n : nat) (p p_minus_inv : N) (r_exp : nat) (s : nat) (cfg : int_config) (val : aint) : M aint :=
  p_int <- int_from_biguint p cfg n ;;
  p_minus_inv_int <- int_from_biguint p_minus_inv cfg n ;;
  val_pi <- int_mul md val p_minus_inv_int ;;
  false_bit <- r_constant s false ;;
  v <- clear_bits s false_bit r_exp n (ai_val val_pi) ;;
  let val_pi := AInt v (ai_cfg val_pi) in
  val_pi_p <- int_mul md val_pi p_int ;;
  val_val_pi_p <- int_add md val val_pi_p ;;
  t <- int_shift_right md val_val_pi_p r_exp n ;;
  is_larger_or_eq <- int_larger_or_eq md t p_int n ;;
  is_larger_or_eq_int <- int_from_gate_ids [is_larger_or_eq] cfg n ;;
  one <- int_one cfg n ;;
  else_int <- int_sub md one is_larger_or_eq_int ;;
  p_subed_t <- int_sub md t p_int ;;
  a <- int_mul md is_larger_or_eq_int p_subed_t ;;
  b <- int_mul md else_int t ;;
  int_sub md a b.
Definition mont_t (n r_exp : nat) (p pmi v : Z) : Z := (signed n (v + (v * pmi) mod two_p r_exp * p) / two_p r_exp)%Z.
Definition fp_montz (n r_exp : nat) (p pmi v : Z) : Z :=
  let t := mont_t n r_exp p pmi v in
  let ge := negb (zless n t p) in
  (Z.b2z ge * (t - p) - (1 - Z.b2z ge) * t)%Z.
Lemma fp_mont_body_ok md n p pmi r s cfg l h i x X : (0 < n)%nat -> (8 * length (to_bytes_le p) <= n)%nat -> (8 * length (to_bytes_le pmi) <= n)%nat -> (r <= n)%nat ->
  bs l h s i [] -> int_cfg l h s cfg n -> int_val h s cfg n x X ->
  fp_body_ok l h s i cfg n (fp_mont_body md n p pmi r s cfg x) (fun ρ => fp_montz n r (Z.of_N p) (Z.of_N pmi) (X ρ)).
Proof.
  intros Hn Hp Hpmi Hr B C Vx.
  step E1 B1 C1 X1 p_int V1 (int_biguint_ok l h s i [] cfg n Hn B C p Hp).
  step E2 B2 C2 X2 pmi_int V2 (int_biguint_ok l _ s i [] cfg n Hn B1 C1 pmi Hpmi).
  step E3 B3 C3 X3 vp V3 (int_mul_ok md l _ s i [] cfg n Hn B2 C2 x pmi_int _ _ Vx V2).
  destruct (t_constant _ _ _ _ _ B3 false) as (fb & h4 & E4 & B4 & M4 & V4). pose proof (mv_ext _ _ _ _ _ M4) as X4. carry X4.
  pose proof (int_cfg_mv _ _ _ _ _ _ _ _ _ _ B3 M4 C3) as C4. destruct vp as [vv cc].
  stepx E5 B5 C5 X5 v V5 (clear_bits_ok l _ s i [] cfg n cc vv _ r fb Hr B4 C4 V4 V3).
  step E6 B6 C6 X6 vpp V6 (int_mul_ok md l _ s i [] cfg n Hn B5 C5 (AInt v cc) p_int _ _ V5 V1).
  step E7 B7 C7 X7 vs V7 (int_add_ok md l _ s i [] cfg n Hn B6 C6 x vpp _ _ Vx V6).
  destruct (int_shift_right_ok md _ s cfg n vs _ r Hn V7 Hr) as (t & E8 & _ & V8).
  step E9 B9 C9 X9 b_ge V9 (int_larger_or_eq_ok md l _ s i [] cfg n Hn B7 C7 t p_int _ _ V8 V1).
  stepx E10 B10 C10 X10 ge_int V10 (int_from_bit l _ s i [] cfg n b_ge _ Hn B9 C9 V9).
  step E11 B11 C11 X11 i_one V11 (int_one_ok l _ s i [] cfg n Hn B10 C10).
  step E12 B12 C12 X12 else_int V12 (int_sub_ok md l _ s i [] cfg n Hn B11 C11 i_one ge_int _ _ V11 V10).
  step E13 B13 C13 X13 d V13 (int_sub_ok md l _ s i [] cfg n Hn B12 C12 t p_int _ _ V8 V1).
  step E14 B14 C14 X14 a V14 (int_mul_ok md l _ s i [] cfg n Hn B13 C13 ge_int d _ _ V10 V13).
  step E15 B15 C15 X15 b V15 (int_mul_ok md l _ s i [] cfg n Hn B14 C14 else_int t _ _ V12 V8).
  destruct (int_sub_ok md l _ s i [] cfg n Hn B15 C15 a b _ _ V14 V15) as (out & h18 & E18 & (B18 & M18 & C18) & V18).
  exists out, h18. split.
  { unfold fp_mont_body. rewrite (st_bind_ok _ _ _ _ _ E1), (st_bind_ok _ _ _ _ _ E2), (st_bind_ok _ _ _ _ _ E3), (st_bind_ok _ _ _ _ _ E4).
    cbn [ai_val ai_cfg]. rewrite (st_bind_ok _ _ _ _ _ E5). cbn zeta. rewrite
      (st_bind_ok _ _ _ _ _ E6), (st_bind_ok _ _ _ _ _ E7), (st_bind_ok _ _ _ _ _ E8), (st_bind_ok _ _ _ _ _ E9), (st_bind_ok _ _ _ _ _ E10), (st_bind_ok _ _ _ _ _ E11),
      (st_bind_ok _ _ _ _ _ E12), (st_bind_ok _ _ _ _ _ E13), (st_bind_ok _ _ _ _ _ E14), (st_bind_ok _ _ _ _ _ E15). done. }
  finish M18. eapply int_val_eq; [exact V18|]. intros ρ. cbn beta. done.
Qed.
Lemma fp_build_mont_body md l cfg n p pmi r h : fp_build_mont_red md l cfg n p pmi r h = fp_build1 l cfg n (fp_mont_body md n p pmi r) h.
Proof. unfold fp_build_mont_red, fp_build1, fp_mont_body. apply bind_ext. intros [mid s] h1. cbn zeta. regroup. Qed.
Lemma fp_build_mont_ok md l cfg n p pmi r h : (0 < n)%nat -> (8 * length (to_bytes_le p) <= n)%nat -> (8 * length (to_bytes_le pmi) <= n)%nat -> (r <= n)%nat ->
  base h l -> int_cfg l h l cfg n ->
  exists mid h', fp_build_mont_red md l cfg n p pmi r h = (Ok mid, h') /\ built h l h' /\
    mspec l h' l mid n n (fun bits => zbits n (fp_montz n r (Z.of_N p) (Z.of_N pmi) (zval bits))).
Proof.
  intros Hn Hp Hpmi Hr Hb C. rewrite fp_build_mont_body.
  apply (fp_build1_ok l cfg n (fp_mont_body md n p pmi r) h (fp_montz n r (Z.of_N p) (Z.of_N pmi)) Hn Hb C).
  intros s h2 i x X B2 C2 Vx. by apply fp_mont_body_ok.
Qed.

(** * Multiplication *)
Definition fp_mul_body (md : mode) (n : nat) (r2 mont_red_mid : N) (s : nat) (cfg : int_config) (x y : aint) : M aint :=
  lr <- int_mul md x y ;;
  outs <- r_module md s mont_red_mid (ai_val lr) ;;
  lr_mod <- int_from_gate_ids outs cfg n ;;
  r2_int <- int_from_biguint r2 cfg n ;;
  lr_mod_r2 <- int_mul md lr_mod r2_int ;;
  outs <- r_module md s mont_red_mid (ai_val lr_mod_r2) ;;
  int_from_gate_ids outs cfg n.
Lemma fp_build_mul_body md l cfg n r2 mid h : fp_build_mul md l cfg n r2 mid h = fp_build2 l cfg n (fp_mul_body md n r2 mid) h.
Proof. unfold fp_build_mul, fp_build2, fp_mul_body. apply bind_ext. intros [mid' s] h1. regroup. Qed.
(** Montgomery reduction of an [n]-bit value. *)
Definition fp_montn (n r : nat) (p pmi v : Z) : Z := fp_montz n r p pmi (v mod two_p n)%Z.
Lemma fp_build_mul_ok md l cfg n p pmi r r2 mont h : (0 < n)%nat -> (8 * length (to_bytes_le r2) <= n)%nat -> base h l -> int_cfg l h l cfg n ->
  mspec l h l mont n n (fun bits => zbits n (fp_montz n r p pmi (zval bits))) ->
  exists mid h', fp_build_mul md l cfg n r2 mont h = (Ok mid, h') /\ built h l h' /\
    mspec l h' l mid (n + n) n (fun bits => zbits n (fp_montn n r p pmi (fp_montn n r p pmi (zval (take n bits) * zval (drop n bits)) * Z.of_N r2))).
Proof.
  intros Hn Hr2 Hb C Hm. rewrite fp_build_mul_body.
  apply (fp_build2_ok l cfg n (fp_mul_body md n r2 mont) h (fun a b => fp_montn n r p pmi (fp_montn n r p pmi (a * b) * Z.of_N r2))%Z Hn Hb C).
  intros s h2 i x y X Y B2 C2 Hms Vx Vy. pose proof (Hms _ _ _ _ Hm) as Hm2.
  destruct (int_mul_ok md l _ s i [] _ n Hn B2 C2 x y _ _ Vx Vy) as (lr & h3 & E3 & (B3 & M3 & C3) & V3). pose proof (mv_ext _ _ _ _ _ M3) as X3. carry X3.
  pose proof (mspec_bs_ext _ _ _ _ _ _ _ _ _ _ _ B2 X3 Hm2) as Hm3.
  destruct (int_module_ok md l _ s i [] _ n mont n _ (ai_val lr) _ (fun ρ => fp_montn n r p pmi (X ρ * Y ρ)) Hn B3 C3 Hm3 (iv_val _ _ _ _ _ _ V3) (iv_len _ _ _ _ _ _ V3))
    as (outs & h4 & z & h5 & E4 & E5 & B5 & X5 & C5 & _ & V5). { intros ρ. cbn beta. unfold fp_montn. rewrite zval_zbits. reflexivity. } carry X5.
  pose proof (mspec_bs_ext _ _ _ _ _ _ _ _ _ _ _ B3 X5 Hm3) as Hm5.
  destruct (int_biguint_ok l _ s i [] _ n Hn B5 C5 r2 Hr2) as (ri & h6 & E6 & (B6 & M6 & C6) & V6). pose proof (mv_ext _ _ _ _ _ M6) as X6. carry X6.
  pose proof (mspec_bs_ext _ _ _ _ _ _ _ _ _ _ _ B5 X6 Hm5) as Hm6.
  destruct (int_mul_ok md l _ s i [] _ n Hn B6 C6 z ri _ _ V5 V6) as (q & h7 & E7 & (B7 & M7 & C7) & V7). pose proof (mv_ext _ _ _ _ _ M7) as X7. carry X7.
  pose proof (mspec_bs_ext _ _ _ _ _ _ _ _ _ _ _ B6 X7 Hm6) as Hm7.
  destruct (int_module_ok md l _ s i [] _ n mont n _ (ai_val q) _ (fun ρ => fp_montn n r p pmi (fp_montn n r p pmi (X ρ * Y ρ) * Z.of_N r2)) Hn B7 C7 Hm7 (iv_val _ _ _ _ _ _ V7)
    (iv_len _ _ _ _ _ _ V7)) as (outs' & h8 & z' & h9 & E8 & E9 & B9 & X9 & C9 & Fo & V9). { intros ρ. cbn beta. unfold fp_montn. rewrite zval_zbits. reflexivity. }
  exists z', h9. split; [unfold fp_mul_body; by rewrite (st_bind_ok _ _ _ _ _ E3), (st_bind_ok _ _ _ _ _ E4), (st_bind_ok _ _ _ _ _ E5), (st_bind_ok _ _ _ _ _ E6),
    (st_bind_ok _ _ _ _ _ E7), (st_bind_ok _ _ _ _ _ E8)|].
  split; [done|]. split; [chain|]. split; [done|]. split; [apply Fo; chain|done].
Qed.
