(** Properties C62 and C63: what the writer makes of built programs and of texts that were read. *)
From Verif Require Export Prop_Straight Prop_Fp.
Open Scope N_scope.
Open Scope list_scope.

(** * Statements *)
(** The text [text] was written for the circuit at [l]; [consts] are the returned constants, [ws] the wires on which, according to the map of the
    caller, the outputs are. *)
Definition exported (h : heap) (l : nat) (first : N) (consts : list bool) (ws : list N) (text : string) : Prop :=
  exists wog st, writes h first (writer_new l) consts wog text st /\ outputs_of h l = Ok (N.of_nat (length ws)) /\
    forall k w, ws !! k = Some w -> exists c o, h_circ h !! l = Some c /\ output_map c !! N.of_nat k = Some o /\ wog !! o = Some w.
(** The lines of [p], executed on [ins] (the inputs and the constants), leave [outs] on the wires [ws]. *)
Definition lines_give (q : eq_meaning) (p : prog) (ins : list bool) (ws : list N) (outs : list bool) : Prop :=
  exists e, exec_lines q (load_from 0 ins) (pr_lines p) = Some e /\ map (fun w => e !! w) ws = map Some outs.
(** Whatever the split of the inputs: the circuit at [l] can be written, the text is a Bristol program, and on the inputs followed by the returned
    constants (and any bits for the announced constants that nothing needs) its lines give the outputs [outs] whenever [io ins outs]. *)
Definition exports (h : heap) (l : nat) (io : list bool -> list bool -> Prop) : Prop :=
  forall c first, h_circ h !! l = Some c -> first <= input_len c + num_const c -> sized c 0 ->
  exists consts ws text p, exported h l first consts ws text /\ parse_prog text = Some p /\ pr_in p = [first; input_len c + num_const c - first] /\
    N.of_nat (length consts) <= num_const c /\
    forall q pad ins outs, io ins outs -> N.of_nat (length (consts ++ pad)) = num_const c -> lines_give q p (ins ++ consts ++ pad) ws outs.

(** * From values to texts *)
Lemma dreach_inv h h' : dinv h -> cinv h -> dreach h h' -> dinv h' /\ cinv h'.
Proof. intros D C R. induction R as [h|h1 h2 h3 [md E] R IH]; [done|]. apply IH; [by eapply dinv_deff|by eapply cinv_deff]. Qed.
Lemma computes_exports h l (io : list bool -> list bool -> Prop) : dinv h -> cinv h ->
  (forall ins outs c, h_circ h !! l = Some c -> io ins outs -> N.of_nat (length ins) = input_len c /\ computes h l ins outs) -> exports h l io.
Proof.
  intros D C Hio c first E Hf Hs. destruct (writes_ok h l c first (writer_new l) D C E eq_refl Hf) as (gls & vals & wog & st & H & Hst).
  destruct (writes_inv h l c first (writer_new l) _ _ _ _ D C E eq_refl Hf H) as (gls' & Ht & Hp & _ & _ & O). specialize (Hp Hs).
  pose proof (hi_circ _ (di_inv _ D) _ _ E) as W.
  assert (Hws : exists ws : list N, N.of_nat (length ws) = output_len c /\
    forall k w, ws !! k = Some w -> exists o, output_map c !! N.of_nat k = Some o /\ wog !! o = Some w).
  { assert (Ho : forall k, k < output_len c -> exists o w, output_map c !! k = Some o /\ wog !! o = Some w).
    { intros k Hk. destruct (wf_outputs _ W k Hk) as (o & Eo & _). destruct (wr_outs _ _ _ _ _ _ _ O _ _ Eo) as [w Hw]. eauto. }
    clear - Ho. induction (output_len c) as [|n IH] using N.peano_ind; [by exists []|].
    destruct IH as (ws & Hl & Hw); [intros k Hk; apply Ho; lia|]. destruct (Ho n) as (o & w & Eo & Ew); [lia|]. exists (ws ++ [w]). split.
    - rewrite app_length. cbn. lia.
    - intros k w' [Hk|[Hk Hk']]%lookup_app_Some; [by apply Hw|]. apply list_lookup_singleton_Some in Hk' as [Hk' <-].
      replace (N.of_nat k) with n by lia. eauto. }
  destruct Hws as (ws & Lw & Hw). exists vals, ws, (show_prog (wprog c first gls)), (wprog c first gls').
  split. { exists wog, st. split; [done|]. split; [unfold outputs_of, on; by rewrite E, Lw|]. intros k w Hk. destruct (Hw _ _ Hk) as (o & Eo & Ew). eauto 6. }
  split; [done|]. split; [done|]. split; [apply (wr_consts _ _ _ _ _ _ _ O)|].
  intros q pad ins outs Hi Hpad. destruct (Hio _ _ _ E Hi) as [Li (c0 & E0 & Lo & Hc)]. rewrite E in E0. injection E0 as <-.
  destruct (wr_sound _ _ _ _ _ _ _ O q ins (load_from 0 (ins ++ vals ++ pad)) Li) as (e & He & _ & Hr).
  { intros i b. apply (loaded_at ins vals pad). }
  { intros i b. rewrite <- Li. apply (loaded_at ins vals pad). }
  exists e. split; [done|]. apply list_eq_same_length with (n := length ws); [by rewrite map_length; lia|by rewrite map_length|].
  intros k x y Hk Hx Hy. rewrite list_lookup_fmap in Hx. rewrite list_lookup_fmap in Hy. destruct (ws !! k) as [w|] eqn:Ew; [|done]. destruct (outs !! k) as [b|] eqn:Eb; [|done].
  injection Hx as <-. injection Hy as <-. destruct (Hw _ _ Ew) as (o & Eo & Hwo). destruct (Hr _ _ Hwo) as (b' & Hb' & V').
  destruct (Hc _ _ Eb) as (c1 & o1 & E1 & Eo1 & V1). rewrite E in E1. injection E1 as <-. rewrite Eo in Eo1. injection Eo1 as <-.
  rewrite Hb'. f_equal. by eapply gv_det.
Qed.
(** What the evaluator returns is what the text gives. *)
Lemma evaluates_exports h l n_in n_out F (io : list bool -> list bool -> Prop) : dinv h -> cinv h -> evaluates h l n_in n_out F ->
  (forall ins outs, io ins outs -> length ins = n_in /\ outs = F ins) -> exports h l io.
Proof.
  intros D C (H1 & H2 & H3) Hio. apply computes_exports; [done|done|]. intros ins outs c E Hi. destruct (Hio _ _ Hi) as [Hl ->].
  unfold inputs_of, on in H1. rewrite E in H1. injection H1 as H1. split; [by rewrite Hl|]. destruct (H3 Debug) as [d Hd].
  eapply eval_sound; [apply D|]. by apply (Hd d).
Qed.
Lemma exports_impl h l (io io' : list bool -> list bool -> Prop) : exports h l io -> (forall ins outs, io' ins outs -> io ins outs) -> exports h l io'.
Proof.
  intros H Hio c first E Hf Hs. destruct (H c first E Hf Hs) as (consts & ws & text & p & H1 & H2 & H3 & H4 & H5). exists consts, ws, text, p.
  do 4 (split; [done|]). eauto.
Qed.

(** * C62: expressions and programs *)
Lemma concat_words n vs m : length vs = m -> length (concat (map (zbits n) vs)) = (m * n)%nat.
Proof.
  intros <-. rewrite (concat_length _ n); [by rewrite map_length|]. apply Forall_map, Forall_forall. intros. apply zbits_length.
Qed.
(** Bit vectors. *)
Lemma bits_program_reach md h l n m e h' : (0 < n)%nat -> BuildEval.fresh h l -> bwf m n e -> bits_program md l n m e h = (Ok tt, h') -> dreach h h'.
Proof.
  intros Hn Hf Hw Eh. destruct (bits_config_new_ok md h l n (fresh_base _ _ Hf)) as (cfg & h1 & E1 & T1 & C1).
  pose proof (bs_built _ _ _ _ _ T1 (fresh_bs _ _ Hf)) as B1.
  destruct (bits_vars_ok md h1 l 0 [] cfg n m B1 C1) as (vars & h2 & E2 & Lv & B2 & X2 & C2 & V2 & F2).
  destruct (bbuild_ok md l _ [] cfg n _ Hn e vars h2 B2 C2 V2) as (z & h3 & E3 & B3 & X3 & C3 & V3 & F3); [by rewrite map_length, seq_length|].
  destruct (bits_output_ok md h3 l _ [] cfg n B3 C3 z _ V3) as (h4 & E4 & B4 & M4 & C4).
  unfold bits_program in Eh. rewrite (st_bind_ok _ _ _ _ _ E1), (st_bind_ok _ _ _ _ _ E2), (st_bind_ok _ _ _ _ _ E3), E4 in Eh. injection Eh as <-.
  eapply dreach_trans; [apply T1|]. eapply dreach_trans; [apply X2|]. eapply dreach_trans; [apply X3|apply M4].
Qed.
Theorem C62_bits md h l n m e : (0 < n)%nat -> BuildEval.fresh h l -> cinv h -> bwf m n e ->
  exists h', bits_program md l n m e h = (Ok tt, h') /\
    exports h' l (fun ins outs => exists vs, length vs = m /\ Forall (fun v => length v = n) vs /\ ins = concat vs /\ outs = bval n vs e).
Proof.
  intros Hn Hf C Hw. destruct (C37_expressions md h l n m e Hn Hf Hw) as (h' & E & Hi & Ho & Ev). exists h'. split; [done|].
  destruct (dreach_inv _ _ (fr_d _ _ Hf) C (bits_program_reach _ _ _ _ _ _ _ Hn Hf Hw E)) as [D' C'].
  apply computes_exports; [done|done|]. intros ins outs c Ec (vs & Lm & Lv & -> & ->). unfold inputs_of, on in Hi. rewrite Ec in Hi. injection Hi as Hi.
  split; [by rewrite (concat_length vs n), Lm, Hi|]. destruct (Ev Debug) as [d Hd]. eapply eval_sound; [apply D'|]. by apply (Hd d).
Qed.
(** Field elements. *)
Lemma fp_program_reach md h l n p r m e h' : fp_fits n p r -> BuildEval.fresh h l -> fwf m n e -> fp_program md l n p r m e h = (Ok tt, h') -> dreach h h'.
Proof.
  intros Hf Hfr Hw Eh. assert (Hn : (0 < n)%nat) by (destruct Hf; lia). destruct (fp_setup_ok md h l n p r Hf (fresh_base _ _ Hfr)) as (cfg & h1 & v & E1 & T1 & C1 & Ep & _).
  pose proof (bs_built _ _ _ _ _ T1 (fresh_bs _ _ Hfr)) as B1.
  destruct (fp_vars_ok l h1 l 0 [] cfg n m Hn B1 C1) as (vars & h2 & E2 & B2 & X2 & C2 & V2 & F2).
  destruct (fbuild_ok md l l _ [] cfg n Hn _ e vars h2 B2 C2 V2) as (z & h3 & E3 & B3 & X3 & C3 & [_ V3] & F3); [by rewrite map_length, seq_length|].
  destruct (int_output_ok l h3 l _ [] _ n Hn B3 (fk_int _ _ _ _ _ C3) (af_val z) _ V3) as (h4 & E4 & B4 & M4 & C4).
  unfold fp_program in Eh. rewrite (st_bind_ok _ _ _ _ _ E1), (st_bind_ok _ _ _ _ _ E2), (st_bind_ok _ _ _ _ _ E3) in Eh. unfold fp_output in Eh. rewrite E4 in Eh. injection Eh as <-.
  eapply dreach_trans; [apply T1|]. eapply dreach_trans; [apply X2|]. eapply dreach_trans; [apply X3|apply M4].
Qed.
Theorem C62_field md h l n p r m e : fp_fits n p r -> BuildEval.fresh h l -> cinv h -> (1 <= p)%N -> (2 * Z.of_N p < 2 ^ (Z.of_nat n - 1))%Z -> fok m p e ->
  exists h', fp_program md l n p r m e h = (Ok tt, h') /\
    exports h' l (fun ins outs => exists vs, length vs = m /\ in_field (Z.of_N p) vs /\ ins = concat (map (zbits n) vs) /\ outs = zbits n (fval (Z.of_N p) vs e)).
Proof.
  intros Hf Hfr C Hp Hp2 Hk. destruct (C57_expressions md h l n p r m e Hf Hfr Hp Hp2 Hk) as (h' & E & Hi & Ho & Ev). exists h'. split; [done|].
  destruct (dreach_inv _ _ (fr_d _ _ Hfr) C (fp_program_reach _ _ _ _ _ _ _ _ _ Hf Hfr (fok_fwf _ _ _ _ _ Hf Hk) E)) as [D' C'].
  apply computes_exports; [done|done|]. intros ins outs c Ec (vs & Lm & Lv & -> & ->). unfold inputs_of, on in Hi. rewrite Ec in Hi. injection Hi as Hi.
  split; [by rewrite (concat_words n vs m), Hi|]. destruct (Ev Debug) as [d Hd]. eapply eval_sound; [apply D'|]. by apply (Hd d).
Qed.

(** Programs over integers, of any length: variables must be defined before they are used, nothing else is asked of the order. *)
Fixpoint pwf (n m : nat) (p : list sinstr) : Prop :=
  match p with
  | [] => True
  | SInput :: p => pwf n (S m) p
  | SLet e :: p => iwf m n e /\ pwf n (S m) p
  | SSet d e :: p => (d < m)%nat /\ iwf m n e /\ pwf n m p
  | SOut k :: p => (k < m)%nat /\ pwf n m p
  end.
Lemma swf_pwf n p : forall cls used uo nxt, swf n cls used uo nxt p -> pwf n (length cls) p.
Proof.
  induction p as [|[|e|d e|k] p IH]; intros cls used uo nxt Hw; cbn [swf pwf] in *; [done| | | |].
  - apply IH in Hw. by rewrite app_length, Nat.add_1_r in Hw.
  - destruct Hw as [We Hw]. split; [done|]. apply IH in Hw. by rewrite app_length, Nat.add_1_r in Hw.
  - destruct Hw as (Hd & We & Hw). split; [done|]. split; [done|]. apply IH in Hw. by rewrite insert_length in Hw.
  - destruct Hw as (Hk & _ & Hw). split; [done|]. by eapply IH.
Qed.
Lemma pbuild_ok md l cfg n : (0 < n)%nat -> forall p h i os vars Vs G, bs l h l i os -> int_cfg l h l cfg n -> ivars_at h l cfg n vars Vs ->
  pwf n (length Vs) p -> gfs h l os G ->
  exists h' os', sbuild md cfg n vars p h = (Ok tt, h') /\ ext l h h' /\ bs l h' l (i + N.of_nat (sinputs p * n)) os' /\
    gfs h' l os' (fun ρ => G ρ ++ concat (map (zbits n) (srun n (sins i n p ρ) (zvars Vs ρ) p))).
Proof.
  intros Hn. induction p as [|s p IH]; intros h i os vars Vs G B C V Hw Ho.
  { exists h, os. split; [done|]. split; [apply ext_refl|]. cbn [sinputs List.filter length Nat.mul srun map concat]. rewrite N.add_0_r. split; [done|].
    eapply gfs_eq; [exact Ho|]. intros ρ. cbn beta. by rewrite app_nil_r. }
  pose proof (Forall2_length _ _ _ V) as LV. destruct s as [|e|d e|k]; cbn [pwf sbuild] in *.
  - destruct (int_new_ok l h l i os cfg n Hn B C) as (z & h1 & E1 & (B1 & M1 & C1) & V1).
    destruct (IH h1 (i + N.of_nat n) os (vars ++ [z]) (Vs ++ [fun ρ => zval (inb i n ρ)]) G B1 C1) as (h' & os' & E & X & B' & F').
    { apply Forall2_app; [by eapply ivars_at_ext; [apply M1|]|]. by constructor. }
    { by rewrite app_length, Nat.add_1_r. }
    { exact (gfs_mv _ _ _ _ _ _ _ _ M1 Ho). }
    exists h', os'. rewrite (st_bind_ok _ _ _ _ _ E1). split; [done|]. split; [eapply ext_trans; [apply M1|done]|].
    assert (Hs : sinputs (SInput :: p) = S (sinputs p)) by done. rewrite Hs. cbn [Nat.mul].
    split; [by replace (i + N.of_nat (n + sinputs p * n)) with (i + N.of_nat n + N.of_nat (sinputs p * n)) by lia|].
    eapply gfs_eq; [exact F'|]. intros ρ. cbn [srun]. do 3 f_equal.
    assert (Hi : sins i n (SInput :: p) ρ = zval (inb i n ρ) :: sins (i + N.of_nat n) n p ρ).
    { unfold sins. rewrite Hs. cbn [seq map]. f_equal; [by rewrite Nat.mul_0_l, N.add_0_r|]. rewrite <- seq_shift, map_map. apply map_ext. intros j. do 2 f_equal. lia. }
    rewrite Hi. cbn [tail hd]. f_equal. unfold zvars. by rewrite map_app.
  - destruct Hw as [We Hw]. destruct (ibuild_step md l l i os cfg n Vs Hn e vars h B C V We) as (z & h1 & E1 & S1).
    pose proof S1 as [B1 X1 C1 V1 _ _ _ _].
    destruct (IH h1 i os (vars ++ [z]) (Vs ++ [fun ρ => ival n (zvars Vs ρ) e]) G B1 C1) as (h' & os' & E & X & B' & F').
    { apply Forall2_app; [by eapply ivars_at_ext|]. by constructor. }
    { by rewrite app_length, Nat.add_1_r. }
    { exact (gfs_ext _ _ _ _ _ _ X1 Ho). }
    exists h', os'. rewrite (st_bind_ok _ _ _ _ _ E1). split; [done|]. split; [by eapply ext_trans|]. split; [done|].
    eapply gfs_eq; [exact F'|]. intros ρ. cbn [srun].
    assert (Hz : zvars (Vs ++ [fun ρ => ival n (zvars Vs ρ) e]) ρ = zvars Vs ρ ++ [ival n (zvars Vs ρ) e]) by (unfold zvars; by rewrite map_app).
    by rewrite Hz.
  - destruct Hw as (Hd & We & Hw). destruct (ibuild_step md l l i os cfg n Vs Hn e vars h B C V We) as (z & h1 & E1 & S1).
    pose proof S1 as [B1 X1 C1 V1 _ _ _ _].
    destruct (IH h1 i os (<[d := z]> vars) (<[d := fun ρ => ival n (zvars Vs ρ) e]> Vs) G B1 C1) as (h' & os' & E & X & B' & F').
    { apply Forall2_insert; [by eapply ivars_at_ext|done]. }
    { by rewrite insert_length. }
    { exact (gfs_ext _ _ _ _ _ _ X1 Ho). }
    exists h', os'. rewrite (st_bind_ok _ _ _ _ _ E1). split; [done|]. split; [by eapply ext_trans|]. split; [done|].
    eapply gfs_eq; [exact F'|]. intros ρ. cbn [srun].
    assert (Hz : zvars (<[d := fun ρ => ival n (zvars Vs ρ) e]> Vs) ρ = <[d := ival n (zvars Vs ρ) e]> (zvars Vs ρ)).
    { unfold zvars. exact (list_fmap_insert (fun V : (N -> bool) -> Z => V ρ) Vs d (fun ρ => ival n (zvars Vs ρ) e)). }
    by rewrite Hz.
  - destruct Hw as (Hk & Hw). destruct (lookup_lt_is_Some_2 vars k) as [x Hx]; [lia|]. destruct (Forall2_lookup_l _ _ _ _ _ V Hx) as (X & HX & V1).
    destruct (int_output_ok l h l i os cfg n Hn B C x X V1) as (h1 & E1 & B1 & M1 & C1).
    destruct (IH h1 i (os ++ ai_val x) vars Vs (fun ρ => G ρ ++ zbits n (X ρ)) B1 C1) as (h' & os' & E & X' & B' & F').
    { by eapply ivars_at_ext; [apply M1|]. }
    { done. }
    { exact (gfs_app _ _ _ _ _ _ (gfs_mv _ _ _ _ _ _ _ _ M1 Ho) (gfs_mv _ _ _ _ _ _ _ _ M1 (iv_val _ _ _ _ _ _ V1))). }
    exists h', os'. rewrite (st_bind_ok _ _ _ _ _ (st_nth_ok _ _ _ _ Hx)), (st_bind_ok _ _ _ _ _ E1). split; [done|]. split; [eapply ext_trans; [apply M1|done]|]. split; [done|].
    eapply gfs_eq; [exact F'|]. intros ρ. cbn [srun map concat]. rewrite <- app_assoc. do 3 f_equal. symmetry. apply nth_lookup_Some. unfold zvars. by rewrite list_lookup_fmap, HX.
Qed.
Lemma prun_mod n p m ins ins' vs vs' : pwf n m p -> length vs = m -> zsame n ins ins' -> zsame n vs vs' ->
  map (zbits n) (srun n ins vs p) = map (zbits n) (srun n ins' vs' p).
Proof.
  revert m ins ins' vs vs'. induction p as [|[|e|d e|k] p IH]; intros m ins ins' vs vs' Hw Hl Hi Hv; cbn [pwf srun map] in *.
  - done.
  - eapply IH; [exact Hw|rewrite app_length, Hl; cbn; lia|unfold zsame in *; destruct Hi; [constructor|done]|]. apply Forall2_app; [done|]. constructor; [|constructor]. unfold zsame in *. destruct Hi; done.
  - destruct Hw as [We Hw]. eapply IH; [exact Hw|rewrite app_length, Hl; cbn; lia|done|]. apply Forall2_app; [done|]. constructor; [|constructor].
    eapply ival_mod; [exact We|]. intros k _. by apply zsame_nth.
  - destruct Hw as (Hd & We & Hw). eapply IH; [exact Hw|by rewrite insert_length|done|]. apply Forall2_insert; [done|].
    eapply ival_mod; [exact We|]. intros k _. by apply zsame_nth.
  - destruct Hw as (Hk & Hw). f_equal; [apply zbits_inj; by apply zsame_nth|]. by eapply IH.
Qed.
Theorem C62_programs md h l n p : (1 <= n)%nat -> BuildEval.fresh h l -> cinv h -> pwf n 0 p ->
  exists h', straight_program md l n p h = (Ok tt, h') /\
    exports h' l (fun ins outs => exists vs, length vs = sinputs p /\ ins = concat (map (zbits n) vs) /\ outs = concat (map (zbits n) (srun n vs [] p))).
Proof.
  intros Hn Hf C Hw. destruct (int_config_new_ok md h l n Hn (fresh_base _ _ Hf)) as (cfg & h1 & E1 & T1 & C1).
  pose proof (bs_built _ _ _ _ _ T1 (fresh_bs _ _ Hf)) as B1.
  destruct (pbuild_ok md l cfg n Hn p h1 0 [] [] [] (fun _ => []) B1 C1) as (h' & os & E & X & B & F); [constructor|done|apply gfs_nil|].
  exists h'. split; [unfold straight_program; by rewrite (st_bind_ok _ _ _ _ _ E1)|]. rewrite N.add_0_l in B.
  destruct (dreach_inv h h' (fr_d _ _ Hf) C) as [D' C']. { eapply dreach_trans; [apply T1|apply X]. }
  apply computes_exports; [done|done|]. intros ins outs c Ec (vs & Lm & -> & ->).
  pose proof (concat_words n vs _ Lm) as Hl. split.
  { destruct B as [c0 B]. pose proof (bs_c _ _ _ _ _ _ B) as Ec0. rewrite Ec in Ec0. injection Ec0 as <-. by rewrite (bs_i _ _ _ _ _ _ B), Hl. }
  assert (Hv : concat (map (zbits n) (srun n vs [] p)) = [] ++ concat (map (zbits n) (srun n (sins 0 n p (wires (concat (map (zbits n) vs)))) (zvars [] (wires (concat (map (zbits n) vs)))) p))).
  { cbn [app]. f_equal. eapply prun_mod; [exact Hw|done| |constructor].
    assert (Hvs : Forall (fun v => length v = n) (map (zbits n) vs)). { apply Forall_map, Forall_forall. intros. apply zbits_length. }
    pose proof (inb_concat _ n Hvs) as Hi. rewrite map_length, Lm in Hi.
    assert (Hz : sins 0 n p (wires (concat (map (zbits n) vs))) = map (fun v => v mod two_p n)%Z vs).
    { unfold sins. apply (f_equal (map zval)) in Hi. rewrite !map_map in Hi. etrans; [exact Hi|]. apply map_ext. intros a. apply zval_zbits. }
    rewrite Hz. unfold zsame. apply Forall2_fmap_r, Forall_Forall2_diag, Forall_forall. intros a _. symmetry. apply Z.mod_mod. pose proof (two_p_pos n). lia. }
  rewrite Hv. exact (bs_computes l h' l _ os _ (concat (map (zbits n) vs)) B F ltac:(by rewrite Hl)).
Qed.
(** The order of outputs and uses, which decides whether the evaluator succeeds (C61), does not matter here: the evaluator fails on this program, its
    text is right. *)
Lemma cinv_blank1 : cinv blank1.
Proof. apply cinv_run, disciplined_b_sound. by vm_compute. Qed.
Example C62_example : BuildEval.fresh blank1 0 /\ cinv blank1 /\ pwf 4 0 straight_bad /\ srun 4 [3; 6]%Z [] straight_bad = [1; 3]%Z /\
  try_program (straight_program Debug 0 4 straight_bad) 100 (zbits 4 3 ++ zbits 4 6) = None /\
  pwf 4 0 straight_demo /\ bwf 3 3 bexp_demo /\ fp_fits 8 13 4 /\ fok 2 13 fexp_demo.
Proof.
  split; [apply fresh_blank1|]. split; [apply cinv_blank1|]. split; [cbn; lia|]. split; [reflexivity|]. split; [vm_compute; reflexivity|].
  split; [cbn; lia|]. split; [cbn; lia|]. split; [split; [lia|]; split; [done|]; left; cbn; lia|cbn; lia].
Qed.

(** * C63: what was read can be written *)
Theorem C63_rewrite md h l text h' p first : target h l -> cinv h -> read_fresh md l text h = (Ok tt, h') -> parse_prog text = Some p ->
  Bristol.nsum (pr_out p) <= pr_wires p -> first <= Bristol.nsum (pr_in p) -> Bristol.nsum (pr_in p) + 2 * N.of_nat (length (pr_lines p)) < 2 ^ 64 ->
  exists ws text' p', exported h' l first [] ws text' /\ parse_prog text' = Some p' /\ pr_in p' = [first; Bristol.nsum (pr_in p) - first] /\
    forall q ins outs, run_prog EqCopies p ins = Some outs -> lines_give q p' ins ws outs.
Proof.
  intros T C H P Ho Hf Hs. destruct (C18_read _ _ _ _ _ T H) as (p0 & P0 & _ & K). rewrite P in P0. injection P0 as <-. destruct (K Ho) as (Hi & Hou & Hrun). clear K.
  destruct (read_reach md h l text h' T H) as [W X]; [by rewrite P|intros p0 P0; rewrite P in P0; by injection P0 as <-|].
  destruct (dreach_inv _ _ (proj1 T) C (ext_reach _ _ _ X)) as [D' C'].
  destruct (Hrun (replicate (N.to_nat (Bristol.nsum (pr_in p))) false)) as (o0 & R0 & _); [rewrite replicate_length; lia|].
  destruct (C19_accepts md h l text p _ T P (mk_is_Some _ _ R0)) as (h1 & H1 & _ & _ & c & Ec & Hg & Hk). rewrite H in H1. injection H1 as <-.
  pose proof Hi as Hi'. pose proof Hou as Hou'. unfold inputs_of, outputs_of, on in Hi', Hou'. rewrite Ec in Hi', Hou'. injection Hi' as Hi'. injection Hou' as Hou'.
  assert (E : exports h' l (fun ins outs => run_prog EqCopies p ins = Some outs)).
  { apply computes_exports; [done|done|]. intros ins outs c0 Ec0 R. rewrite Ec in Ec0. injection Ec0 as <-.
    pose proof (proj1 (run_prog_exec _ _ _ _) R) as (Hl & _). split; [by rewrite Hl, Hi'|]. destruct (Hrun ins Hl) as (outs' & R' & Hc). rewrite R in R'. by injection R' as <-. }
  assert (Hgs : num_gate c <= 2 * N.of_nat (length (pr_lines p))).
  { rewrite Hg. clear. unfold Bristol.nsum. induction (pr_lines p) as [|gl gls IH]; [done|]. cbn [map fold_right length] in *. rewrite Nat2N.inj_succ. destruct (gl_kind gl); lia. }
  destruct (E c first Ec) as (consts & ws & text' & p' & H1 & H2 & H3 & H4 & H5).
  { rewrite Hi', Hk. lia. }
  { pose proof (parse_wires _ _ P). split; [rewrite Hi', Hk; lia|rewrite Hou'; lia]. }
  rewrite Hk in H4. destruct consts; [|cbn in H4; lia]. exists ws, text', p'. split; [done|]. split; [done|]. split; [by rewrite H3, Hi', Hk, N.add_0_r|].
  intros q ins outs R. specialize (H5 q [] ins outs R). rewrite !app_nil_r in H5. apply H5. by rewrite Hk.
Qed.
Lemma cinv_blank : cinv blank.
Proof. apply cinv_run, disciplined_b_sound. by vm_compute. Qed.
(** The half adder of C18, whose lines contain two copies: each comes back as two INV lines. *)
Example C63_example : target blank 0 /\ cinv blank /\ exists h' p, read_fresh Debug 0 half_adder blank = (Ok tt, h') /\ parse_prog half_adder = Some p /\
  Bristol.nsum (pr_out p) <= pr_wires p /\ 1 <= Bristol.nsum (pr_in p) /\ Bristol.nsum (pr_in p) + 2 * N.of_nat (length (pr_lines p)) < 2 ^ 64 /\
  run_prog EqCopies p [true; true] = Some [false; true] /\
  exists wog st, writes h' 1 (writer_new 0) [] wog (show_prog (Prog 6 8 [1; 1] [2]
    [GLine KInv [0] [2]; GLine KInv [2] [3]; GLine KXor [3; 1] [4]; GLine KInv [4] [5]; GLine KInv [5] [6]; GLine KAnd [0; 1] [7]])) st.
Proof.
  split; [apply blank_target; lia|]. split; [apply cinv_blank|]. eexists.
  exists (Prog 4 6 [1; 1] [2] [GLine KEqw [0] [2]; GLine KXor [2; 1] [3]; GLine KEqw [3] [4]; GLine KAnd [0; 1] [5]]).
  split; [vm_compute; reflexivity|]. split; [vm_compute; reflexivity|]. split; [vm_compute; done|]. split; [vm_compute; done|]. split; [vm_compute; done|].
  split; [vm_compute; reflexivity|]. do 2 eexists. apply (writes_intro _ 20); [vm_compute; reflexivity|vm_compute; reflexivity].
Qed.
