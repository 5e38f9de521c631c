(** Imperative programs over AllocInt: C61. *)
From Verif Require Export Prop_Int Prop_Outcomes.
Open Scope list_scope.

(** * Programs *)
(** A statement: allocate an input variable, bind a new variable to an expression, assign to an existing one ([x += y] is
    [SSet x (IAdd (IVar x) (IVar y))]: int.rs 227-264 make the call of [+] and store its result), output a variable. *)
Inductive sinstr := SInput | SLet (e : iexp) | SSet (d : nat) (e : iexp) | SOut (k : nat).
Definition sinputs (p : list sinstr) : nat := length (List.filter (fun s => match s with SInput => true | _ => false end) p).
Definition soutputs (p : list sinstr) : nat := length (List.filter (fun s => match s with SOut _ => true | _ => false end) p).
(** The numbers a program outputs: [ins] the inputs not read yet, [vs] the values of the variables. *)
Fixpoint srun (n : nat) (ins vs : list Z) (p : list sinstr) : list Z :=
  match p with
  | [] => []
  | SInput :: p => srun n (tail ins) (vs ++ [hd 0%Z ins]) p
  | SLet e :: p => srun n ins (vs ++ [ival n vs e]) p
  | SSet d e :: p => srun n ins (<[d := ival n vs e]> vs) p
  | SOut k :: p => nth k vs 0%Z :: srun n ins vs p
  end.
(** The calls. *)
Fixpoint sbuild (md : mode) (cfg : int_config) (n : nat) (vars : list aint) (p : list sinstr) : M unit :=
  match p with
  | [] => st_ret tt
  | SInput :: p => x <- int_new cfg n ;; sbuild md cfg n (vars ++ [x]) p
  | SLet e :: p => z <- ibuild md cfg n vars e ;; sbuild md cfg n (vars ++ [z]) p
  | SSet d e :: p => z <- ibuild md cfg n vars e ;; sbuild md cfg n (<[d := z]> vars) p
  | SOut k :: p => x <- st_nth vars k ;; _ <- int_output x n ;; sbuild md cfg n vars p
  end.
Definition straight_program (md : mode) (l n : nat) (p : list sinstr) : M unit := cfg <- int_config_new md l n ;; sbuild md cfg n [] p.

(** ** Which programs *)
Fixpoint ivars (e : iexp) : list nat :=
  match e with
  | IVar k => [k]
  | IBig _ | IZero | IOne => []
  | IAdd e1 e2 | ISub e1 e2 | IMul e1 e2 | ICmp _ e1 e2 => ivars e1 ++ ivars e2
  | INeg e | IShl e _ | IShr e _ | ITrunc _ e => ivars e
  end.
(** The variable whose gates the value of [e] has: shifting moves gates, it makes none but zeros. *)
Fixpoint ialias (e : iexp) : option nat :=
  match e with IVar k => Some k | IShl e _ | IShr e _ | ITrunc _ e => ialias e | _ => None end.
Definition ialiases (e : iexp) : list nat := match ialias e with Some k => [k] | None => [] end.
(** The variables whose gates become operands of calls with one output: comparisons, and on one bit everything. *)
Fixpoint ireads (n : nat) (e : iexp) : list nat :=
  match e with
  | IVar _ | IBig _ | IZero | IOne => []
  | IAdd e1 e2 | ISub e1 e2 | IMul e1 e2 => ireads n e1 ++ ireads n e2 ++ if (2 <=? n)%nat then [] else ialiases e1 ++ ialiases e2
  | INeg e => ireads n e ++ if (2 <=? n)%nat then [] else ialiases e
  | ICmp _ e1 e2 => ireads n e1 ++ ireads n e2 ++ ialiases e1 ++ ialiases e2
  | IShl e _ | IShr e _ | ITrunc _ e => ireads n e
  end.
(** Variables that may have gates in common have the same class; [used]: the classes of which gates are operands of calls with one output; [uo]:
    those of which this was so at the last output. A variable may be output if its class is not in [uo]: it may be used without restriction in
    arithmetic (with at least two bits), and compared before or after it is output, only not before the output that precedes its own. *)
Fixpoint swf (n : nat) (cls used uo : list nat) (nxt : nat) (p : list sinstr) : Prop :=
  match p with
  | [] => True
  | SInput :: p => swf n (cls ++ [nxt]) used uo (S nxt) p
  | SLet e :: p => iwf (length cls) n e /\
      swf n (cls ++ [from_option (fun k => nth k cls nxt) nxt (ialias e)]) (map (fun k => nth k cls nxt) (ireads n e) ++ used) uo (S nxt) p
  | SSet d e :: p => (d < length cls)%nat /\ iwf (length cls) n e /\
      swf n (<[d := from_option (fun k => nth k cls nxt) nxt (ialias e)]> cls) (map (fun k => nth k cls nxt) (ireads n e) ++ used) uo (S nxt) p
  | SOut k :: p => (k < length cls)%nat /\ nth k cls nxt ∉ uo /\ swf n cls used used nxt p
  end.

(** * Gates without operands *)
Definition leaf (h : heap) (l : nat) (g : N) : Prop := has_gate h l g /\ forall c gt, h_circ h !! l = Some c -> gate_map c !! g = Some gt -> operands gt = [].
Lemma leaf_hle h h' l g : hle h h' -> leaf h l g -> leaf h' l g.
Proof.
  intros L [Hg Ho]. split; [by eapply has_gate_hle|]. intros c gt E G. destruct Hg as (c0 & E0 & gt0 & G0).
  destruct (hle_circ _ _ L l c0 E0) as (c' & E' & Hc). rewrite E in E'. injection E' as <-.
  pose proof (lookup_weaken _ _ _ _ G0 (cle_gates _ _ Hc)) as G1. rewrite G in G1. injection G1 as <-. by eapply Ho.
Qed.
Lemma constant_leaf p h l i os b g h' : bs p h l i os -> r_constant l b h = (Ok g, h') -> leaf h' l g.
Proof.
  intros [c B] E. destruct (r_constant_ok h l c (bs_c _ _ _ _ _ _ B) b) as (c2 & E2 & P2). rewrite E in E2. injection E2 as -> ->.
  pose proof (upd_lookup h l c2 c (bs_c _ _ _ _ _ _ B)) as Ec. pose proof (push_at c _ c2 P2) as G2.
  split; [exists c2; eauto|]. intros c3 gt E3 G3. rewrite Ec in E3. injection E3 as <-. rewrite G2 in G3. by injection G3 as <-.
Qed.
Lemma consts_leaf p h l i os b n gs h' : bs p h l i os -> b_consts l b n h = (Ok gs, h') -> Forall (leaf h' l) gs.
Proof.
  intros B E. destruct (mapM_inv (fun _ : nat => r_constant l b) (seq 0 n) (fun gs h' => bs p h' l i os /\ Forall (leaf h' l) gs) h) as (gs' & h2 & E' & _ & _ & H).
  - intros gs1 _ h1 _ (B1 & F1). destruct (t_constant _ _ _ _ _ B1 b) as (g & h2 & E2 & B2 & M2 & _). exists g, h2. split; [done|]. split; [done|].
    apply Forall_app. split; [|constructor; [exact (constant_leaf _ _ _ _ _ _ _ _ B1 E2)|constructor]]. eapply Forall_impl; [exact F1|]. intros g0. apply leaf_hle, M2.
  - done.
  - unfold b_consts in E. rewrite E in E'. by injection E' as <- <-.
Qed.
Lemma shift_left_leaf p h l i os cfg n x k z h' : bs p h l i os -> ai_cfg x = cfg -> ic_ref cfg = l -> int_shift_left x k n h = (Ok z, h') ->
  forall g, g ∈ ai_val z -> g ∈ ai_val x \/ leaf h' l g.
Proof.
  intros B Hc Hr E. unfold int_shift_left in E. rewrite Hc, Hr in E. destruct (t_consts p h l i os false k B) as (zs & h1 & E1 & _).
  rewrite (st_bind_ok _ _ _ _ _ E1) in E. unfold st_bind in E. destruct (st_mapM _ _ h1) as [[rest| | |] h2] eqn:E2; try done. injection E as <- <-.
  assert (H : h1 = h2 /\ forall g, g ∈ rest -> g ∈ ai_val x).
  { clear - E2. revert rest h2 E2. induction (range k n) as [|j js IH]; intros rest h2 E2; cbn [st_mapM] in E2; [injection E2 as <- <-; split; [done|by intros ? []%elem_of_nil]|].
    unfold st_bind in E2. destruct (st_nth (ai_val x) (j - k) h1) as [[g| | |] h3] eqn:E3; try done.
    assert (Hg : h3 = h1 /\ g ∈ ai_val x). { unfold st_nth in E3. destruct (ai_val x !! (j - k)%nat) eqn:El; [|done]. injection E3 as <- <-. split; [done|by eapply elem_of_list_lookup_2]. }
    destruct Hg as [-> Hg]. destruct (st_mapM _ js h1) as [[r| | |] h4] eqn:E4; try done. injection E2 as <- <-. destruct (IH _ _ eq_refl) as [<- H]. split; [done|].
    intros g0 [-> |H0]%elem_of_cons; [done|by apply H]. }
  destruct H as [<- H]. intros g [Hg|Hg]%elem_of_app; [|left; by apply H]. right. pose proof (consts_leaf _ _ _ _ _ _ _ _ _ B E1) as F. rewrite Forall_forall in F. by apply F.
Qed.
Lemma from_leaf p h l i os cfg n v z h' : bs p h l i os -> ic_ref cfg = l -> int_from_gate_ids v cfg n h = (Ok z, h') ->
  forall g, g ∈ ai_val z -> g ∈ v \/ leaf h' l g.
Proof.
  intros B Hr E. unfold int_from_gate_ids in E. rewrite Hr in E. case_decide; [|done]. destruct (t_consts p h l i os false (n - length v) B) as (zs & h1 & E1 & _).
  rewrite (st_bind_ok _ _ _ _ _ E1) in E. injection E as <- <-. intros g [Hg|Hg]%elem_of_app; [by left|]. right.
  pose proof (consts_leaf _ _ _ _ _ _ _ _ _ B E1) as F. rewrite Forall_forall in F. by apply F.
Qed.

(** * Arguments of calls with several outputs *)
Definition pinned (h : heap) (l : nat) (g : N) : Prop :=
  exists c d gt, h_circ h !! l = Some c /\ gate_map c !! d = Some gt /\ g ∈ operands gt /\ gate_oi gt <> 0.
Definition safe_gate (h : heap) (l : nat) (g : N) : Prop := free h l g \/ pinned h l g.
Lemma pinned_hle h h' l g : hle h h' -> pinned h l g -> pinned h' l g.
Proof.
  intros L (c & d & gt & E & G & Ho & Hi). destruct (hle_circ _ _ L l c E) as (c' & E' & Hc). exists c', d, gt.
  split; [done|]. split; [|done]. eapply lookup_weaken; [done|apply Hc].
Qed.
Lemma module_pins md p h l i os mid n_in n_out F ids outs h' : bs p h l i os -> mspec p h l mid n_in n_out F -> (2 <= n_out)%nat ->
  r_module md l mid ids h = (Ok outs, h') -> forall g, g ∈ ids -> pinned h' l g.
Proof.
  intros [c B] (c0 & x & l' & m & E & S & Hm & Hne & Hnp & E' & Hi & Ho & Hw & Hu & Hc) Hpos Er g Hg.
  rewrite (bs_c _ _ _ _ _ _ B) in E. injection E as <-. pose proof (bs_c _ _ _ _ _ _ B) as E.
  assert (Hwo : wires_ok md m) by (intros _; done).
  destruct (r_module_ok md h l c x l' m mid ids E S Hm Hne E' Hwo) as (outs' & c' & Er' & P). rewrite Er in Er'. injection Er' as _ ->.
  pose proof (upd_lookup h l c' c E) as Ec'. eexists c', (gate_index c + 1), _. split; [done|].
  split; [rewrite (pm_gm _ _ _ _ _ _ P), decide_True by lia; reflexivity|]. split; [done|]. cbn [gate_oi]. lia.
Qed.
Lemma int_call_pins f md p h l i os cfg n x y F z h' : bs p h l i os -> ai_cfg x = cfg -> ic_ref cfg = l ->
  mspec p h l (f cfg) (n + n) n F -> (2 <= n)%nat -> int_call f md x y h = (Ok z, h') -> forall g, g ∈ ai_val x ++ ai_val y -> pinned h' l g.
Proof.
  intros B Hc Hr Hm Hn E. unfold int_call in E. rewrite Hc, Hr in E. unfold st_bind, st_expect in E.
  destruct (r_module md l (f cfg) (ai_val x ++ ai_val y) h) as [[outs| | |] h1] eqn:Er; try done. injection E as _ <-. by eapply module_pins.
Qed.

(** * Building expressions, with what becomes an operand *)
Definition gates_of (vars : list aint) (k : nat) (g : N) : Prop := exists x, vars !! k = Some x /\ g ∈ ai_val x.
Record step (p : nat) (h : heap) (l : nat) (i : N) (os : list N) (cfg : int_config) (n : nat) (vars : list aint) (Vs : list ((N -> bool) -> Z))
    (e : iexp) (z : aint) (h' : heap) : Prop := {
  sp_bs : bs p h' l i os;
  sp_ext : ext l h h';
  sp_cfg : int_cfg p h' l cfg n;
  sp_val : int_val h' l cfg n z (fun ρ => ival n (zvars Vs ρ) e);
  sp_keep : forall g, has_gate h l g -> safe_gate h l g -> (forall k, k ∈ ireads n e -> ~ gates_of vars k g) -> safe_gate h' l g;
  sp_old : forall g, g ∈ ai_val z -> has_gate h l g -> exists k, ialias e = Some k /\ gates_of vars k g;
  sp_new : forall g, g ∈ ai_val z -> ~ has_gate h l g -> free h' l g;
  sp_leaf : forall g, g ∈ ai_val z -> ~ has_gate h l g -> ialias e = None \/ leaf h' l g;
}.
Lemma ialias_ivars e k : ialias e = Some k -> k ∈ ivars e.
Proof. induction e; cbn [ialias ivars]; intros H; try done; [injection H as <-; by left|auto|auto|auto]. Qed.
Lemma ialiases_ivars e k : k ∈ ialiases e -> k ∈ ivars e.
Proof. unfold ialiases. destruct (ialias e) as [j|] eqn:E; [|by intros []%elem_of_nil]. intros ->%elem_of_list_singleton. by apply ialias_ivars. Qed.
Lemma ireads_ivars n e k : k ∈ ireads n e -> k ∈ ivars e.
Proof.
  induction e; cbn [ireads ivars]; intros H; auto; try (by apply elem_of_nil in H); rewrite ?elem_of_app in *; destruct (2 <=? n)%nat; rewrite ?elem_of_app in *;
    repeat match goal with H : _ \/ _ |- _ => destruct H as [H|H] | H : _ ∈ ialiases _ |- _ => apply ialiases_ivars in H end; auto; by apply elem_of_nil in H.
Qed.
Lemma keep_mv l h h' ops news g : mv l h h' ops news -> has_gate h l g -> safe_gate h l g -> (g ∈ ops -> pinned h' l g) -> safe_gate h' l g.
Proof.
  intros M Hg [Hf|Hp] Ho; [|right; eapply pinned_hle; [apply M|done]]. destruct (decide (g ∈ ops)) as [Hin|Hin]; [right; auto|left]. by eapply (mv_free _ _ _ _ _ M).
Qed.
Section mk.
Context (p : nat) (h : heap) (l : nat) (i : N) (os : list N) (cfg : int_config) (n : nat) (vars : list aint) (Vs : list ((N -> bool) -> Z)).
(** A leaf: only new gates. *)
Lemma step_leaf e z h' V : int_post p h l cfg n h' i os [] (ai_val z) -> int_val h' l cfg n z V ->
  ialias e = None -> (forall ρ, (V ρ mod two_p n = ival n (zvars Vs ρ) e mod two_p n)%Z) -> step p h l i os cfg n vars Vs e z h'.
Proof.
  intros (B & M & C) Hz Ha HV. split; [done|apply M|done|by eapply int_val_eq| | | |by left].
  - intros g Hg Hf _. eapply keep_mv; [exact M|done|done|]. by intros []%elem_of_nil.
  - intros g Hg Hh. by destruct (mv_new _ _ _ _ _ M g Hg).
  - intros g Hg _. by apply (mv_new _ _ _ _ _ M g Hg).
Qed.
(** What the gates that a subexpression returns can be. *)
Lemma step_not_in e z h1 g : step p h l i os cfg n vars Vs e z h1 -> has_gate h l g -> (forall k, k ∈ ialiases e -> ~ gates_of vars k g) -> g ∉ ai_val z.
Proof.
  intros S Hh Hk Hin. destruct (sp_old _ _ _ _ _ _ _ _ _ _ _ _ S g Hin Hh) as (k & Ha & Hg). apply (Hk k); [|done]. unfold ialiases. rewrite Ha. by left.
Qed.
Lemma step_un e1 e x h1 z h' V (pins : bool) : step p h l i os cfg n vars Vs e1 x h1 -> int_post p h1 l cfg n h' i os (ai_val x) (ai_val z) -> int_val h' l cfg n z V ->
  (pins = true -> forall g, g ∈ ai_val x -> pinned h' l g) -> ireads n e = ireads n e1 ++ (if pins then [] else ialiases e1) -> ialias e = None ->
  (forall ρ, (V ρ mod two_p n = ival n (zvars Vs ρ) e mod two_p n)%Z) -> step p h l i os cfg n vars Vs e z h'.
Proof.
  intros S (B & M & C) Hz Hpn Hr Ha HV. split; [done|eapply ext_trans; [apply S|apply M]|done|by eapply int_val_eq| | | |by left].
  - intros g Hg Hf Hk. rewrite Hr in Hk. eapply keep_mv; [exact M|eapply has_gate_hle; [apply S|done]| |].
    + eapply (sp_keep _ _ _ _ _ _ _ _ _ _ _ _ S); [done|done|]. intros k Hin. apply Hk, elem_of_app. by left.
    + intros Hin. destruct pins; [by apply Hpn|]. exfalso. eapply step_not_in; [exact S|done| |exact Hin]. intros k Hk'. apply Hk, elem_of_app. by right.
  - intros g Hg Hh. destruct (mv_new _ _ _ _ _ M g Hg) as [Hn _]. destruct Hn. eapply has_gate_hle; [apply S|done].
  - intros g Hg _. by apply (mv_new _ _ _ _ _ M g Hg).
Qed.
(** Moving gates and making zeros. *)
Lemma step_move e1 e x h1 z h' zs V : step p h l i os cfg n vars Vs e1 x h1 -> int_post p h1 l cfg n h' i os [] zs -> int_val h' l cfg n z V ->
  (forall g, g ∈ ai_val z -> g ∈ zs \/ g ∈ ai_val x) -> (forall g, g ∈ ai_val z -> g ∈ ai_val x \/ leaf h' l g) -> ireads n e = ireads n e1 -> ialias e = ialias e1 ->
  (forall ρ, (V ρ mod two_p n = ival n (zvars Vs ρ) e mod two_p n)%Z) -> step p h l i os cfg n vars Vs e z h'.
Proof.
  intros S (B & M & C) Hz Hin Hlf Hr Ha HV. split; [done|eapply ext_trans; [apply S|apply M]|done|by eapply int_val_eq| | | |].
  - intros g Hg Hf Hk. rewrite Hr in Hk. eapply keep_mv; [exact M|eapply has_gate_hle; [apply S|done]| |by intros []%elem_of_nil].
    by eapply (sp_keep _ _ _ _ _ _ _ _ _ _ _ _ S).
  - intros g Hg Hh. rewrite Ha. destruct (Hin g Hg) as [H|H]; [|by apply (sp_old _ _ _ _ _ _ _ _ _ _ _ _ S)].
    destruct (mv_new _ _ _ _ _ M g H) as [Hn _]. destruct Hn. eapply has_gate_hle; [apply S|done].
  - intros g Hg Hh. destruct (Hin g Hg) as [H|H]; [by apply (mv_new _ _ _ _ _ M g H)|].
    eapply (mv_free _ _ _ _ _ M); [eapply gfs_in; [apply S|done]|by eapply (sp_new _ _ _ _ _ _ _ _ _ _ _ _ S)|by intros []%elem_of_nil].
  - intros g Hg Hh. rewrite Ha. destruct (Hlf g Hg) as [H|H]; [|by right]. destruct (sp_leaf _ _ _ _ _ _ _ _ _ _ _ _ S g H Hh) as [?|?]; [by left|right].
    eapply leaf_hle; [apply M|done].
Qed.
End mk.
Lemma step_bin p h l i os cfg n vars Vs e1 e2 e x h1 y h2 z h' V (pins : bool) : step p h l i os cfg n vars Vs e1 x h1 -> step p h1 l i os cfg n vars Vs e2 y h2 ->
  int_post p h2 l cfg n h' i os (ai_val x ++ ai_val y) (ai_val z) -> int_val h' l cfg n z V ->
  (pins = true -> forall g, g ∈ ai_val x ++ ai_val y -> pinned h' l g) ->
  ireads n e = ireads n e1 ++ ireads n e2 ++ (if pins then [] else ialiases e1 ++ ialiases e2) -> ialias e = None ->
  (forall ρ, (V ρ mod two_p n = ival n (zvars Vs ρ) e mod two_p n)%Z) -> step p h l i os cfg n vars Vs e z h'.
Proof.
  intros S1 S2 (B & M & C) Hz Hpn Hr Ha HV.
  assert (H12 : forall g, has_gate h l g -> has_gate h1 l g) by (intros g; apply has_gate_hle, S1).
  assert (H23 : forall g, has_gate h1 l g -> has_gate h2 l g) by (intros g; apply has_gate_hle, S2).
  split; [done|eapply ext_trans; [apply S1|eapply ext_trans; [apply S2|apply M]]|done|by eapply int_val_eq| | | |by left].
  - intros g Hg Hf Hk. rewrite Hr in Hk. setoid_rewrite elem_of_app in Hk. setoid_rewrite elem_of_app in Hk.
    eapply keep_mv; [exact M|auto| |].
    + eapply (sp_keep _ _ _ _ _ _ _ _ _ _ _ _ S2); [auto| |intros k Hin; apply Hk; auto].
      eapply (sp_keep _ _ _ _ _ _ _ _ _ _ _ _ S1); [done|done|intros k Hin; apply Hk; auto].
    + intros Hin. destruct pins; [by apply Hpn|]. exfalso. setoid_rewrite elem_of_app in Hk. apply elem_of_app in Hin as [Hin|Hin].
      * eapply (step_not_in _ _ _ _ _ _ _ _ _ _ _ _ _ S1); [done| |exact Hin]. intros k Hk'. apply Hk. auto.
      * eapply (step_not_in _ _ _ _ _ _ _ _ _ _ _ _ _ S2); [by apply H12| |exact Hin]. intros k Hk'. apply Hk. auto.
  - intros g Hg Hh. destruct (mv_new _ _ _ _ _ M g Hg) as [Hn _]. destruct Hn. auto.
  - intros g Hg _. by apply (mv_new _ _ _ _ _ M g Hg).
Qed.
Lemma ibuild_step md p l i os cfg n Vs : (0 < n)%nat -> forall e vars h, bs p h l i os -> int_cfg p h l cfg n -> ivars_at h l cfg n vars Vs -> iwf (length Vs) n e ->
  exists z h', ibuild md cfg n vars e h = (Ok z, h') /\ step p h l i os cfg n vars Vs e z h'.
Proof.
  intros Hn.
  assert (Bin : forall e1 e2 vars h x h1 y h2, step p h l i os cfg n vars Vs e1 x h1 -> step p h1 l i os cfg n vars Vs e2 y h2 ->
    int_val h2 l cfg n x (fun ρ => ival n (zvars Vs ρ) e1)).
  { intros e1 e2 vars h x h1 y h2 S1 S2. eapply int_val_ext; [apply S2|apply S1]. }
  induction e as [k|v| | |e1 IH1 e2 IH2|e1 IH1 e2 IH2|e1 IH1 e2 IH2|e IH|e IH k|e IH k|k e IH|c e1 IH1 e2 IH2];
    cbn [iwf ibuild]; intros vars h B C V Hw.
  - destruct (lookup_lt_is_Some_2 Vs k Hw) as [X HX]. destruct (Forall2_lookup_r _ _ _ _ _ V HX) as (x & Hx & Hb).
    exists x, h. split; [by apply st_nth_ok|]. split; [done|apply ext_refl|done| | | | |].
    + eapply int_val_eq; [exact Hb|]. intros ρ. unfold zvars. cbn [ival]. f_equal. symmetry. apply nth_lookup_Some. by rewrite list_lookup_fmap, HX.
    + done.
    + intros g Hg _. exists k. split; [done|]. by exists x.
    + intros g Hg Hh. destruct Hh. eapply gfs_in; [apply Hb|done].
    + intros g Hg Hh. destruct Hh. eapply gfs_in; [apply Hb|done].
  - apply iwf_big in Hw. destruct (int_biguint_ok p h l i os cfg n Hn B C v Hw) as (z & h' & E & P & Vz). exists z, h'. split; [done|]. by eapply step_leaf.
  - destruct (int_zero_ok p h l i os cfg n Hn B C) as (z & h' & E & P & Vz). exists z, h'. split; [done|]. by eapply step_leaf.
  - destruct (int_one_ok p h l i os cfg n Hn B C) as (z & h' & E & P & Vz). exists z, h'. split; [done|]. by eapply step_leaf.
  - destruct Hw as [W1 W2]. destruct (IH1 vars h B C V W1) as (x & h1 & E1 & S1).
    destruct (IH2 vars h1 (sp_bs _ _ _ _ _ _ _ _ _ _ _ _ S1) (sp_cfg _ _ _ _ _ _ _ _ _ _ _ _ S1) (ivars_at_ext _ _ _ _ _ _ _ (sp_ext _ _ _ _ _ _ _ _ _ _ _ _ S1) V) W2) as (y & h2 & E2 & S2).
    destruct (int_add_ok md p h2 l i os cfg n Hn (sp_bs _ _ _ _ _ _ _ _ _ _ _ _ S2) (sp_cfg _ _ _ _ _ _ _ _ _ _ _ _ S2) x y _ _
      (Bin _ _ _ _ _ _ _ _ S1 S2) (sp_val _ _ _ _ _ _ _ _ _ _ _ _ S2)) as (z & h' & E & P & Vz).
    exists z, h'. rewrite (st_bind_ok _ _ _ _ _ E1), (st_bind_ok _ _ _ _ _ E2). split; [done|]. eapply (step_bin _ _ _ _ _ _ _ _ _ _ _ _ _ _ _ _ _ _ _ (2 <=? n)%nat); [exact S1|exact S2|exact P|exact Vz| |done|done|done].
    intros Hp%Nat.leb_le. pose proof (sp_cfg _ _ _ _ _ _ _ _ _ _ _ _ S2) as C2. eapply (int_call_pins ic_add);
      [apply S2|apply S1|apply (ik_ref _ _ _ _ _ C2)|apply C2|done|exact E].
  - destruct Hw as [W1 W2]. destruct (IH1 vars h B C V W1) as (x & h1 & E1 & S1).
    destruct (IH2 vars h1 (sp_bs _ _ _ _ _ _ _ _ _ _ _ _ S1) (sp_cfg _ _ _ _ _ _ _ _ _ _ _ _ S1) (ivars_at_ext _ _ _ _ _ _ _ (sp_ext _ _ _ _ _ _ _ _ _ _ _ _ S1) V) W2) as (y & h2 & E2 & S2).
    destruct (int_sub_ok md p h2 l i os cfg n Hn (sp_bs _ _ _ _ _ _ _ _ _ _ _ _ S2) (sp_cfg _ _ _ _ _ _ _ _ _ _ _ _ S2) x y _ _
      (Bin _ _ _ _ _ _ _ _ S1 S2) (sp_val _ _ _ _ _ _ _ _ _ _ _ _ S2)) as (z & h' & E & P & Vz).
    exists z, h'. rewrite (st_bind_ok _ _ _ _ _ E1), (st_bind_ok _ _ _ _ _ E2). split; [done|]. eapply (step_bin _ _ _ _ _ _ _ _ _ _ _ _ _ _ _ _ _ _ _ (2 <=? n)%nat); [exact S1|exact S2|exact P|exact Vz| |done|done|done].
    intros Hp%Nat.leb_le. pose proof (sp_cfg _ _ _ _ _ _ _ _ _ _ _ _ S2) as C2. eapply (int_call_pins ic_sub);
      [apply S2|apply S1|apply (ik_ref _ _ _ _ _ C2)|apply C2|done|exact E].
  - destruct Hw as [W1 W2]. destruct (IH1 vars h B C V W1) as (x & h1 & E1 & S1).
    destruct (IH2 vars h1 (sp_bs _ _ _ _ _ _ _ _ _ _ _ _ S1) (sp_cfg _ _ _ _ _ _ _ _ _ _ _ _ S1) (ivars_at_ext _ _ _ _ _ _ _ (sp_ext _ _ _ _ _ _ _ _ _ _ _ _ S1) V) W2) as (y & h2 & E2 & S2).
    destruct (int_mul_ok md p h2 l i os cfg n Hn (sp_bs _ _ _ _ _ _ _ _ _ _ _ _ S2) (sp_cfg _ _ _ _ _ _ _ _ _ _ _ _ S2) x y _ _
      (Bin _ _ _ _ _ _ _ _ S1 S2) (sp_val _ _ _ _ _ _ _ _ _ _ _ _ S2)) as (z & h' & E & P & Vz).
    exists z, h'. rewrite (st_bind_ok _ _ _ _ _ E1), (st_bind_ok _ _ _ _ _ E2). split; [done|]. eapply (step_bin _ _ _ _ _ _ _ _ _ _ _ _ _ _ _ _ _ _ _ (2 <=? n)%nat); [exact S1|exact S2|exact P|exact Vz| |done|done|done].
    intros Hp%Nat.leb_le. pose proof (sp_cfg _ _ _ _ _ _ _ _ _ _ _ _ S2) as C2. eapply (int_call_pins ic_mul);
      [apply S2|apply S1|apply (ik_ref _ _ _ _ _ C2)|apply C2|done|exact E].
  - destruct (IH vars h B C V Hw) as (x & h1 & E1 & S1). pose proof (sp_val _ _ _ _ _ _ _ _ _ _ _ _ S1) as V1.
    destruct (int_zero_ok p h1 l i os cfg n Hn (sp_bs _ _ _ _ _ _ _ _ _ _ _ _ S1) (sp_cfg _ _ _ _ _ _ _ _ _ _ _ _ S1)) as (z0 & h2 & E2 & (B2 & M2 & C2) & V2).
    destruct (int_sub_ok md p h2 l i os cfg n Hn B2 C2 z0 x _ _ V2 (int_val_mv _ _ _ _ _ _ _ _ _ M2 V1)) as (z & h' & E & (B' & M' & C') & Vz).
    exists z, h'. rewrite (st_bind_ok _ _ _ _ _ E1). split; [unfold int_neg; rewrite (iv_cfg _ _ _ _ _ _ V1); by rewrite (st_bind_ok _ _ _ _ _ (expect_ok _ _ _ _ E2))|].
    eapply (step_un _ _ _ _ _ _ _ _ _ _ _ _ _ _ _ _ (2 <=? n)%nat); [exact S1| |exact Vz| |done|done|done].
    2: { intros Hp%Nat.leb_le g Hg. eapply (int_call_pins ic_sub _ _ _ _ _ _ cfg); [exact B2|apply V2|apply (ik_ref _ _ _ _ _ C2)|apply C2|done|exact E|apply elem_of_app; by right]. }
    split; [done|]. split; [|done]. eapply mv_trans; [exact M2|exact M'|by intros ? []%elem_of_nil|].
    intros g [Hg|Hg]%elem_of_app; auto.
  - destruct Hw as [Hk Hw]. destruct (IH vars h B C V Hw) as (x & h1 & E1 & S1). pose proof (sp_val _ _ _ _ _ _ _ _ _ _ _ _ S1) as V1.
    destruct (int_shift_left_ok p h1 l i os cfg n x _ k (sp_bs _ _ _ _ _ _ _ _ _ _ _ _ S1) (sp_cfg _ _ _ _ _ _ _ _ _ _ _ _ S1) V1 Hk) as (z & h' & zs & E & P & Hz & Vz).
    exists z, h'. rewrite (st_bind_ok _ _ _ _ _ E1). split; [done|]. eapply step_move; [exact S1|exact P|exact Vz| | |done|done|done];
      [|eapply shift_left_leaf; [apply S1|apply V1|apply (ik_ref _ _ _ _ _ (sp_cfg _ _ _ _ _ _ _ _ _ _ _ _ S1))|exact E]].
    intros g. rewrite Hz. intros [Hg|Hg]%elem_of_app; [by left|]. right. apply elem_of_list_lookup in Hg as [j Hj]. apply lookup_take_Some in Hj as [Hj _]. by eapply elem_of_list_lookup_2.
  - destruct Hw as [Hk Hw]. destruct (IH vars h B C V Hw) as (x & h1 & E1 & S1). pose proof (sp_val _ _ _ _ _ _ _ _ _ _ _ _ S1) as V1.
    destruct (int_shift_right_ok md h1 l cfg n x _ k Hn V1 Hk) as (z & E & Hz & Vz). exists z, h1. rewrite (st_bind_ok _ _ _ _ _ E1). split; [done|].
    eapply (step_move _ _ _ _ _ _ _ _ _ _ _ _ _ _ _ []); [exact S1| |exact Vz| | |done|done|done]; [|intros g Hg; right; by apply Hz|intros g Hg; left; by apply Hz].
    split; [apply S1|]. split; [apply mv_refl|apply S1].
  - destruct Hw as [Hk Hw]. destruct (IH vars h B C V Hw) as (x & h1 & E1 & S1). pose proof (sp_val _ _ _ _ _ _ _ _ _ _ _ _ S1) as V1.
    pose proof (iv_len _ _ _ _ _ _ V1) as Hl.
    destruct (int_from_ok p h1 l i os cfg n Hn (sp_bs _ _ _ _ _ _ _ _ _ _ _ _ S1) (sp_cfg _ _ _ _ _ _ _ _ _ _ _ _ S1) (take k (ai_val x)) _ ltac:(rewrite take_length; lia) (gfs_take _ _ _ _ k (iv_val _ _ _ _ _ _ V1)))
      as (z & h' & pad & E & P & Hz & Vz). exists z, h'. rewrite (st_bind_ok _ _ _ _ _ E1), (iv_cfg _ _ _ _ _ _ V1). split; [done|].
    eapply step_move; [exact S1|exact P|exact Vz| | |done|done|].
    + intros g. rewrite Hz. intros [Hg|Hg]%elem_of_app; [|by left]. right. apply elem_of_list_lookup in Hg as [j Hj]. apply lookup_take_Some in Hj as [Hj _]. by eapply elem_of_list_lookup_2.
    + intros g Hg. destruct (from_leaf _ _ _ _ _ _ _ _ _ _ (sp_bs _ _ _ _ _ _ _ _ _ _ _ _ S1) (ik_ref _ _ _ _ _ (sp_cfg _ _ _ _ _ _ _ _ _ _ _ _ S1)) E g Hg) as [H|H]; [|by right].
      left. apply elem_of_list_lookup in H as [j Hj]. apply lookup_take_Some in Hj as [Hj _]. by eapply elem_of_list_lookup_2.
    + intros ρ. cbn [ival]. rewrite zval_take, zval_zbits. f_equal. fold (two_p k). pose proof (two_p_pos k). pose proof (two_p_pos (n - k)).
      assert (E2 : (two_p n = two_p k * two_p (n - k))%Z) by (rewrite <- two_p_add; f_equal; lia).
      rewrite E2, Z.rem_mul_r by lia. rewrite Z.mul_comm, Z_mod_plus_full. apply Z.mod_mod. lia.
  - destruct Hw as [W1 W2]. destruct (IH1 vars h B C V W1) as (x & h1 & E1 & S1).
    destruct (IH2 vars h1 (sp_bs _ _ _ _ _ _ _ _ _ _ _ _ S1) (sp_cfg _ _ _ _ _ _ _ _ _ _ _ _ S1) (ivars_at_ext _ _ _ _ _ _ _ (sp_ext _ _ _ _ _ _ _ _ _ _ _ _ S1) V) W2) as (y & h2 & E2 & S2).
    destruct (ccall_ok c md p h2 l i os cfg n x y _ _ Hn (sp_bs _ _ _ _ _ _ _ _ _ _ _ _ S2) (sp_cfg _ _ _ _ _ _ _ _ _ _ _ _ S2)
      (Bin _ _ _ _ _ _ _ _ S1 S2) (sp_val _ _ _ _ _ _ _ _ _ _ _ _ S2)) as (g & h3 & E3 & (B3 & M3 & C3) & F3).
    destruct (int_from_ok p h3 l i os cfg n Hn B3 C3 [g] _ ltac:(cbn; lia) (proj1 (gfs_one _ _ _ _) F3)) as (z & h' & pad & E & (B' & M & C') & Hz & Vz). exists z, h'.
    rewrite (st_bind_ok _ _ _ _ _ E1), (st_bind_ok _ _ _ _ _ E2), (st_bind_ok _ _ _ _ _ E3). split; [done|].
    eapply (step_bin _ _ _ _ _ _ _ _ _ _ _ _ _ _ _ _ _ _ _ false); [exact S1|exact S2| |exact Vz|done|done|done|].
    + split; [done|]. split; [|done]. rewrite Hz. eapply mv_app; [exact M3|exact M|done|]. by intros ? []%elem_of_nil.
    + intros ρ. cbn [ival zval]. f_equal. destruct (cval n c _ _); done.
Qed.

(** * Outputs declared at any time *)
(** [g] does not need a gate that has the operand [o]. *)
Definition before (h : heap) (l : nat) (g o : N) : Prop :=
  forall c d gt, h_circ h !! l = Some c -> gate_map c !! d = Some gt -> o ∈ operands gt -> ~ touch c g d.
(** What a gate needs is as old as the gate. *)
Lemma touch_old hk h l ck c g x : dinv hk -> hle hk h -> h_circ hk !! l = Some ck -> h_circ h !! l = Some c -> touch c g x ->
  is_Some (gate_map ck !! g) -> is_Some (gate_map ck !! x) /\ touch ck g x.
Proof.
  intros D L Ek E. pose proof (hi_circ hk (di_inv hk D) l ck Ek) as W. pose proof (di_disc hk D l ck Ek) as Dc.
  assert (Hs : forall g gt, gate_map ck !! g = Some gt -> gate_map c !! g = Some gt).
  { intros g0 gt. destruct (hle_circ _ _ L l ck Ek) as (c' & E' & Hc). rewrite E in E'. injection E' as <-. intros H. eapply lookup_weaken; [done|apply Hc]. }
  induction 1 as [g x Hx|g gt a x G Ha T IH]; intros [gg Gk]; pose proof (Hs _ _ Gk) as Gc.
  - assert (Hb : blk c g = blk ck g) by (unfold blk; by rewrite Gc, Gk). rewrite Hb in Hx. destruct (blk_member ck W g gg x Gk Hx) as (gt' & G' & _).
    split; [eauto|by apply touch_self].
  - rewrite Gc in G. injection G as <-. destruct IH as [H1 H2].
    + apply (wf_gates ck W). pose proof (d_ops hk ck Dc g gg a Gk Ha). pose proof (gm_lt ck g gg W Gk). lia.
    + split; [done|by eapply touch_oper].
Qed.
Lemma before_old hk h l g o : dinv hk -> hle hk h -> has_gate hk l g -> before hk l g o -> before h l g o.
Proof.
  intros D L (ck & Ek & Gk) Hb c d gt E Gd Hop T. destruct (touch_old _ _ _ _ _ _ _ D L Ek E T Gk) as [[gt' Gd'] T'].
  destruct (hle_circ _ _ L l ck Ek) as (c' & E' & Hc). rewrite E in E'. injection E' as <-.
  pose proof (lookup_weaken _ _ _ _ Gd' (cle_gates _ _ Hc)) as G2. rewrite Gd in G2. injection G2 as <-. by eapply (Hb ck d gt).
Qed.
Lemma before_free h l g o : free h l o -> before h l g o.
Proof. intros F c d gt E G Hop _. by eapply F. Qed.
Lemma before_leaf h l g o : dinv h -> leaf h l g -> before h l g o.
Proof.
  intros D [(c0 & E0 & gt0 & G0) Hl] c d gt E G Hop T. rewrite E in E0. injection E0 as <-. pose proof (Hl _ _ E G0) as H0.
  inversion T as [g' x Hx|g' gt' a x Gx Ha T']; subst.
  - destruct (blk_member c (hi_circ h (di_inv h D) l c E) g gt0 d G0 Hx) as (gt' & G' & Ho & _). rewrite G in G'. injection G' as <-.
    rewrite Ho, H0 in Hop. by apply elem_of_nil in Hop.
  - rewrite G0 in Gx. injection Gx as <-. rewrite H0 in Ha. by apply elem_of_nil in Ha.
Qed.
(** No output needs a gate with a later output as operand, unless that is an argument of a call with several outputs. *)
Definition outs_before (h : heap) (l : nat) (os : list N) : Prop :=
  forall k k' o o', (k' < k)%nat -> os !! k = Some o -> os !! k' = Some o' -> before h l o' o \/ pinned h l o.
Lemma classic_pinned h l c o : h_circ h !! l = Some c -> (exists d gt, gate_map c !! d = Some gt /\ o ∈ operands gt /\ gate_oi gt <> 0) \/
  (forall d gt, gate_map c !! d = Some gt -> o ∈ operands gt -> gate_oi gt <> 0 -> False).
Proof.
  intros E. set (P := fun x : N * gate => o ∈ operands (snd x) /\ gate_oi (snd x) <> 0).
  destruct (decide (Exists P (map_to_list (gate_map c)))) as [H|H].
  - left. apply Exists_exists in H as ([d gt] & Hin & H1 & H2). apply elem_of_map_to_list in Hin. eauto.
  - right. intros d gt G H1 H2. apply H, Exists_exists. exists (d, gt). split; [by apply elem_of_map_to_list|done].
Qed.
Lemma outs_before_evaluable p h l i os : bs p h l i os -> outs_before h l os -> evaluable h l.
Proof.
  intros [c B] H. pose proof (bs_c _ _ _ _ _ _ B) as E. destruct (bs_o _ _ _ _ _ _ B) as [Ho1 Ho2].
  assert (D : dinv h) by apply B. pose proof (hi_circ h (di_inv h D) l c E) as W.
  assert (Ho : forall k o, output_map c !! k = Some o -> os !! N.to_nat k = Some o).
  { intros k o Hk. destruct (decide (k < output_len c)) as [Hl|Hl]; [|rewrite (wf_outputs_none c W k) in Hk by lia; done].
    destruct (lookup_lt_is_Some_2 os (N.to_nat k)) as [o2 Ho']; [lia|]. pose proof (Ho2 _ _ Ho') as H2. rewrite N2Nat.id, Hk in H2. by injection H2 as <-. }
  econstructor; [exact E| |intros l' Cl; apply unconsumed_evaluable; by apply (bs_calls _ _ _ _ _ _ B)].
  intros k o Ek. unfold output_fine. destruct (deps c o) as [|d ds] eqn:Ed; [by left|]. right. rewrite <- Ed.
  assert (Hd : d ∈ deps c o) by (rewrite Ed; left). pose proof Hd as Hd'. apply (deps_in c W) in Hd' as (gt' & Gd' & Hop).
  destruct (classic_pinned h l c o E) as [(d' & gt & G' & Hop' & Hoi)|Hnp].
  { exists d'. split; [apply (deps_in c W); eauto|]. left. eauto. }
  exists d. split; [done|]. right. intros k' o' Hk' Ek'.
  destruct (H (N.to_nat k) (N.to_nat k') o o' ltac:(lia) (Ho _ _ Ek) (Ho _ _ Ek')) as [Hb|(c' & d' & gt & E' & G' & Hop' & Hoi)].
  - by eapply (Hb c d gt').
  - rewrite E in E'. injection E' as <-. destruct (Hnp d' gt G' Hop' Hoi).
Qed.
Lemma evaluable_evaluates p h l (n_in n_out : nat) os G F : bs p h l (N.of_nat n_in) os -> gfs h l os G -> evaluable h l -> length os = n_out ->
  (forall bits, length bits = n_in -> G (wires bits) = F bits) -> evaluates h l n_in n_out F.
Proof.
  intros B Fo U Hlo HG. pose proof B as [c B']. destruct (bs_o _ _ _ _ _ _ B') as [Ho _]. pose proof (bs_c _ _ _ _ _ _ B') as E. pose proof (bs_i _ _ _ _ _ _ B') as Hi.
  assert (D : dinv h) by apply B'.
  split; [unfold inputs_of, on; by rewrite E, Hi|]. split; [unfold outputs_of, on; by rewrite E, Ho, Hlo|].
  intros md. destruct (eval_complete md h l D U) as [depth HF]. exists depth. intros fuel bits Hf Hb.
  destruct (HF fuel c bits E Hf) as [outs Eo]; [by rewrite Hb, Hi|]. rewrite Eo. f_equal.
  eapply computes_unique; [eapply eval_sound; [apply D|done]|]. rewrite <- HG by done. eapply bs_computes; [exact B|done|by rewrite Hb].
Qed.
(** A gate that does not exist yet is no operand. *)
Lemma absent_free h l g : dinv h -> ~ has_gate h l g -> free h l g.
Proof.
  intros D Hn c g' gt E G Hop. apply Hn. exists c. split; [done|]. pose proof (hi_circ h (di_inv h D) l c E) as W.
  apply (wf_gates c W). pose proof (d_ops h c (di_disc h D l c E) g' gt g G Hop). pose proof (gm_lt c g' gt W G). lia.
Qed.

(** * Whole programs *)
(** The state of the construction: [hp] is the heap at the last output. *)
Record sinv (l : nat) (cfg : int_config) (n : nat) (hp h : heap) (i : N) (os : list N) (vars : list aint) (Vs : list ((N -> bool) -> Z))
    (cls used uo : list nat) (nxt : nat) : Prop := {
  si_bs : bs l h l i os;
  si_cfg : int_cfg l h l cfg n;
  si_vals : ivars_at h l cfg n vars Vs;
  si_len : length cls = length vars;
  si_lt : Forall (fun c => c < nxt)%nat cls;
  si_cls : forall k k' g, gates_of vars k g -> gates_of vars k' g -> cls !! k = cls !! k';
  si_free : forall k c g, gates_of vars k g -> cls !! k = Some c -> c ∉ used -> safe_gate h l g;
  si_freep : forall k c g, gates_of vars k g -> cls !! k = Some c -> c ∉ uo -> safe_gate hp l g;
  si_indep : forall k g o, gates_of vars k g -> gates_of vars k o -> before h l g o;
  si_ext : ext l hp h;
  si_dp : dinv hp;
  si_outs : forall k o, os !! k = Some o -> has_gate hp l o;
  si_hist : outs_before h l os;
}.
Lemma gates_has h l cfg n vars Vs k g : ivars_at h l cfg n vars Vs -> gates_of vars k g -> has_gate h l g.
Proof. intros V (x & Hx & Hg). destruct (Forall2_lookup_l _ _ _ _ _ V Hx) as (X & _ & Hv). eapply gfs_in; [apply Hv|done]. Qed.
(** Binding a variable (position [d]: a new one or an old one) to a value with new gates, or with gates of the variable that [e] is an alias of. *)
Lemma sinv_bind l cfg n hp h i os vars Vs cls used uo nxt e z h' i' Z d vars' Vs' cls' rd :
  sinv l cfg n hp h i os vars Vs cls used uo nxt ->
  bs l h' l i' os -> ext l h h' -> int_cfg l h' l cfg n -> int_val h' l cfg n z Z ->
  (forall g, has_gate h l g -> safe_gate h l g -> (forall k, k ∈ rd -> ~ gates_of vars k g) -> safe_gate h' l g) ->
  (forall g, g ∈ ai_val z -> has_gate h l g -> exists k, e = Some k /\ gates_of vars k g) ->
  (forall g, g ∈ ai_val z -> ~ has_gate h l g -> free h' l g) ->
  (forall g, g ∈ ai_val z -> ~ has_gate h l g -> e = None \/ leaf h' l g) ->
  (forall k, k ∈ rd -> (k < length vars)%nat) ->
  length vars' = length cls' -> length Vs' = length vars' ->
  vars' !! d = Some z -> Vs' !! d = Some Z -> cls' !! d = Some (from_option (fun k => nth k cls nxt) nxt e) ->
  (forall k, k <> d -> vars' !! k = vars !! k /\ Vs' !! k = Vs !! k /\ cls' !! k = cls !! k) ->
  sinv l cfg n hp h' i' os vars' Vs' cls' (map (fun k => nth k cls nxt) rd ++ used) uo (S nxt).
Proof.
  intros I B X C Vz Hk Ho Hnw Hlf Hrd L1 L2 Dz DZ Dc Hoth. pose proof I as [Ib Ic Iv Il Ilt Icl If Ifp Iin Ix Idp Ios Ih].
  assert (D : dinv h) by (destruct Ib as [c0 Ib]; apply Ib). assert (D' : dinv h') by (destruct B as [c0 B]; apply B).
  pose proof (ext_hle _ _ _ X) as L.
  assert (Hcl : forall k, (k < length vars)%nat -> exists c, cls !! k = Some c /\ nth k cls nxt = c /\ (c < nxt)%nat).
  { intros k Hlt. destruct (lookup_lt_is_Some_2 cls k) as [c Hc]; [lia|]. exists c. split; [done|]. split; [by apply nth_lookup_Some|]. by apply (Forall_lookup_1 _ _ _ _ Ilt Hc). }
  (* the gates of a variable afterwards *)
  assert (Gk : forall k g, gates_of vars' k g -> (k <> d /\ gates_of vars k g) \/ (k = d /\ g ∈ ai_val z)).
  { intros k g (x & Hx & Hg). destruct (decide (k = d)) as [-> |Hne]; [rewrite Dz in Hx; injection Hx as <-; by right|].
    left. split; [done|]. exists x. destruct (Hoth k Hne) as [H _]. by rewrite <- H. }
  assert (Gz : forall g, g ∈ ai_val z -> (~ has_gate h l g) \/ (exists k, e = Some k /\ gates_of vars k g)).
  { intros g Hg. assert (Dec : has_gate h l g \/ ~ has_gate h l g).
    { destruct Ib as [c0 Ib]. pose proof (bs_c _ _ _ _ _ _ Ib) as E0. destruct (gate_map c0 !! g) eqn:Eg.
      - left. exists c0. eauto.
      - right. intros (c1 & E1 & H1). rewrite E0 in E1. injection E1 as <-. rewrite Eg in H1. by destruct H1. }
    destruct Dec as [H|H]; [right; by apply Ho|by left]. }
  assert (Cz : forall k, e = Some k -> gates_of vars k = gates_of vars k -> forall g, gates_of vars k g -> cls' !! d = cls !! k).
  { intros k -> _ g (x & Hx & _). rewrite Dc. cbn [from_option]. destruct (Hcl k (lookup_lt_Some _ _ _ Hx)) as (c & Hc & Hn & _). by rewrite Hn, Hc. }
  split.
  - done.
  - done.
  - apply Forall2_same_length_lookup. split; [done|]. intros k x W Hx HW. destruct (decide (k = d)) as [-> |Hne].
    + rewrite Dz in Hx. rewrite DZ in HW. injection Hx as <-. by injection HW as <-.
    + destruct (Hoth k Hne) as (H1 & H2 & _). rewrite H1 in Hx. rewrite H2 in HW. eapply int_val_ext; [exact X|]. exact (Forall2_lookup_lr _ _ _ _ _ _ Iv Hx HW).
  - done.
  - apply Forall_lookup. intros k c Hc. destruct (decide (k = d)) as [-> |Hne].
    + rewrite Dc in Hc. injection Hc as <-. destruct e as [j|]; cbn [from_option]; [|lia]. destruct (decide (j < length vars)%nat) as [Hj|Hj].
      * destruct (Hcl j Hj) as (c & _ & -> & Hlt). lia.
      * rewrite nth_overflow by lia. lia.
    + destruct (Hoth k Hne) as (_ & _ & H3). rewrite H3 in Hc. pose proof (Forall_lookup_1 _ _ _ _ Ilt Hc) as Hlt. cbn beta in Hlt. lia.
  - assert (Hd : forall k g, k <> d -> gates_of vars k g -> g ∈ ai_val z -> cls' !! k = cls' !! d).
    { intros k g Hne Hg Hz. destruct (Hoth k Hne) as (_ & _ & ->). destruct (Gz g Hz) as [H|(j & Ej & Hj)].
      - destruct H. by eapply gates_has.
      - rewrite (Cz j Ej eq_refl g Hj). by eapply Icl. }
    intros k k' g H1 H2. destruct (Gk _ _ H1) as [[N1 G1] | [-> G1] ], (Gk _ _ H2) as [[N2 G2] | [-> G2] ].
    + destruct (Hoth k N1) as (_ & _ & ->). destruct (Hoth k' N2) as (_ & _ & ->). by eapply Icl.
    + by eapply Hd.
    + symmetry. by eapply Hd.
    + done.
  - (* free *)
    assert (Hf : forall k c g, gates_of vars k g -> cls !! k = Some c -> c ∉ map (fun k => nth k cls nxt) rd ++ used -> safe_gate h' l g).
    { intros k c g Hg Hc Hu. apply Hk; [by eapply gates_has| |].
      - eapply If; [exact Hg|exact Hc|]. intros Hin. apply Hu, elem_of_app. by right.
      - intros j Hj Hgj. apply Hu, elem_of_app. left. apply elem_of_list_fmap. exists j. split; [|done].
        destruct (Hcl j (Hrd j Hj)) as (cj & Hcj & Hn & _). rewrite Hn. pose proof (Icl _ _ _ Hg Hgj) as Heq. rewrite Hc, Hcj in Heq. by injection Heq as <-. }
    intros k c g Hg Hc Hu. destruct (Gk _ _ Hg) as [[N1 G1] | [-> G1] ].
    + destruct (Hoth k N1) as (_ & _ & H3). rewrite H3 in Hc. by eapply Hf.
    + destruct (Gz g G1) as [H|(j & Ej & Hj)]; [left; by apply Hnw|]. eapply (Hf j c); [done| |done]. by rewrite <- (Cz j Ej eq_refl g Hj).
  - intros k c g Hg Hc Hu. destruct (Gk _ _ Hg) as [[N1 G1] | [-> G1] ].
    + destruct (Hoth k N1) as (_ & _ & H3). rewrite H3 in Hc. by eapply Ifp.
    + destruct (Gz g G1) as [H|(j & Ej & Hj)].
      * left. apply absent_free; [done|]. intros Hp. apply H. eapply has_gate_hle; [apply Ix|done].
      * eapply (Ifp j c); [done| |done]. by rewrite <- (Cz j Ej eq_refl g Hj).
  - intros k g o Hg Hgo. destruct (Gk _ _ Hg) as [[N1 G1] | [-> G1] ], (Gk _ _ Hgo) as [[N2 G2] | [E2 G2] ]; try done.
    + eapply before_old; [exact D|exact L|by eapply gates_has|by eapply Iin].
    + destruct (Gz o G2) as [H2|(j2 & Ej2 & Hj2)]; [by apply before_free, Hnw|].
      destruct (Gz g G1) as [H1|(j1 & Ej1 & Hj1)].
      * destruct (Hlf g G1 H1) as [->|Hl]; [done|by apply before_leaf].
      * rewrite Ej1 in Ej2. injection Ej2 as <-. eapply before_old; [exact D|exact L|by eapply gates_has|by eapply Iin].
  - by eapply ext_trans.
  - done.
  - done.
  - intros k k' o o' Hkk Hk1 Hk2. destruct (Ih k k' o o' Hkk Hk1 Hk2) as [Hb|Hp]; [left|right; by eapply pinned_hle].
    eapply before_old; [exact D|exact L| |done]. eapply has_gate_hle; [apply Ix|by eapply Ios].
Qed.
(** The inputs that a program still reads, [i] having been allocated. *)
Definition sins (i : N) (n : nat) (p : list sinstr) (ρ : N -> bool) : list Z := map (fun k => zval (inb (i + N.of_nat (k * n)) n ρ)) (seq 0 (sinputs p)).
Lemma iwf_vars m n e k : iwf m n e -> k ∈ ireads n e -> (k < m)%nat.
Proof.
  intros Hw Hk. apply ireads_ivars in Hk. induction e; cbn [iwf ivars] in *;
    repeat match goal with H : _ /\ _ |- _ => destruct H | H : _ ∈ _ ++ _ |- _ => apply elem_of_app in H as [H|H] end; auto; try (by apply elem_of_nil in Hk).
  by apply elem_of_list_singleton in Hk as ->.
Qed.
Lemma sbuild_ok md l cfg n : (0 < n)%nat -> forall p hp h i os vars Vs cls used uo nxt G,
  sinv l cfg n hp h i os vars Vs cls used uo nxt -> swf n cls used uo nxt p -> gfs h l os G ->
  exists h' os', sbuild md cfg n vars p h = (Ok tt, h') /\ bs l h' l (i + N.of_nat (sinputs p * n)) os' /\ outs_before h' l os' /\
    length os' = (length os + soutputs p * n)%nat /\
    gfs h' l os' (fun ρ => G ρ ++ concat (map (zbits n) (srun n (sins i n p ρ) (zvars Vs ρ) p))).
Proof.
  intros Hn. induction p as [|s p IH]; intros hp h i os vars Vs cls used uo nxt G I Hw Ho.
  { exists h, os. split; [done|]. cbn [sinputs List.filter length Nat.mul soutputs srun map concat]. rewrite N.add_0_r, Nat.add_0_r. split; [apply I|]. split; [apply I|]. split; [done|].
    eapply gfs_eq; [exact Ho|]. intros ρ. cbn beta. by rewrite app_nil_r. }
  pose proof I as [Ib Ic Iv Il Ilt Icl If Ifp Iin Ix Idp Ios Ih]. pose proof (Forall2_length _ _ _ Iv) as LV.
  destruct s as [|e|d e|k]; cbn [swf sbuild] in *.
  - destruct (int_new_ok l h l i os cfg n Hn Ib Ic) as (z & h1 & E1 & (B1 & M1 & C1) & V1).
    assert (I1 : sinv l cfg n hp h1 (i + N.of_nat n) os (vars ++ [z]) (Vs ++ [fun ρ => zval (inb i n ρ)]) (cls ++ [nxt]) used uo (S nxt)).
    { eapply (sinv_bind l cfg n hp h i os vars Vs cls used uo nxt None z h1 _ _ (length vars) _ _ _ []); [exact I|exact B1|apply M1|exact C1|exact V1| | | | | | | | | | |].
      - intros g Hg Hf _. eapply keep_mv; [exact M1|done|done|]. by intros []%elem_of_nil.
      - intros g Hg Hh. by destruct (mv_new _ _ _ _ _ M1 g Hg).
      - intros g Hg _. by apply (mv_new _ _ _ _ _ M1 g Hg).
      - by left.
      - by intros k []%elem_of_nil.
      - rewrite !app_length. cbn [length]. lia.
      - rewrite !app_length. cbn [length]. lia.
      - by rewrite lookup_app_r, Nat.sub_diag by done.
      - by rewrite lookup_app_r, LV, Nat.sub_diag by lia.
      - by rewrite lookup_app_r, Il, Nat.sub_diag by lia.
      - intros k Hne. destruct (decide (k < length vars)%nat) as [Hlt|Hlt].
        + rewrite !lookup_app_l by lia. done.
        + rewrite !(lookup_ge_None_2 _ k); [done|..]; rewrite ?app_length; cbn [length]; lia. }
    destruct (IH _ _ _ _ _ _ _ _ _ _ _ I1 Hw (gfs_mv _ _ _ _ _ _ _ _ M1 Ho)) as (h' & os' & E & B' & Hb' & L' & F'). exists h', os'.
    rewrite (st_bind_ok _ _ _ _ _ E1). split; [done|].
    assert (Hs : sinputs (SInput :: p) = S (sinputs p)) by done. rewrite Hs. cbn [Nat.mul].
    split; [by replace (i + N.of_nat (n + sinputs p * n)) with (i + N.of_nat n + N.of_nat (sinputs p * n)) by lia|]. split; [done|]. split; [done|].
    eapply gfs_eq; [exact F'|]. intros ρ. cbn [srun]. do 3 f_equal.
    assert (Hi : sins i n (SInput :: p) ρ = zval (inb i n ρ) :: sins (i + N.of_nat n) n p ρ).
    { unfold sins. rewrite Hs. cbn [seq map]. f_equal; [by rewrite Nat.mul_0_l, N.add_0_r|]. rewrite <- seq_shift, map_map. apply map_ext. intros j. do 2 f_equal. lia. }
    rewrite Hi. cbn [tail hd]. f_equal. unfold zvars. by rewrite map_app.
  - destruct Hw as [We Hw]. destruct (ibuild_step md l l i os cfg n Vs Hn e vars h Ib Ic Iv) as (z & h1 & E1 & S1); [by rewrite <- LV, <- Il|].
    pose proof S1 as [B1 X1 C1 V1 K1 O1 N1 L1].
    assert (I1 : sinv l cfg n hp h1 i os (vars ++ [z]) (Vs ++ [fun ρ => ival n (zvars Vs ρ) e])
      (cls ++ [from_option (fun k => nth k cls nxt) nxt (ialias e)]) (map (fun k => nth k cls nxt) (ireads n e) ++ used) uo (S nxt)).
    { eapply (sinv_bind l cfg n hp h i os vars Vs cls used uo nxt (ialias e) z h1 _ _ (length vars)); [exact I|exact B1|exact X1|exact C1|exact V1|exact K1|exact O1|exact N1|exact L1| | | | | | |].
      - intros k Hk. rewrite <- Il. by eapply iwf_vars.
      - rewrite !app_length. cbn [length]. lia.
      - rewrite !app_length. cbn [length]. lia.
      - by rewrite lookup_app_r, Nat.sub_diag by done.
      - by rewrite lookup_app_r, LV, Nat.sub_diag by lia.
      - by rewrite lookup_app_r, Il, Nat.sub_diag by lia.
      - intros k Hne. destruct (decide (k < length vars)%nat) as [Hlt|Hlt].
        + rewrite !lookup_app_l by lia. done.
        + rewrite !(lookup_ge_None_2 _ k); [done|..]; rewrite ?app_length; cbn [length]; lia. }
    destruct (IH _ _ _ _ _ _ _ _ _ _ _ I1 Hw (gfs_ext _ _ _ _ _ _ X1 Ho)) as (h' & os' & E & B' & Hb' & L' & F'). exists h', os'.
    rewrite (st_bind_ok _ _ _ _ _ E1). split; [done|]. split; [done|]. split; [done|]. split; [done|].
    eapply gfs_eq; [exact F'|]. intros ρ. cbn [srun].
    assert (Hz : zvars (Vs ++ [fun ρ => ival n (zvars Vs ρ) e]) ρ = zvars Vs ρ ++ [ival n (zvars Vs ρ) e]) by (unfold zvars; by rewrite map_app).
    by rewrite Hz.
  - destruct Hw as (Hd & We & Hw). destruct (ibuild_step md l l i os cfg n Vs Hn e vars h Ib Ic Iv) as (z & h1 & E1 & S1); [by rewrite <- LV, <- Il|].
    pose proof S1 as [B1 X1 C1 V1 K1 O1 N1 L1].
    assert (I1 : sinv l cfg n hp h1 i os (<[d := z]> vars) (<[d := fun ρ => ival n (zvars Vs ρ) e]> Vs)
      (<[d := from_option (fun k => nth k cls nxt) nxt (ialias e)]> cls) (map (fun k => nth k cls nxt) (ireads n e) ++ used) uo (S nxt)).
    { eapply (sinv_bind l cfg n hp h i os vars Vs cls used uo nxt (ialias e) z h1 _ _ d); [exact I|exact B1|exact X1|exact C1|exact V1|exact K1|exact O1|exact N1|exact L1| | | | | | |].
      - intros k Hk. rewrite <- Il. by eapply iwf_vars.
      - rewrite !insert_length. lia.
      - rewrite !insert_length. lia.
      - apply list_lookup_insert. lia.
      - apply list_lookup_insert. lia.
      - apply list_lookup_insert. lia.
      - intros k Hne. by rewrite !list_lookup_insert_ne by done. }
    destruct (IH _ _ _ _ _ _ _ _ _ _ _ I1 Hw (gfs_ext _ _ _ _ _ _ X1 Ho)) as (h' & os' & E & B' & Hb' & L' & F'). exists h', os'.
    rewrite (st_bind_ok _ _ _ _ _ E1). split; [done|]. split; [done|]. split; [done|]. split; [done|].
    eapply gfs_eq; [exact F'|]. intros ρ. cbn [srun].
    assert (Hz : zvars (<[d := fun ρ => ival n (zvars Vs ρ) e]> Vs) ρ = <[d := ival n (zvars Vs ρ) e]> (zvars Vs ρ)).
    { unfold zvars. exact (list_fmap_insert (fun V : (N -> bool) -> Z => V ρ) Vs d (fun ρ => ival n (zvars Vs ρ) e)). }
    by rewrite Hz.
  - destruct Hw as (Hk & Hu & Hw). destruct (lookup_lt_is_Some_2 vars k) as [x Hx]; [lia|]. destruct (Forall2_lookup_l _ _ _ _ _ Iv Hx) as (X & HX & V1).
    destruct (lookup_lt_is_Some_2 cls k Hk) as [c Hc]. rewrite (nth_lookup_Some _ _ _ _ Hc) in Hu.
    destruct (int_output_ok l h l i os cfg n Hn Ib Ic x X V1) as (h1 & E1 & B1 & M1 & C1).
    assert (D : dinv h) by (destruct Ib as [c0 Ib]; apply Ib). assert (D1 : dinv h1) by (destruct B1 as [c0 B1]; apply B1).
    assert (F1 : forall g, has_gate h l g -> safe_gate h l g -> safe_gate h1 l g). { intros g Hg Hf. eapply keep_mv; [exact M1|done|done|]. by intros []%elem_of_nil. }
    assert (Hgx : forall o, o ∈ ai_val x -> has_gate h l o) by (intros o Hin; eapply gfs_in; [apply V1|done]).
    assert (Hgo : forall j o, (os ++ ai_val x) !! j = Some o -> has_gate h1 l o).
    { intros j o Hj. apply lookup_app_Some in Hj as [Hj|[_ Hj]].
      - eapply has_gate_hle; [apply M1|]. eapply has_gate_hle; [apply Ix|]. by eapply Ios.
      - eapply has_gate_hle; [apply M1|]. apply Hgx. by eapply elem_of_list_lookup_2. }
    assert (I1 : sinv l cfg n h1 h1 i (os ++ ai_val x) vars Vs cls used used nxt).
    { split; [done|done|by eapply ivars_at_ext; [apply M1|]|done|done|done| | | |apply ext_refl|done|exact Hgo|].
      - intros j cj g Hg Hcj Huj. apply F1; [by eapply gates_has|by eapply If].
      - intros j cj g Hg Hcj Huj. apply F1; [by eapply gates_has|by eapply If].
      - intros j g o Hg Hj. eapply before_old; [exact D|apply M1|by eapply gates_has|by eapply Iin].
      - intros j j' o o' Hlt Hj Hj'. apply lookup_app_Some in Hj as [Hj|[Hge Hj] ].
        + rewrite lookup_app_l in Hj' by (apply lookup_lt_Some in Hj; lia).
          destruct (Ih j j' o o' Hlt Hj Hj') as [Hb|Hp]; [left|right; eapply pinned_hle; [apply M1|done]].
          eapply before_old; [exact D|apply M1| |done]. eapply has_gate_hle; [apply Ix|by eapply Ios].
        + apply elem_of_list_lookup_2 in Hj. apply lookup_app_Some in Hj' as [Hj'|[_ Hj'] ].
          * assert (Hl : hle hp h1) by (eapply hle_trans; [apply Ix|apply M1]). destruct (Ifp k c o ltac:(by exists x) Hc Hu) as [Hf|Hp]; [left|right; by eapply pinned_hle].
            eapply (before_old hp); [done|done|by eapply Ios|by apply before_free].
          * left. apply elem_of_list_lookup_2 in Hj'. eapply before_old; [exact D|apply M1|by apply Hgx|]. eapply (Iin k); by exists x. }
    destruct (IH _ _ _ _ _ _ _ _ _ _ _ I1 Hw (gfs_app _ _ _ _ _ _ (gfs_mv _ _ _ _ _ _ _ _ M1 Ho) (gfs_mv _ _ _ _ _ _ _ _ M1 (iv_val _ _ _ _ _ _ V1)))) as (h' & os' & E & B' & Hb' & L' & F').
    exists h', os'. rewrite (st_bind_ok _ _ _ _ _ (st_nth_ok _ _ _ _ Hx)), (st_bind_ok _ _ _ _ _ E1). split; [done|]. split; [done|]. split; [done|]. split.
    { assert (Hs : soutputs (SOut k :: p) = S (soutputs p)) by done. rewrite Hs, L', app_length, (iv_len _ _ _ _ _ _ V1). lia. }
    eapply gfs_eq; [exact F'|]. intros ρ. cbn [srun map concat]. rewrite <- app_assoc. do 3 f_equal. symmetry. apply nth_lookup_Some. unfold zvars. by rewrite list_lookup_fmap, HX.
Qed.
(** The outputs depend on the inputs only modulo [2^n]. *)
Definition zsame (n : nat) (a b : list Z) : Prop := Forall2 (fun x y => x mod two_p n = y mod two_p n)%Z a b.
Lemma zsame_nth n a b k : zsame n a b -> (nth k a 0 mod two_p n = nth k b 0 mod two_p n)%Z.
Proof. intros H. revert k. induction H as [|x y a b Hxy H IH]; intros [|k]; cbn [nth]; auto. Qed.
Lemma srun_mod n p cls used uo nxt ins ins' vs vs' : swf n cls used uo nxt p -> length vs = length cls -> zsame n ins ins' -> zsame n vs vs' ->
  map (zbits n) (srun n ins vs p) = map (zbits n) (srun n ins' vs' p).
Proof.
  revert cls used uo nxt ins ins' vs vs'. induction p as [|[|e|d e|k] p IH]; intros cls used uo nxt ins ins' vs vs' Hw Hl Hi Hv; cbn [swf srun map] in *.
  - done.
  - eapply IH; [exact Hw|rewrite !app_length, Hl; done|unfold zsame in *; destruct Hi; [constructor|done]|]. apply Forall2_app; [done|]. constructor; [|constructor]. unfold zsame in *. destruct Hi; done.
  - destruct Hw as [We Hw]. eapply IH; [exact Hw|rewrite !app_length, Hl; done|done|]. apply Forall2_app; [done|]. constructor; [|constructor].
    eapply ival_mod; [exact We|]. intros k _. by apply zsame_nth.
  - destruct Hw as (Hd & We & Hw). eapply IH; [exact Hw|by rewrite !insert_length|done|]. apply Forall2_insert; [done|].
    eapply ival_mod; [exact We|]. intros k _. by apply zsame_nth.
  - destruct Hw as (Hk & _ & Hw). f_equal; [apply zbits_inj; by apply zsame_nth|]. by eapply IH.
Qed.

(** * C61 *)
(** Every program of input, binding, assignment and output statements over expressions of any size builds without an error; the finished circuit has
    the inputs and outputs of the program in its order and evaluates to what the program computes, modulo [2^n], however often variables are used,
    overwritten and output. *)
Theorem C61_programs md h l n p : (1 <= n)%nat -> BuildEval.fresh h l -> swf n [] [] [] 0 p ->
  exists h', straight_program md l n p h = (Ok tt, h') /\ inputs_of h' l = Ok (N.of_nat (sinputs p * n)) /\ outputs_of h' l = Ok (N.of_nat (soutputs p * n)) /\
  forall md', exists depth, forall fuel vs, (depth <= fuel)%nat -> length vs = sinputs p ->
    eval_output md' h' fuel l (concat (map (zbits n) vs)) = Ok (concat (map (zbits n) (srun n vs [] p))).
Proof.
  intros Hn Hf Hw. destruct (int_config_new_ok md h l n Hn (fresh_base _ _ Hf)) as (cfg & h1 & E1 & T1 & C1).
  pose proof (bs_built _ _ _ _ _ T1 (fresh_bs _ _ Hf)) as B1.
  assert (I : sinv l cfg n h1 h1 0 [] [] [] [] [] [] 0).
  { assert (Hg : forall k g, ~ gates_of [] k g) by (intros k g (x & Hx & _); done).
    split; [done|done|constructor|done|constructor| | | | |apply ext_refl|destruct B1 as [c0 B1]; apply B1| |].
    - intros k k' g H. by apply Hg in H.
    - intros k c g H. by apply Hg in H.
    - intros k c g H. by apply Hg in H.
    - intros k g o H. by apply Hg in H.
    - done.
    - intros k k' o o' _ Hk. done. }
  destruct (sbuild_ok md l cfg n Hn p _ _ _ _ _ _ _ _ _ _ (fun _ => []) I Hw (gfs_nil _ _)) as (h' & os & E & B & Hb & L & F). cbn [length Nat.add app] in *.
  exists h'. split; [unfold straight_program; by rewrite (st_bind_ok _ _ _ _ _ E1)|]. rewrite N.add_0_l in B.
  destruct (evaluable_evaluates l h' l (sinputs p * n) (soutputs p * n) os _ (fun bits => concat (map (zbits n) (srun n (sins 0 n p (wires bits)) [] p))) B F
    (outs_before_evaluable _ _ _ _ _ B Hb) L ltac:(done)) as (H1 & H2 & H3).
  split; [done|]. split; [done|]. intros md'. destruct (H3 md') as [depth Hd]. exists depth. intros fuel vs Hfu Hm.
  assert (Hvs : Forall (fun v => length v = n) (map (zbits n) vs)). { apply Forall_map, Forall_forall. intros. apply zbits_length. }
  rewrite Hd; [|done|by rewrite (concat_length _ n), map_length, Hm]. do 2 f_equal. eapply srun_mod; [exact Hw|done| |constructor].
  pose proof (inb_concat _ n Hvs) as Hi. rewrite map_length, Hm in Hi.
  assert (Hz : sins 0 n p (wires (concat (map (zbits n) vs))) = map (fun v => v mod two_p n)%Z vs).
  { unfold sins. apply (f_equal (map zval)) in Hi. rewrite !map_map in Hi. etrans; [exact Hi|]. apply map_ext. intros a. apply zval_zbits. }
  rewrite Hz. unfold zsame. apply Forall2_fmap_l, Forall_Forall2_diag, Forall_forall. intros a _. apply Z.mod_mod. pose proof (two_p_pos n). lia.
Qed.
(** The program [a = input; b = input; x = a + b; y = x * a; c = x < y; output y; output x; x -= y; output c; z = x << 1; output z] on 4 bits. Outputting
    an input after the result of a comparison of it is outside of the theorem, and does fail. *)
Definition straight_demo : list sinstr :=
  [SInput; SInput; SLet (IAdd (IVar 0) (IVar 1)); SLet (IMul (IVar 2) (IVar 0)); SLet (ICmp CLess (IVar 2) (IVar 3)); SOut 3; SSet 2 (ISub (IVar 2) (IVar 3));
   SOut 2; SOut 4; SLet (IShl (IVar 2) 1); SOut 5].
Definition straight_bad : list sinstr := [SInput; SInput; SLet (ICmp CLess (IVar 0) (IVar 1)); SOut 2; SOut 0].
Example C61_example : BuildEval.fresh blank1 0 /\ swf 4 [] [] [] 0 straight_demo /\ srun 4 [1; 2]%Z [] straight_demo = [3; 0; 0; 0]%Z /\
  try_program (straight_program Debug 0 4 straight_demo) 100 (zbits 4 1 ++ zbits 4 2) = Some (zbits 4 3 ++ zbits 4 0 ++ zbits 4 0 ++ zbits 4 0) /\
  ~ swf 4 [] [] [] 0 straight_bad /\ try_program (straight_program Debug 0 4 straight_bad) 100 (zbits 4 3 ++ zbits 4 6) = None.
Proof.
  split; [apply fresh_blank1|]. split.
  { cbn -[elem_of]. repeat split; try lia; intros H; repeat (apply elem_of_cons in H as [H|H]; [done|]); by apply elem_of_nil in H. }
  split; [reflexivity|]. split; [vm_compute; reflexivity|]. split; [|vm_compute; reflexivity].
  cbn -[elem_of]. intros H. decompose [and] H. match goal with H : ~ _ |- _ => apply H end. left.
Qed.
