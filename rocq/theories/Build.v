(** Stepping through code that builds one circuit: a working state, its growth, and the function a gate denotes. *)
From Verif Require Export Disc.

(** The circuit at [l] is under construction: nobody calls it yet. *)
Record wk (h : heap) (l : nat) : Prop := {
  wk_d : dinv h;
  wk_u : uncalled h l;
  wk_c : is_Some (h_circ h !! l);
}.
(** From [h] to [h'] by disciplined calls of the API. *)
Definition dreach : heap -> heap -> Prop := rtc (fun h h' => exists md, deff md h h').
Lemma dreach_once md h h' : deff md h h' -> dreach h h'.
Proof. intros H. apply rtc_once. eauto. Qed.
Lemma dreach_trans h1 h2 h3 : dreach h1 h2 -> dreach h2 h3 -> dreach h1 h3.
Proof. apply rtc_transitive. Qed.
(** From [h] to [h'] everything grew, there are no new circuits and only the one at [l] changed. *)
Record ext (l : nat) (h h' : heap) : Prop := {
  ext_hle : hle h h';
  ext_frame : forall l' c, l' <> l -> h_circ h !! l' = Some c -> h_circ h' !! l' = Some c;
  ext_len : length (h_circ h') = length (h_circ h);
  ext_reach : dreach h h';
}.
Lemma ext_refl l h : ext l h h.
Proof. split; [apply hle_refl|done|done|apply rtc_refl]. Qed.
Lemma ext_trans l h1 h2 h3 : ext l h1 h2 -> ext l h2 h3 -> ext l h1 h3.
Proof.
  intros [L1 F1 N1 R1] [L2 F2 N2 R2]. split; [by eapply hle_trans| |congruence|by eapply dreach_trans]. intros. eauto.
Qed.

(** Gate [g] of the circuit at [l] exists and denotes [f], a function of the input wires. *)
Definition gf (h : heap) (l : nat) (g : N) (f : (N -> bool) -> bool) : Prop :=
  has_gate h l g /\ forall ρ, gv h l (fun w => Some (ρ w)) g (f ρ).
Lemma has_gate_hle h h' l g : hle h h' -> has_gate h l g -> has_gate h' l g.
Proof.
  intros L (c & E & [gt G]). destruct (hle_circ _ _ L _ _ E) as (c' & E' & Lc). exists c'. split; [done|].
  exists gt. by eapply lookup_weaken; [|apply Lc].
Qed.
Lemma gf_hle h h' l g f : hle h h' -> gf h l g f -> gf h' l g f.
Proof. intros L [H1 H2]. split; [by eapply has_gate_hle|]. intros ρ. by eapply gv_hle. Qed.
Lemma gf_ext l0 h h' l g f : ext l0 h h' -> gf h l g f -> gf h' l g f.
Proof. intros [L _ _ _]. by apply gf_hle. Qed.
Lemma gf_eq h l g f f' : gf h l g f -> (forall ρ, f ρ = f' ρ) -> gf h l g f'.
Proof. intros [H1 H2] H. split; [done|]. intros ρ. by rewrite <- H. Qed.

(** The value of a gate depends only on the input wires that exist. *)
Lemma gv_agree h l c ρ ρ' g b : hinv h -> h_circ h !! l = Some c -> (forall w, w < input_len c -> ρ w = ρ' w) ->
  gv h l ρ g b -> gv h l ρ' g b.
Proof.
  intros H E R V. revert c ρ' E R. induction V as [l ρ g c w b E G Rr|l ρ g c b E G|l ρ g c a x E G _ IH|l ρ g c a b x y E G _ IH1 _ IH2
    |l ρ g c a b x y E G _ IH1 _ IH2|l ρ g c a b x y E G _ IH1 _ IH2
    |l ρ g c il ol ids oi mid s l' c' o bits b E G S M E' O F IHF V IH] using gv_ind'; intros c0 ρ' E0 R; simplify_eq.
  - eapply gv_input; [done|done|]. rewrite <- R; [done|]. match goal with E : h_circ h !! l = Some ?cc |- _ => rename cc into c1 end. pose proof (hi_circ h H l c1 E) as W.
    pose proof (wf_input_gates c1 W _ _ G) as Hi. destruct (decide (w < input_len c1)); [done|].
    rewrite (wf_inputs_none c1 W w) in Hi by lia. done.
  - by eapply gv_const.
  - eapply gv_not; eauto.
  - eapply gv_xor; eauto.
  - eapply gv_and; eauto.
  - eapply gv_or; eauto.
  - eapply gv_module; eauto. eapply Forall2_impl; [exact IHF|]. intros; simpl in *; eauto.
Qed.

(** * Steps *)
Section step.
Context (h : heap) (l : nat) (c : circuit).
Context (W : wk h l) (E : h_circ h !! l = Some c).
Let H : hinv h := di_inv h (wk_d h l W).
Let Wc : cwf c := hi_circ h H l c E.

Lemma has_gate_lt g : has_gate h l g <-> g < gate_index c.
Proof using E Wc.
  split.
  - intros (c' & E' & [gt G]). simplify_eq. by eapply gm_lt.
  - intros Hg. exists c. split; [done|]. by apply (wf_gates c Wc).
Qed.
Lemma w_push gt c' : push c gt c' -> (forall a, a ∈ operands gt -> has_gate h l a) -> wk (upd h l c') l /\ ext l h (upd h l c').
Proof using All.
  intros P Ho.
  assert (De : deff Debug h (upd h l c')).
  { eapply deff_push; eauto using wk_u. intros a Ha. by apply has_gate_lt, Ho. }
  split; split.
  - eapply dinv_deff; [apply W|exact De].
  - eapply uncalled_push; eauto using wk_u.
  - erewrite upd_lookup by done. eauto.
  - eapply hle_eff; [exact H|by eapply deff_eff].
  - intros. by rewrite upd_lookup_ne.
  - simpl. by rewrite insert_length.
  - by eapply dreach_once.
Qed.
Lemma w_push_out g c' : push_out c g c' -> wk (upd h l c') l /\ ext l h (upd h l c').
Proof using All.
  intros P.
  assert (De : deff Debug h (upd h l c')) by (eapply deff_out; eauto using wk_u).
  split; split.
  - eapply dinv_deff; [apply W|exact De].
  - intros l1 c1 E1 C. destruct (decide (l1 = l)) as [-> |].
    + erewrite upd_lookup in E1 by done. injection E1 as <-. eapply (wk_u h l W); [exact E|]. by eapply push_out_calls.
    + rewrite upd_lookup_ne in E1 by done. eapply (wk_u h l W); eauto. 
  - erewrite upd_lookup by done. eauto.
  - eapply hle_eff; [exact H|by eapply deff_eff].
  - intros. by rewrite upd_lookup_ne.
  - simpl. by rewrite insert_length.
  - by eapply dreach_once.
Qed.
Lemma push_has gt c' : push c gt c' -> has_gate (upd h l c') l (gate_index c).
Proof using All.
  intros P. exists c'. split; [by eapply upd_lookup|]. rewrite (push_lookup _ _ _ _ P), decide_True by done. eauto.
Qed.
Lemma push_at gt c' : push c gt c' -> gate_map c' !! gate_index c = Some gt.
Proof using. intros P. by rewrite (push_lookup _ _ _ _ P), decide_True. Qed.

Lemma s_input : exists h' c', r_input l h = (Ok (gate_index c), h') /\ wk h' l /\ ext l h h' /\
  h_circ h' !! l = Some c' /\ push c (GInput (input_len c)) c' /\ gf h' l (gate_index c) (fun ρ => ρ (input_len c)).
Proof using All.
  destruct (r_input_ok h l c E) as (c' & Er & P). exists (upd h l c'), c'. destruct (w_push _ _ P) as [W' X].
  { intros a Ha. by apply elem_of_nil in Ha. }
  split; [done|]. split; [done|]. split; [done|]. split; [by eapply upd_lookup|]. split; [done|]. split; [by eapply push_has|].
  intros ρ. eapply gv_input; [by eapply upd_lookup|by eapply push_at|done].
Qed.
Lemma s_constant b : exists h' c', r_constant l b h = (Ok (gate_index c), h') /\ wk h' l /\ ext l h h' /\
  h_circ h' !! l = Some c' /\ push c (GConst b) c' /\ gf h' l (gate_index c) (fun ρ => b).
Proof using All.
  destruct (r_constant_ok h l c E b) as (c' & Er & P). exists (upd h l c'), c'. destruct (w_push _ _ P) as [W' X].
  { intros a Ha. by apply elem_of_nil in Ha. }
  split; [done|]. split; [done|]. split; [done|]. split; [by eapply upd_lookup|]. split; [done|]. split; [by eapply push_has|].
  intros ρ. eapply gv_const; [by eapply upd_lookup|by eapply push_at].
Qed.
Lemma s_not a f : gf h l a f -> exists h' c', r_not l a h = (Ok (gate_index c), h') /\ wk h' l /\ ext l h h' /\
  h_circ h' !! l = Some c' /\ push c (GNot a) c' /\ gf h' l (gate_index c) (fun ρ => negb (f ρ)).
Proof using All.
  intros Fa. destruct (r_not_ok h l c E a) as (c' & Er & P). exists (upd h l c'), c'. destruct (w_push _ _ P) as [W' X].
  { intros x Hx. simpl in Hx. apply elem_of_list_singleton in Hx as ->. apply Fa. }
  split; [done|]. split; [done|]. split; [done|]. split; [by eapply upd_lookup|]. split; [done|]. split; [by eapply push_has|].
  intros ρ. eapply gv_not; [by eapply upd_lookup|by eapply push_at|]. eapply gf_ext in Fa; [|exact X]. apply Fa.
Qed.
Ltac binary a b rok con := intros Fa Fb; destruct (rok h l c E a b) as (c' & Er & P); exists (upd h l c'), c'; destruct (w_push _ _ P) as [W' X];
  [intros z Hz; simpl in Hz; apply elem_of_cons in Hz as [-> |Hz]; [apply Fa|apply elem_of_list_singleton in Hz as ->; apply Fb]|];
  split; [done|]; split; [done|]; split; [done|]; split; [by eapply upd_lookup|]; split; [done|]; split; [by eapply push_has|];
  intros ρ; eapply con; [by eapply upd_lookup|by eapply push_at| |]; [eapply gf_ext in Fa; [apply Fa|exact X]|eapply gf_ext in Fb; [apply Fb|exact X]].
Lemma s_xor a b fa fb : gf h l a fa -> gf h l b fb -> exists h' c', r_xor l a b h = (Ok (gate_index c), h') /\ wk h' l /\ ext l h h' /\
  h_circ h' !! l = Some c' /\ push c (GXor a b) c' /\ gf h' l (gate_index c) (fun ρ => xorb (fa ρ) (fb ρ)).
Proof using All. binary a b r_xor_ok gv_xor. Qed.
Lemma s_and a b fa fb : gf h l a fa -> gf h l b fb -> exists h' c', r_and l a b h = (Ok (gate_index c), h') /\ wk h' l /\ ext l h h' /\
  h_circ h' !! l = Some c' /\ push c (GAnd a b) c' /\ gf h' l (gate_index c) (fun ρ => andb (fa ρ) (fb ρ)).
Proof using All. binary a b r_and_ok gv_and. Qed.
Lemma s_or a b fa fb : gf h l a fa -> gf h l b fb -> exists h' c', r_or l a b h = (Ok (gate_index c), h') /\ wk h' l /\ ext l h h' /\
  h_circ h' !! l = Some c' /\ push c (GOr a b) c' /\ gf h' l (gate_index c) (fun ρ => orb (fa ρ) (fb ρ)).
Proof using All. binary a b r_or_ok gv_or. Qed.
Lemma s_output g : has_gate h l g -> exists h' c', r_output l g h = (Ok (output_len c), h') /\ wk h' l /\ ext l h h' /\
  h_circ h' !! l = Some c' /\ push_out c g c'.
Proof using All.
  intros (c0 & E0 & [gt G]). simplify_eq. destruct (r_output_cases h l c E g) as [[Hn _]|(c' & Er & P)]; [congruence|].
  exists (upd h l c'), c'. destruct (w_push_out _ _ P) as [W' X]. split; [done|]. split; [done|]. split; [done|].
  split; [by eapply upd_lookup|done].
Qed.
End step.

Section step2.
Context (h : heap) (l : nat) (c : circuit).
Context (W : wk h l) (E : h_circ h !! l = Some c).
Lemma s_identity a f : gf h l a f -> exists h' c1 c2, r_identity l a h = (Ok (gate_index c + 1), h') /\ wk h' l /\ ext l h h' /\
  h_circ h' !! l = Some c2 /\ push c (GNot a) c1 /\ push c1 (GNot (gate_index c)) c2 /\ gf h' l (gate_index c + 1) f.
Proof using All.
  intros Fa. destruct (r_identity_ok h l c E a) as (c1 & c2 & Er & Hid & P1 & P2).
  destruct (w_push h l c W E _ _ P1) as [W1 X1].
  { intros x Hx. simpl in Hx. apply elem_of_list_singleton in Hx as ->. apply Fa. }
  pose proof (upd_lookup _ l c1 _ E) as E1. 
  destruct (w_push _ l c1 W1 E1 _ _ P2) as [W2 X2].
  { intros x Hx. simpl in Hx. apply elem_of_list_singleton in Hx as ->. by eapply push_has. }
  rewrite <- (p_gi _ _ _ P1). eexists _, c1, c2. split; [exact Er|]. split; [done|]. split; [by eapply ext_trans|].
  assert (E2 : h_circ (upd (upd h l c1) l c2) !! l = Some c2) by (by eapply upd_lookup). split; [done|].
  split; [done|]. split; [done|]. split; [by eapply push_has|]. intros ρ.
  rewrite <- (negb_involutive (f ρ)). eapply gv_not; [done|exact (push_at _ _ _ P2)|].
  eapply gv_not; [done| |]. 
  - rewrite (push_lookup _ _ _ _ P2), decide_False by (rewrite (p_gi _ _ _ P1); lia). by eapply push_at.
  - eapply gf_ext in Fa; [|exact X1]. eapply gf_ext in Fa; [|exact X2]. apply Fa.
Qed.
End step2.
