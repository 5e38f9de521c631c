(** Facts about the gate semantics: induction, determinism, monotonicity, rewriting rules. *)
From Verif Require Export Sem Inv.

Lemma Forall2_impl_in {A B} (P Q : A -> B -> Prop) xs ys :
  Forall2 P xs ys -> (forall x y, x ∈ xs -> P x y -> Q x y) -> Forall2 Q xs ys.
Proof.
  induction 1 as [|x y xs ys Hxy _ IH]; intros HH; constructor.
  - apply HH; [left|done].
  - apply IH. intros. apply HH; [by right|done].
Qed.

Section ind.
Context (h : heap) (P : nat -> (N -> option bool) -> N -> bool -> Prop).
Context (Hinput : forall l ρ g c w b, h_circ h !! l = Some c -> gate_map c !! g = Some (GInput w) -> ρ w = Some b -> P l ρ g b).
Context (Hconst : forall l ρ g c b, h_circ h !! l = Some c -> gate_map c !! g = Some (GConst b) -> P l ρ g b).
Context (Hnot : forall l ρ g c a x, h_circ h !! l = Some c -> gate_map c !! g = Some (GNot a) -> gv h l ρ a x -> P l ρ a x -> P l ρ g (negb x)).
Context (Hxor : forall l ρ g c a b x y, h_circ h !! l = Some c -> gate_map c !! g = Some (GXor a b) ->
  gv h l ρ a x -> P l ρ a x -> gv h l ρ b y -> P l ρ b y -> P l ρ g (xorb x y)).
Context (Hand : forall l ρ g c a b x y, h_circ h !! l = Some c -> gate_map c !! g = Some (GAnd a b) ->
  gv h l ρ a x -> P l ρ a x -> gv h l ρ b y -> P l ρ b y -> P l ρ g (andb x y)).
Context (Hor : forall l ρ g c a b x y, h_circ h !! l = Some c -> gate_map c !! g = Some (GOr a b) ->
  gv h l ρ a x -> P l ρ a x -> gv h l ρ b y -> P l ρ b y -> P l ρ g (orb x y)).
Context (Hmod : forall l ρ g c il ol ids oi mid s l' c' o bits b,
    h_circ h !! l = Some c -> gate_map c !! g = Some (GModule il ol ids oi mid) ->
    h_stor h !! c_storage c = Some s -> module_map s !! mid = Some l' -> h_circ h !! l' = Some c' ->
    output_map c' !! oi = Some o ->
    Forall2 (gv h l ρ) ids bits -> Forall2 (P l ρ) ids bits ->
    gv h l' (fun i => bits !! N.to_nat i) o b -> P l' (fun i => bits !! N.to_nat i) o b ->
    P l ρ g b).

Fixpoint gv_ind' l ρ g b (H : gv h l ρ g b) {struct H} : P l ρ g b.
Proof.
  destruct H.
  - by eapply Hinput.
  - by eapply Hconst.
  - eapply Hnot; eauto.
  - eapply Hxor; eauto.
  - eapply Hand; eauto.
  - eapply Hor; eauto.
  - eapply Hmod; eauto.
    clear - H5 gv_ind'. induction H5; constructor; auto.
Defined.
End ind.

Lemma Forall2_det {A B} (P Q : A -> B -> Prop) xs ys zs :
  Forall2 P xs ys -> Forall2 Q xs zs -> (forall x y z, P x y -> Q x z -> y = z) -> ys = zs.
Proof.
  intros H1. revert zs. induction H1 as [|x y xs ys Hxy _ IH]; intros zs H2 HH.
  - by inversion H2.
  - inversion H2 as [|? z ? zs' Hxz Hr]; subst. f_equal; eauto.
Qed.

Lemma gv_det h l ρ g b1 b2 : gv h l ρ g b1 -> gv h l ρ g b2 -> b1 = b2.
Proof.
  intros H. revert b2. induction H as [l ρ g c w b E G R|l ρ g c b E G|l ρ g c a x E G _ IH|l ρ g c a b x y E G _ IH1 _ IH2
    |l ρ g c a b x y E G _ IH1 _ IH2|l ρ g c a b x y E G _ IH1 _ IH2
    |l ρ g c il ol ids oi mid s l' c' o bits b E G S M E' O F IHF _ IH] using gv_ind';
  intros b2 H2; inversion H2; subst; simplify_eq; try done; try (f_equal; auto; fail).
  match goal with F2 : Forall2 (gv h l ρ) ids ?bs |- _ =>
    assert (bits = bs) as -> by (eapply (Forall2_det _ _ _ _ _ IHF F2); intros; auto) end.
  auto.
Qed.

Lemma gv_mono h h' l ρ ρ' g b : hle h h' -> (forall w x, ρ w = Some x -> ρ' w = Some x) -> gv h l ρ g b -> gv h' l ρ' g b.
Proof.
  intros L R H. revert ρ' R. induction H as [l ρ g c w b E G Rr|l ρ g c b E G|l ρ g c a x E G _ IH|l ρ g c a b x y E G _ IH1 _ IH2
    |l ρ g c a b x y E G _ IH1 _ IH2|l ρ g c a b x y E G _ IH1 _ IH2
    |l ρ g c il ol ids oi mid s l' c' o bits b E G S M E' O F IHF _ IH] using gv_ind'; intros ρ' R;
  destruct (hle_circ _ _ L _ _ E) as (c2 & E2 & Lc); pose proof (lookup_weaken _ _ _ _ G (cle_gates _ _ Lc)) as G2.
  - by eapply gv_input; eauto.
  - by eapply gv_const.
  - eapply gv_not; eauto.
  - eapply gv_xor; eauto.
  - eapply gv_and; eauto.
  - eapply gv_or; eauto.
  - destruct (hle_stor _ _ L _ _ S) as (s2 & S2 & Hm & _). destruct (hle_circ _ _ L _ _ E') as (c2' & E2' & Lc').
    refine (gv_module h' l ρ' g c2 il ol ids oi mid s2 l' c2' o bits b E2 G2 _ _ E2' _ _ _).
    + rewrite (cle_st _ _ Lc). done.
    + by eapply lookup_weaken.
    + eapply lookup_weaken; [done|apply Lc'].
    + eapply Forall2_impl; [exact IHF|]. intros. auto.
    + auto.
Qed.
Lemma gv_hle h h' l ρ g b : hle h h' -> gv h l ρ g b -> gv h' l ρ g b.
Proof. intros L. apply gv_mono; auto. Qed.
Lemma gv_env_ext h l ρ ρ' g b : (forall w, ρ w = ρ' w) -> gv h l ρ g b -> gv h l ρ' g b.
Proof. intros R. apply gv_mono; [apply hle_refl|]. intros. by rewrite <- R. Qed.
Lemma outv_hle h h' l ρ k b : hle h h' -> outv h l ρ k b -> outv h' l ρ k b.
Proof.
  intros L (c & o & E & O & V). destruct (hle_circ _ _ L _ _ E) as (c' & E' & Lc). exists c', o.
  split; [done|]. split; [by eapply lookup_weaken; [|apply Lc]|]. by eapply gv_hle.
Qed.
Lemma outv_det h l ρ k b1 b2 : outv h l ρ k b1 -> outv h l ρ k b2 -> b1 = b2.
Proof. intros (c & o & E & O & V) (c' & o' & E' & O' & V'). simplify_eq. by eapply gv_det. Qed.

(** Reading off the value of a gate. *)
Section iff.
Context (h : heap) (l : nat) (c : circuit) (E : h_circ h !! l = Some c) (ρ : N -> option bool) (g : N) (v : bool).
Ltac inv := intros V; inversion V; subst; simplify_eq; eauto 8.
Lemma gv_input_iff w : gate_map c !! g = Some (GInput w) -> gv h l ρ g v <-> ρ w = Some v.
Proof using E. intros G. split; [inv|]. intros. by eapply gv_input. Qed.
Lemma gv_const_iff b : gate_map c !! g = Some (GConst b) -> gv h l ρ g v <-> v = b.
Proof using E. intros G. split; [inv|]. intros ->. by eapply gv_const. Qed.
Lemma gv_not_iff a : gate_map c !! g = Some (GNot a) -> gv h l ρ g v <-> gv h l ρ a (negb v).
Proof using E.
  intros G. split; [inv; by rewrite negb_involutive|]. intros. rewrite <- (negb_involutive v). by eapply gv_not.
Qed.
Lemma gv_xor_iff a b : gate_map c !! g = Some (GXor a b) -> gv h l ρ g v <-> exists x y, gv h l ρ a x /\ gv h l ρ b y /\ v = xorb x y.
Proof using E. intros G. split; [inv|]. intros (x & y & ? & ? & ->). by eapply gv_xor. Qed.
Lemma gv_and_iff a b : gate_map c !! g = Some (GAnd a b) -> gv h l ρ g v <-> exists x y, gv h l ρ a x /\ gv h l ρ b y /\ v = andb x y.
Proof using E. intros G. split; [inv|]. intros (x & y & ? & ? & ->). by eapply gv_and. Qed.
Lemma gv_or_iff a b : gate_map c !! g = Some (GOr a b) -> gv h l ρ g v <-> exists x y, gv h l ρ a x /\ gv h l ρ b y /\ v = orb x y.
Proof using E. intros G. split; [inv|]. intros (x & y & ? & ? & ->). by eapply gv_or. Qed.
End iff.
