(** Disciplined histories: operands exist, module calls have the right arity, called circuits are no longer modified.
    Their heaps are acyclic and their module calls match the current signature of the callee. *)
From Verif Require Export SemFacts.

(** In [h], the circuit [c] (at any location) has a call of the circuit at [l']. *)
Definition calls (h : heap) (c : circuit) (l' : nat) : Prop :=
  exists g il ol ids oi mid x, gate_map c !! g = Some (GModule il ol ids oi mid) /\ h_stor h !! c_storage c = Some x /\
    module_map x !! mid = Some l'.
(** No circuit calls the circuit at [l]. *)
Definition uncalled (h : heap) (l : nat) : Prop :=
  forall l1 c1, h_circ h !! l1 = Some c1 -> ~ calls h c1 l.

Record cdisc (h : heap) (c : circuit) : Prop := {
  d_ops : forall g gt a, gate_map c !! g = Some gt -> a ∈ operands gt -> a < g - gate_oi gt;
  d_arity : forall g il ol ids oi mid x l' m, gate_map c !! g = Some (GModule il ol ids oi mid) ->
    h_stor h !! c_storage c = Some x -> module_map x !! mid = Some l' -> h_circ h !! l' = Some m ->
    il = input_len m /\ ol = output_len m /\ N.of_nat (length ids) = input_len m;
}.

Record dinv (h : heap) : Prop := {
  di_inv : hinv h;
  di_disc : forall l c, h_circ h !! l = Some c -> cdisc h c;
  di_rank : exists rank : nat -> nat, forall l c l', h_circ h !! l = Some c -> calls h c l' -> (rank l' < rank l)%nat;
}.

(** Effects of disciplined calls. *)
Inductive deff (md : mode) (h : heap) : heap -> Prop :=
| deff_push l c gt c' : h_circ h !! l = Some c -> push c gt c' -> (forall a, a ∈ operands gt -> a < gate_index c) -> uncalled h l ->
    deff md h (upd h l c')
| deff_out l c g c' : h_circ h !! l = Some c -> push_out c g c' -> uncalled h l -> deff md h (upd h l c')
| deff_module l c s x l' m mid ids outs c' :
    h_circ h !! l = Some c -> c_storage c = s -> h_stor h !! s = Some x -> module_map x !! mid = Some l' -> l' <> l ->
    h_circ h !! l' = Some m -> wires_ok md m -> push_mod c m mid ids outs c' ->
    (forall a, a ∈ ids -> a < gate_index c) -> N.of_nat (length ids) = input_len m -> 0 < output_len m -> uncalled h l ->
    deff md h (upd h l c')
| deff_stor : deff md h (Heap (h_circ h) (h_stor h ++ [storage_new]))
| deff_new s x : h_stor h !! s = Some x -> deff md h (add_circ h (circuit_new s))
| deff_clone l c : h_circ h !! l = Some c -> deff md h (add_circ h c)
| deff_reg s x l' c' : h_stor h !! s = Some x -> h_circ h !! l' = Some c' -> deff md h (reg h s x l').

Lemma deff_eff md h h' : deff md h h' -> eff md h h'.
Proof. destruct 1; [eapply eff_push|eapply eff_out|eapply eff_module|eapply eff_stor|eapply eff_new|eapply eff_clone|eapply eff_reg]; eauto. Qed.

(** Storages only gain modules, and the modules used by existing gates are known. *)
Lemma calls_grow h h' c l' : hle h h' -> calls h c l' -> calls h' c l'.
Proof.
  intros L (g & il & ol & ids & oi & mid & x & G & S & M).
  destruct (hle_stor _ _ L _ _ S) as (x' & S' & Hm & _).
  exists g, il, ol, ids, oi, mid, x'. split; [done|]. split; [done|]. by eapply lookup_weaken.
Qed.
Lemma calls_shrink h h' l c l' : hinv h -> hle h h' -> h_circ h !! l = Some c -> calls h' c l' -> calls h c l'.
Proof.
  intros H L E (g & il & ol & ids & oi & mid & x' & G & S' & M').
  destruct (hi_calls h H _ _ _ _ _ _ _ _ E G) as (x & l2 & m & S & M & _).
  destruct (hle_stor _ _ L _ _ S) as (x2 & S2 & Hm & _). simplify_eq.
  exists g, il, ol, ids, oi, mid, x. split; [done|]. split; [done|].
  pose proof (lookup_weaken _ _ _ _ M Hm). congruence.
Qed.
Lemma calls_valid h l c l' : hinv h -> h_circ h !! l = Some c -> calls h c l' -> is_Some (h_circ h !! l').
Proof.
  intros H E (g & il & ol & ids & oi & mid & x & G & S & M).
  destruct (hi_calls h H _ _ _ _ _ _ _ _ E G) as (x2 & l2 & m & S2 & M2 & E2 & _). simplify_eq. eauto.
Qed.

(** [cdisc] of an unchanged circuit survives when the circuits it calls are unchanged. *)
Lemma cdisc_frame h h' l c : hinv h -> hle h h' -> h_circ h !! l = Some c -> cdisc h c ->
  (forall l', calls h c l' -> h_circ h' !! l' = h_circ h !! l') -> cdisc h' c.
Proof.
  intros H L E D F. split; [apply D|].
  intros g il ol ids oi mid x' l' m G S M E'.
  assert (C : calls h c l'). { eapply calls_shrink; eauto. exists g, il, ol, ids, oi, mid, x'. done. }
  destruct (hi_calls h H _ _ _ _ _ _ _ _ E G) as (x & l2 & m2 & S2 & M2 & E2 & _).
  destruct (hle_stor _ _ L _ _ S2) as (x2 & S3 & Hm & _). simplify_eq.
  pose proof (lookup_weaken _ _ _ _ M2 Hm). simplify_eq.
  rewrite F in E' by done. eapply (d_arity h c D); eauto.
Qed.

Lemma push_calls h c gt c' l' : cwf c -> push c gt c' -> calls h c' l' -> calls h c l'.
Proof.
  intros W P (g & il & ol & ids & oi & mid & x & G & S & M).
  rewrite (push_lookup _ _ _ _ P) in G. rewrite (p_st _ _ _ P) in S. destruct decide.
  - injection G as ->. by pose proof (p_kind _ _ _ P).
  - exists g, il, ol, ids, oi, mid, x. done.
Qed.
Lemma push_out_calls h c g c' l' : push_out c g c' -> calls h c' l' -> calls h c l'.
Proof. by intros [_ ->]. Qed.
Lemma push_mod_calls h c m mid ids outs c' x l0 l' :
  push_mod c m mid ids outs c' -> h_stor h !! c_storage c = Some x -> module_map x !! mid = Some l0 ->
  calls h c' l' -> calls h c l' \/ l' = l0.
Proof.
  intros P Hx Hm (g & il & ol & ids' & oi & mid' & x' & G & S & M).
  rewrite (pm_gm _ _ _ _ _ _ P) in G. rewrite (pm_st _ _ _ _ _ _ P) in S. destruct decide.
  - right. simplify_eq. done.
  - left. exists g, il, ol, ids', oi, mid', x'. done.
Qed.
Lemma calls_upd h l c c1 l' : calls (upd h l c) c1 l' <-> calls h c1 l'.
Proof. done. Qed.

(** Replacing an uncalled circuit. *)
Lemma dinv_upd h l c c' : dinv h -> hinv (upd h l c') -> cle c c' -> h_circ h !! l = Some c -> uncalled h l -> cdisc (upd h l c') c' ->
  (exists rank : nat -> nat, forall l1 c1 l', h_circ (upd h l c') !! l1 = Some c1 -> calls h c1 l' -> (rank l' < rank l1)%nat) ->
  dinv (upd h l c').
Proof.
  intros D H' L E U Dc R. split; [done| |done].
  intros l1 c1 E1. destruct (decide (l1 = l)) as [-> |].
  - erewrite upd_lookup in E1 by done. by injection E1 as <-.
  - rewrite upd_lookup_ne in E1 by done.
    eapply (cdisc_frame h); [apply D|by eapply hle_upd|done|by eapply di_disc|].
    intros l' C. apply upd_lookup_ne. intros ->. by eapply U.
Qed.

Lemma push_operands_old h c gt c' g gt' a : cdisc h c -> push c gt c' -> (forall a, a ∈ operands gt -> a < gate_index c) ->
  gate_map c' !! g = Some gt' -> a ∈ operands gt' -> a < g - gate_oi gt'.
Proof.
  intros D P O G A. rewrite (push_lookup _ _ _ _ P) in G. destruct decide as [-> |].
  - injection G as <-. replace (gate_oi gt) with 0 by (pose proof (p_kind _ _ _ P); by destruct gt). specialize (O a A). lia.
  - by eapply (d_ops h c D).
Qed.

Lemma dinv_deff md h h' : dinv h -> deff md h h' -> dinv h'.
Proof.
  intros D He. pose proof (deff_eff _ _ _ He) as He'. pose proof (hinv_eff _ _ _ (di_inv h D) He') as H'.
  pose proof (hle_eff _ _ _ (di_inv h D) He') as L. clear He'.
  destruct (di_rank h D) as [rank Hr].
  destruct He as [l c gt c' E Hp Ho U|l c g c' E Hp U|l c s x l' m mid ids outs c' E Es Ex Em Hne Em' Hw Hp Ho Hlen Hpos U|
    |s x E|l c E|s x l' c' E E'].
  - assert (W : cwf c) by (by eapply (hi_circ h), E; apply D).
    eapply dinv_upd; eauto using cle_push.
    + split.
      * intros. eapply push_operands_old; eauto. by eapply di_disc.
      * intros g il ol ids oi mid x l' m G S M E2. rewrite (push_lookup _ _ _ _ Hp) in G. rewrite (p_st _ _ _ Hp) in S.
        destruct decide. { injection G as ->. by pose proof (p_kind _ _ _ Hp). }
        assert (l' <> l). { intros ->. eapply U; [exact E|]. exists g, il, ol, ids, oi, mid, x. done. }
        rewrite upd_lookup_ne in E2 by done. by eapply (d_arity h c); [eapply di_disc|..].
    + exists rank. intros l1 c1 l' E1 C. destruct (decide (l1 = l)) as [-> |].
      * erewrite upd_lookup in E1 by done. injection E1 as <-. eapply Hr; [done|]. by eapply push_calls.
      * rewrite upd_lookup_ne in E1 by done. by eapply Hr.
  - assert (W : cwf c) by (by eapply (hi_circ h), E; apply D).
    eapply dinv_upd; eauto using cle_push_out.
    + pose proof Hp as [_ ->]. split; simpl.
      * apply (d_ops h c). by eapply di_disc.
      * intros g' il ol ids oi mid x l' m G S M E2.
        assert (l' <> l). { intros ->. eapply U; [exact E|]. exists g', il, ol, ids, oi, mid, x. done. }
        rewrite list_lookup_insert_ne in E2 by done. by eapply (d_arity h c); [eapply di_disc|..].
    + exists rank. intros l1 c1 l' E1 C. destruct (decide (l1 = l)) as [-> |].
      * erewrite upd_lookup in E1 by done. injection E1 as <-. eapply Hr; [done|]. by eapply push_out_calls.
      * rewrite upd_lookup_ne in E1 by done. by eapply Hr.
  - subst s. assert (W : cwf c) by (by eapply (hi_circ h), E; apply D).
    eapply dinv_upd; eauto using cle_push_mod.
    + split.
      * intros g gt a G A. rewrite (pm_gm _ _ _ _ _ _ Hp) in G. destruct decide.
        -- injection G as <-. simpl in *. specialize (Ho a A). lia.
        -- by eapply (d_ops h c (di_disc h D l c E)).
      * intros g il ol ids' oi mid' x' l2 m' G S M E2. rewrite (pm_gm _ _ _ _ _ _ Hp) in G. rewrite (pm_st _ _ _ _ _ _ Hp) in S.
        destruct decide.
        -- simpl in S. simplify_eq. rewrite upd_lookup_ne in E2 by done. simplify_eq. done.
        -- assert (l2 <> l). { intros ->. eapply U; [exact E|]. exists g, il, ol, ids', oi, mid', x'. done. }
           rewrite upd_lookup_ne in E2 by done. by eapply (d_arity h c (di_disc h D l c E)).
    + exists (fun k => if decide (k = l) then Nat.max (rank l) (S (rank l')) else rank k).
      intros l1 c1 l2 E1 C. destruct (decide (l1 = l)) as [-> |].
      * erewrite upd_lookup in E1 by done. injection E1 as <-.
        destruct (push_mod_calls h c m mid ids outs c' x l' l2 Hp Ex Em C) as [C'| ->].
        -- destruct (decide (l2 = l)) as [-> |]; [by destruct (U _ _ E C')|]. specialize (Hr _ _ _ E C'). lia.
        -- rewrite decide_False by done. lia.
      * rewrite upd_lookup_ne in E1 by done. destruct (decide (l2 = l)) as [-> |]; [by destruct (U _ _ E1 C)|]. by eapply Hr.
  - split; [done| |].
    + intros l c E. eapply (cdisc_frame h); [apply D|done|done|by eapply di_disc|]. done.
    + exists rank. intros l c l' E C. eapply Hr; [done|]. eapply calls_shrink; eauto. apply D.
  - split; [done| |].
    + intros l c [E1|[_ ->]]%add_circ_inv.
      * eapply (cdisc_frame h); [apply D|done|done|by eapply di_disc|].
        intros l' C. destruct (calls_valid h l c l' (di_inv h D) E1 C) as [m Em]. rewrite Em. by apply add_circ_old.
      * split; simpl; intros *; by rewrite lookup_empty.
    + exists rank. intros l c l' [E1|[_ ->]]%add_circ_inv C.
      * eapply Hr; [done|]. done.
      * destruct C as (?&?&?&?&?&?&?& G &_). simpl in G. by rewrite lookup_empty in G.
  - assert (F : forall l1 c1 l', h_circ h !! l1 = Some c1 -> calls h c1 l' -> h_circ (add_circ h c) !! l' = h_circ h !! l').
    { intros l1 c1 l' E1 C. destruct (calls_valid h l1 c1 l' (di_inv h D) E1 C) as [m Em]. rewrite Em. by apply add_circ_old. }
    split; [done| |].
    + intros l1 c1 [E1|[_ ->]]%add_circ_inv.
      * eapply (cdisc_frame h); [apply D|done|done|by eapply di_disc|]. intros. by eapply F.
      * eapply (cdisc_frame h); [apply D|done|done|by eapply di_disc|]. intros. by eapply F.
    + exists (fun k => if decide (k = length (h_circ h)) then rank l else rank k).
      intros l1 c1 l' [E1|[-> ->]]%add_circ_inv C.
      * destruct (calls_valid h l1 c1 l' (di_inv h D) E1 C) as [m Em].
        apply lookup_lt_Some in E1 as ?. apply lookup_lt_Some in Em as ?.
        rewrite !decide_False by lia. by eapply Hr.
      * destruct (calls_valid h l c l' (di_inv h D) E C) as [m Em]. apply lookup_lt_Some in Em as ?.
        rewrite decide_False by lia. rewrite decide_True by done. by eapply Hr.
  - split; [done| |].
    + intros l c E1. eapply (cdisc_frame h); [apply D|done|done|by eapply di_disc|]. done.
    + exists rank. intros l c l2 E1 C. eapply Hr; [done|]. eapply (calls_shrink h _ l); eauto. apply D.
Qed.

Lemma dinv_empty : dinv heap_empty.
Proof. split; [apply hinv_empty| |exists (fun _ => O)]; intros; done. Qed.

(** * Disciplined histories in terms of calls *)
Definition has_gate (h : heap) (l : nat) (g : N) : Prop := exists c, h_circ h !! l = Some c /\ is_Some (gate_map c !! g).

Definition dop (h : heap) (o : op) : Prop :=
  match o with
  | OpNewStorage | OpNewCircuit _ | OpClone _ | OpRegister _ _ | OpSub _ | OpPut _ _ => True
  | OpInput l | OpOutput l _ | OpConst l _ => uncalled h l
  | OpNot l a | OpIdentity l a => uncalled h l /\ has_gate h l a
  | OpXor l a b | OpAnd l a b | OpOr l a b | OpEquivalent l a b => uncalled h l /\ has_gate h l a /\ has_gate h l b
  | OpModule l mid ids => uncalled h l /\ (forall a, a ∈ ids -> has_gate h l a) /\
      forall l' h' m, r_get_module l mid h = (Ok l', h') -> h_circ h !! l' = Some m ->
        N.of_nat (length ids) = input_len m /\ 0 < output_len m
  end.
Fixpoint disciplined (md : mode) (h : heap) (ops : list op) : Prop :=
  match ops with
  | [] => True
  | o :: ops => dop h o /\ disciplined md (step md h o) ops
  end.

Lemma uncalled_push h l c gt c' : hinv h -> h_circ h !! l = Some c -> push c gt c' -> uncalled h l -> uncalled (upd h l c') l.
Proof.
  intros H E P U l1 c1 E1 C. destruct (decide (l1 = l)) as [-> |].
  - erewrite upd_lookup in E1 by done. injection E1 as <-. eapply U; [done|]. eapply push_calls; [|done|done].
    by eapply (hi_circ h).
  - rewrite upd_lookup_ne in E1 by done. by eapply U.
Qed.

Lemma dop_deffs md h o : dinv h -> dop h o -> rtc (deff md) h (step md h o).
Proof.
  intros D.
  assert (dang : forall A (m : M A) (f : A -> ret), m h = (Panic PDangling, h) -> snd (as_ret f m h) = h).
  { intros A m f E. unfold as_ret, st_bind. rewrite E. done. }
  assert (okk : forall A (m : M A) (f : A -> ret) a h', m h = (Ok a, h') -> snd (as_ret f m h) = h').
  { intros A m f a h' E. unfold as_ret, st_bind. rewrite E. done. }
  assert (HG : forall l c a, h_circ h !! l = Some c -> has_gate h l a -> a < gate_index c).
  { intros l c a E (c0 & E0 & G). simplify_eq. eapply wf_gates; [|exact G]. eapply (hi_circ h); [apply D|done]. }
  unfold step. destruct o as [|s|l|l|l g|l b|l a|l a b|l a b|l a b|l a b|l a|l l'|l|l mid ids|s l']; simpl; intros Hd.
  1: { apply rtc_once, deff_stor. }
  1: { unfold as_ret, st_bind, get_stor. destruct (h_stor h !! s) as [x|] eqn:E; simpl; [|constructor].
       apply rtc_once. by eapply deff_new. }
  14: { unfold as_ret, st_bind, get_circ. destruct (h_circ h !! l') as [c'|] eqn:Hl'; [|constructor].
        unfold s_register, st_bind, get_stor. destruct (h_stor h !! s) as [x|] eqn:Hs; [|constructor].
        apply rtc_once. by eapply deff_reg. }
  all: destruct (h_circ h !! l) as [c|] eqn:Hl.
  all: try (rewrite dang; [constructor|]; unfold r_input, r_constant, r_not, r_xor, r_and, r_or, r_equivalent, r_identity, r_register, r_sub_circuit, r_output, r_module, r_get_module, st_bind, get_circ, on_circ, st_bind, get_circ; rewrite Hl; done).
  - unfold as_ret, st_bind, get_circ. rewrite Hl. simpl. apply rtc_once. by eapply deff_clone.
  - destruct (r_input_ok h l c Hl) as (c' & E & Hp). erewrite okk by eauto. apply rtc_once. eapply deff_push; eauto.
    intros a Ha. by apply elem_of_nil in Ha.
  - destruct (r_output_cases h l c Hl g) as [[H1 E]|(c' & E & Hp)].
    + unfold as_ret, st_bind. rewrite E. constructor.
    + erewrite okk by eauto. apply rtc_once. by eapply deff_out.
  - destruct (r_constant_ok h l c Hl b) as (c' & E & Hp). erewrite okk by eauto. apply rtc_once. eapply deff_push; eauto.
    intros a Ha. by apply elem_of_nil in Ha.
  - destruct Hd as [U Ha]. destruct (r_not_ok h l c Hl a) as (c' & E & Hp). erewrite okk by eauto. apply rtc_once.
    eapply deff_push; eauto. simpl. intros a' ->%elem_of_list_singleton. eauto.
  - destruct Hd as (U & Ha & Hb). destruct (r_xor_ok h l c Hl a b) as (c' & E & Hp). erewrite okk by eauto. apply rtc_once.
    eapply deff_push; eauto. simpl. intros a' [-> |[-> |[]%elem_of_nil]%elem_of_cons]%elem_of_cons; eauto.
  - destruct Hd as (U & Ha & Hb). destruct (r_and_ok h l c Hl a b) as (c' & E & Hp). erewrite okk by eauto. apply rtc_once.
    eapply deff_push; eauto. simpl. intros a' [-> |[-> |[]%elem_of_nil]%elem_of_cons]%elem_of_cons; eauto.
  - destruct Hd as (U & Ha & Hb). destruct (r_or_ok h l c Hl a b) as (c' & E & Hp). erewrite okk by eauto. apply rtc_once.
    eapply deff_push; eauto. simpl. intros a' [-> |[-> |[]%elem_of_nil]%elem_of_cons]%elem_of_cons; eauto.
  - destruct Hd as (U & Ha & Hb). destruct (r_equivalent_ok h l c Hl a b) as (c1 & c2 & E & Hgi & H1 & H2).
    erewrite okk by eauto. eapply rtc_l.
    + eapply deff_push; eauto. simpl. intros a' [-> |[-> |[]%elem_of_nil]%elem_of_cons]%elem_of_cons; eauto.
    + apply rtc_once. eapply deff_push; [by eapply upd_lookup|done| |eapply uncalled_push; eauto; apply D].
      simpl. intros a' ->%elem_of_list_singleton. lia.
  - destruct Hd as (U & Ha). destruct (r_identity_ok h l c Hl a) as (c1 & c2 & E & Hgi & H1 & H2).
    erewrite okk by eauto. eapply rtc_l.
    + eapply deff_push; eauto. simpl. intros a' ->%elem_of_list_singleton; eauto.
    + apply rtc_once. eapply deff_push; [by eapply upd_lookup|done| |eapply uncalled_push; eauto; apply D].
      simpl. intros a' ->%elem_of_list_singleton. lia.
  - unfold as_ret, r_register, st_bind, get_circ. rewrite Hl. destruct (h_circ h !! l') as [c'|] eqn:Hl'; [|constructor].
    unfold s_register, st_bind, get_stor. destruct (h_stor h !! c_storage c) as [x|] eqn:Hs; [|constructor].
    apply rtc_once. by eapply deff_reg.
  - unfold as_ret, r_sub_circuit, st_bind, get_circ, get_stor. rewrite Hl.
    destruct (h_stor h !! c_storage c) as [x|] eqn:Hs; [|constructor].
    unfold alloc_circ. simpl.
    unfold s_register, st_bind, get_stor. simpl. rewrite Hs. simpl.
    eapply rtc_l; [by eapply deff_new|]. apply rtc_once.
    eapply (deff_reg _ (add_circ h (circuit_new (c_storage c))) (c_storage c) x (length (h_circ h)) (circuit_new (c_storage c))); [done|].
    simpl. rewrite lookup_app_r, Nat.sub_diag; done.
  - destruct Hd as (U & Ha & Hm). unfold as_ret, r_module, r_get_module, st_bind, get_circ, get_stor in *. rewrite Hl in *.
    destruct (h_stor h !! c_storage c) as [x|] eqn:Hs; [|constructor].
    destruct (module_map x !! mid) as [l'|] eqn:Hmid; [|constructor]. simpl.
    destruct (decide (l' = l)) as [|Hne]; [constructor|].
    destruct (h_circ h !! l') as [m|] eqn:Hl'; [|constructor]. rewrite Hl.
    destruct (c_module md c m mid ids) as [[outs c']|] eqn:E; [|constructor]. simpl.
    apply c_module_push in E as [Hw Hp]. destruct (Hm l' h m eq_refl Hl') as [Hlen Hpos].
    apply rtc_once. eapply deff_module; eauto.
Qed.

Lemma dinv_run_from md h ops : dinv h -> disciplined md h ops -> dinv (fold_left (step md) ops h).
Proof.
  revert h. induction ops as [|o ops IH]; intros h D; simpl; [done|]. intros [Ho Hops]. apply IH; [|done].
  pose proof (dop_deffs md h o D Ho) as Hr. clear IH Hops Ho. revert D Hr. generalize (step md h o). intros h' D Hr.
  induction Hr; eauto using dinv_deff.
Qed.
Theorem dinv_run md ops : disciplined md heap_empty ops -> dinv (run md ops).
Proof. apply dinv_run_from, dinv_empty. Qed.
