(** The consumers edited by the caller: C92. *)
From Verif Require Import DiscDec.
From Verif Require Export EvalPad Writer Prop_Circuit Prop_Eval Prop_Outcomes.
Open Scope N_scope.
Open Scope list_scope.

(** * Specification *)
(** Between API calls the caller may do anything to the public field [gate_dependence_map] of a circuit
    ([circuit.borrow_mut().gate_dependence_map], /repo/src/bool_circuit.rs 90-92 and 411); any code doing so computes some new map from the old one.
    Editing through a handle that does not exist is impossible, and does nothing here. *)
Inductive deed := Api (o : op) | Edit (l : nat) (f : gmap N (list N) -> gmap N (list N)).
Definition set_consumers (d : gmap N (list N)) (c : circuit) : circuit :=
  Circuit (input_map c) (output_map c) (gate_map c) (c_storage c) d (const_gates c) (input_len c) (output_len c)
    (num_wire c) (num_gate c) (num_const c) (gate_index c).
Definition do_deed (md : mode) (h : heap) (e : deed) : heap :=
  match e with
  | Api o => step md h o
  | Edit l f => Heap (alter (fun c => set_consumers (f (dep_map c)) c) l (h_circ h)) (h_stor h)
  end.
Definition deeds (md : mode) (es : list deed) : heap := fold_left (do_deed md) es heap_empty.
(** The calls of such a history alone, and what they answer. *)
Definition calls_of (es : list deed) : list op := flat_map (fun e => match e with Api o => [o] | Edit _ _ => [] end) es.
Fixpoint answers (md : mode) (h : heap) (es : list deed) : list (res ret) :=
  match es with
  | [] => []
  | Api o :: es => fst (run_op md o h) :: answers md (step md h o) es
  | e :: es => answers md (do_deed md h e) es
  end.
(** Nothing but the consumers differs. *)
Definition forget (c : circuit) : circuit := set_consumers ∅ c.
Definition same_but_consumers (h h' : heap) : Prop := map forget (h_circ h) = map forget (h_circ h') /\ h_stor h = h_stor h'.

(** [circuit.borrow_mut().gate_dependence_map.entry(g).or_default().push(a)] *)
Definition push_consumer (l : nat) (g a : N) : deed := Edit l (fun d => <[g := default [] (d !! g) ++ [a]]> d).
(** A caller who enters each gate declared as an output among its own consumers. *)
Definition keep_output (o : op) : list deed :=
  match o with OpOutput l g => [Api o; push_consumer l g g] | _ => [Api o] end.
Definition keep_outputs (ops : list op) : list deed := flat_map keep_output ops.
(** [circuit.borrow_mut().gate_dependence_map.clear()] *)
Definition clear_consumers (l : nat) : deed := Edit l (fun _ => ∅).

(** * Calls do not look at the consumers *)
Lemma forget_eq c c' : forget c = forget c' -> input_map c = input_map c' /\ output_map c = output_map c' /\ gate_map c = gate_map c' /\
  c_storage c = c_storage c' /\ const_gates c = const_gates c' /\ input_len c = input_len c' /\ output_len c = output_len c' /\
  num_wire c = num_wire c' /\ num_gate c = num_gate c' /\ num_const c = num_const c' /\ gate_index c = gate_index c'.
Proof. destruct c, c'. unfold forget, set_consumers. cbn. intros [= -> -> -> -> -> -> -> -> -> -> ->]. repeat (split; [reflexivity|]). reflexivity. Qed.

(** A relation between circuits that differ in the consumers only, kept by the updates that the calls are made of. *)
Record kept (R : circuit -> circuit -> Prop) : Prop := {
  k_forget : forall c c', R c c' -> forget c = forget c';
  k_new : forall s, R (circuit_new s) (circuit_new s);
  k_upd : forall c c' im gm cg il nw ng nc gi, R c c' ->
    R (Circuit im (output_map c) gm (c_storage c) (dep_map c) cg il (output_len c) nw ng nc gi)
      (Circuit im (output_map c) gm (c_storage c) (dep_map c') cg il (output_len c) nw ng nc gi);
  k_dep : forall c c' a g, R c c' -> R (add_dependence c a g) (add_dependence c' a g);
}.
Section kept.
Context (R : circuit -> circuit -> Prop) (HR : kept R).

Definition keeps {A} (f : circuit -> A * circuit) : Prop := forall c c', R c c' -> fst (f c) = fst (f c') /\ R (snd (f c)) (snd (f c')).
Ltac same H := let E := fresh "E" in pose proof (forget_eq _ _ (k_forget R HR _ _ H)) as E; destruct E as (? & ? & ? & ? & ? & ? & ? & ? & ? & ? & ?).
Lemma keeps_add_gate g : keeps (fun c => add_gate c g).
Proof.
  intros c c' H. same H. unfold add_gate. cbn. split; [done|].
  replace (Circuit (input_map c') _ _ _ _ _ _ _ _ _ _ _) with (Circuit (input_map c) (output_map c) (<[gate_index c := g]> (gate_map c)) (c_storage c)
    (dep_map c') (const_gates c) (input_len c) (output_len c) (num_wire c + 1)%Z (num_gate c) (num_const c) (gate_index c + 1)) by congruence.
  by apply (k_upd R HR).
Qed.
Lemma keeps_bump k : forall c c', R c c' -> R (bump_num_gate c k) (bump_num_gate c' k).
Proof.
  intros c c' H. same H. unfold bump_num_gate.
  replace (Circuit (input_map c') _ _ _ _ _ _ _ _ _ _ _) with (Circuit (input_map c) (output_map c) (gate_map c) (c_storage c)
    (dep_map c') (const_gates c) (input_len c) (output_len c) (num_wire c) (num_gate c + k) (num_const c) (gate_index c)) by congruence.
  by apply (k_upd R HR).
Qed.
Lemma keeps_input : keeps c_input.
Proof.
  intros c c' H. same H. unfold c_input. cbn. split; [done|].
  replace (Circuit _ (output_map c') _ _ _ _ _ _ _ _ _ _) with (Circuit (<[input_len c := Some (gate_index c)]> (input_map c)) (output_map c)
    (<[gate_index c := GInput (input_len c)]> (gate_map c)) (c_storage c)
    (dep_map c') (const_gates c) (input_len c + 1) (output_len c) (num_wire c + 1)%Z (num_gate c) (num_const c) (gate_index c + 1)) by congruence.
  by apply (k_upd R HR).
Qed.
Lemma keeps_constant b : keeps (fun c => c_constant c b).
Proof.
  intros c c' H. same H. unfold c_constant. cbn. split; [done|].
  replace (Circuit (input_map c') _ _ _ _ _ _ _ _ _ _ _) with (Circuit (input_map c) (output_map c)
    (<[gate_index c := GConst b]> (gate_map c)) (c_storage c)
    (dep_map c') (const_gates c ++ [gate_index c]) (input_len c) (output_len c) (num_wire c + 1)%Z (num_gate c) (num_const c + 1) (gate_index c + 1)) by congruence.
  by apply (k_upd R HR).
Qed.
Lemma keeps_not a : keeps (fun c => c_not c a).
Proof.
  intros c c' H. destruct (keeps_add_gate (GNot a) c c' H) as [E1 E2]. unfold c_not. destruct (add_gate c _) as [g c1], (add_gate c' _) as [g' c1'].
  cbn in *. subst g'. split; [done|]. apply keeps_bump. by apply (k_dep R HR).
Qed.
Lemma keeps_binary gt a b : keeps (fun c => c_binary c gt a b).
Proof.
  intros c c' H. destruct (keeps_add_gate gt c c' H) as [E1 E2]. unfold c_binary. destruct (add_gate c _) as [g c1], (add_gate c' _) as [g' c1'].
  cbn in *. subst g'. split; [done|]. apply keeps_bump. by apply (k_dep R HR), (k_dep R HR).
Qed.
Lemma keeps_equivalent a b : keeps (fun c => c_equivalent c a b).
Proof.
  intros c c' H. destruct (keeps_binary (GXor a b) a b c c' H) as [E1 E2]. unfold c_equivalent, c_xor.
  destruct (c_binary c _ _ _) as [g c1], (c_binary c' _ _ _) as [g' c1']. cbn in E1, E2. subst g'. by apply (keeps_not g).
Qed.
Lemma keeps_identity a : keeps (fun c => c_identity c a).
Proof.
  intros c c' H. destruct (keeps_not a c c' H) as [E1 E2]. unfold c_identity.
  destruct (c_not c _) as [g c1], (c_not c' _) as [g' c1']. cbn in E1, E2. subst g'. by apply (keeps_not g).
Qed.
Lemma keeps_module_gates il ol ids mid i k : keeps (fun c => add_module_gates c il ol ids mid i k).
Proof.
  revert i. induction k as [|k IH]; intros i c c' H; cbn [add_module_gates]; [done|].
  destruct (keeps_add_gate (GModule il ol ids i mid) c c' H) as [E1 E2]. destruct (add_gate c _) as [g c1], (add_gate c' _) as [g' c1'].
  cbn in E1, E2. subst g'. destruct (IH (i + 1) c1 c1' E2) as [E3 E4].
  destruct (add_module_gates c1 _ _ _ _ _ _), (add_module_gates c1' _ _ _ _ _ _). cbn in *. by subst.
Qed.
Lemma keeps_module_deps ids outs c c' : R c c' -> R (add_module_deps c ids outs) (add_module_deps c' ids outs).
Proof.
  unfold add_module_deps. revert c c'. induction ids as [|i ids IH]; intros c c' H; cbn [fold_left]; [done|]. apply IH. clear IH. revert c c' H.
  induction outs as [|o outs IH]; intros c c' H; cbn [fold_left]; [done|]. apply IH. by apply (k_dep R HR).
Qed.
Lemma keeps_module md c c' m m' mid ids : R c c' -> R m m' ->
  match c_module md c m mid ids, c_module md c' m' mid ids with
  | Some (outs, d), Some (outs', d') => outs = outs' /\ R d d'
  | None, None => True
  | _, _ => False
  end.
Proof.
  intros H Hm. unfold c_module. pose proof (forget_eq _ _ (k_forget R HR _ _ Hm)) as Em. destruct Em as (_ & _ & _ & _ & _ & E6 & E7 & E8 & E9 & E10 & _).
  rewrite <- E6, <- E7, <- E8, <- E9, <- E10. same H. set (d := (num_wire m - _ - _)%Z).
  set (c1 := Circuit (input_map c) _ _ _ _ _ _ _ _ _ _ _). set (c1' := Circuit (input_map c') _ _ _ _ _ _ _ _ _ _ _).
  assert (HR1 : R c1 c1').
  { unfold c1'. replace (Circuit (input_map c') _ _ _ _ _ _ _ _ _ _ _) with (Circuit (input_map c) (output_map c) (gate_map c) (c_storage c)
      (dep_map c') (const_gates c) (input_len c) (output_len c) (num_wire c + d)%Z (num_gate c + num_gate m) (num_const c + num_const m) (gate_index c)) by congruence.
    by apply (k_upd R HR). }
  destruct (keeps_module_gates (input_len m) (output_len m) ids mid 0 (N.to_nat (output_len m)) c1 c1' HR1) as [E1 E2].
  destruct (add_module_gates c1 _ _ _ _ _ _) as [outs c2], (add_module_gates c1' _ _ _ _ _ _) as [outs' c2']. cbn in E1, E2. subst outs'.
  destruct md, (d <? 0)%Z; try done; split; try done; by apply keeps_module_deps.
Qed.

(** ** The API on handles *)
Definition hrel (h h' : heap) : Prop := Forall2 R (h_circ h) (h_circ h') /\ h_stor h = h_stor h'.
Definition both {A} (m m' : M A) : Prop := forall h h', hrel h h' -> fst (m h) = fst (m' h') /\ hrel (snd (m h)) (snd (m' h')).
Lemma both_ret {A} (a : A) : both (st_ret a) (st_ret a).
Proof. intros h h' H. done. Qed.
Lemma both_err {A} e : both (st_err e : M A) (st_err e).
Proof. intros h h' H. done. Qed.
Lemma both_panic {A} e : both (st_panic e : M A) (st_panic e).
Proof. intros h h' H. done. Qed.
Lemma both_lift {A} (r : res A) : both (st_lift r) (st_lift r).
Proof. intros h h' H. done. Qed.
Lemma both_bind {A B} (m m' : M A) (k k' : A -> M B) : both m m' -> (forall a, both (k a) (k' a)) -> both (st_bind m k) (st_bind m' k').
Proof.
  intros Hm Hk h h' H. destruct (Hm h h' H) as [E1 E2]. unfold st_bind. destruct (m h) as [r s], (m' h') as [r' s']. cbn in E1, E2. subst r'.
  destruct r; cbn; try (split; [done|exact E2]). by apply Hk.
Qed.
Lemma both_circ {A} l (k k' : circuit -> M A) : (forall c c', R c c' -> both (k c) (k' c')) -> both (c <- get_circ l ;; k c) (c <- get_circ l ;; k' c).
Proof.
  intros Hk h h' H. unfold st_bind, get_circ. destruct H as [H Hs].
  destruct (h_circ h !! l) as [c|] eqn:E.
  - destruct (Forall2_lookup_l _ _ _ _ _ H E) as (c' & -> & Hc). by apply Hk.
  - rewrite (proj2 (lookup_ge_None (h_circ h') l)); [done|]. rewrite <- (Forall2_length _ _ _ H). by apply lookup_ge_None.
Qed.
Lemma both_stor s : both (get_stor s) (get_stor s).
Proof. intros h h' [H Hs]. unfold get_stor. rewrite <- Hs. by destruct (h_stor h !! s). Qed.
Lemma both_put_stor s x : both (put_stor s x) (put_stor s x).
Proof. intros h h' [H Hs]. unfold put_stor, hrel. cbn. by rewrite Hs. Qed.
Lemma both_put l c c' : R c c' -> both (put_circ l c) (put_circ l c').
Proof. intros Hc h h' [H Hs]. unfold put_circ, hrel. cbn. split; [done|]. split; [|done]. by apply Forall2_insert. Qed.
Lemma both_alloc c c' : R c c' -> both (alloc_circ c) (alloc_circ c').
Proof.
  intros Hc h h' [H Hs]. unfold alloc_circ, hrel. cbn. rewrite (Forall2_length _ _ _ H). split; [done|]. split; [|done].
  apply Forall2_app; [done|]. by constructor.
Qed.
Lemma both_on {A} l (f : circuit -> A * circuit) : keeps f -> both (on_circ l f) (on_circ l f).
Proof.
  intros Hf. apply both_circ. intros c c' H. destruct (Hf c c' H) as [E1 E2]. destruct (f c) as [a d], (f c') as [a' d']. cbn in E1, E2. subst a'.
  apply both_bind; [by apply both_put|]. intros _. apply both_ret.
Qed.
Lemma both_register s l : both (s_register s l) (s_register s l).
Proof.
  apply both_bind; [apply both_stor|]. intros x. apply both_bind; [apply both_put_stor|]. intros _. apply both_ret.
Qed.
Lemma both_get_module l mid : both (r_get_module l mid) (r_get_module l mid).
Proof.
  apply both_circ. intros c c' H. same H. match goal with E : c_storage c = _ |- _ => rewrite <- E end. apply both_bind; [apply both_stor|]. intros x.
  destruct (module_map x !! mid); [apply both_ret|apply both_err].
Qed.
Lemma both_as {A} (f : A -> ret) (m m' : M A) : both m m' -> both (as_ret f m) (as_ret f m').
Proof. intros H. apply both_bind; [done|]. intros. apply both_ret. Qed.
Lemma both_op md o : (forall l g, o = OpOutput l g -> both (r_output l g) (r_output l g)) -> both (run_op md o) (run_op md o).
Proof.
  intros Ho. destruct o; cbn [run_op]; apply both_as.
  - intros h h' [H Hs]. unfold alloc_stor, hrel. cbn. by rewrite Hs.
  - apply both_bind; [apply both_stor|]. intros _. apply both_alloc, (k_new R HR).
  - apply both_circ. intros c c' H. by apply both_alloc.
  - apply both_on, keeps_input.
  - by apply Ho.
  - apply both_on, keeps_constant.
  - apply both_on, keeps_not.
  - apply both_on, keeps_binary.
  - apply both_on, keeps_binary.
  - apply both_on, keeps_binary.
  - apply both_on, keeps_equivalent.
  - apply both_on, keeps_identity.
  - apply both_circ. intros c c' H. apply both_circ. intros m m' Hm. same H. match goal with E : c_storage c = _ |- _ => rewrite <- E end. apply both_register.
  - apply both_circ. intros c c' H. same H. match goal with E : c_storage c = _ |- _ => rewrite <- E end.
    apply both_bind; [apply both_stor|]. intros _. apply both_bind; [apply both_alloc, (k_new R HR)|]. intros l'.
    apply both_bind; [apply both_register|]. intros mid. apply both_ret.
  - apply both_bind; [apply both_get_module|]. intros l'. destruct (decide (l' = l)); [apply both_panic|].
    apply both_circ. intros m m' Hm. apply both_circ. intros c c' H. pose proof (keeps_module md c c' m m' mid ids H Hm) as K.
    destruct (c_module md c m mid ids) as [[outs d]|], (c_module md c' m' mid ids) as [[outs' d']|]; try done.
    destruct K as [-> K]. apply both_bind; [by apply both_put|]. intros _. apply both_ret.
  - apply both_circ. intros m m' Hm. apply both_register.
Qed.
End kept.

(** ** Any edits *)
Definition R1 (c c' : circuit) : Prop := forget c = forget c'.
Lemma kept_R1 : kept R1.
Proof.
  split; unfold R1; [done|done| |].
  - intros c c' im gm cg il nw ng nc gi H. unfold forget, set_consumers. cbn. done.
  - intros c c' a g H. exact H.
Qed.
Lemma output_R1 l g : both R1 (r_output l g) (r_output l g).
Proof.
  apply both_bind; [|intros; apply both_lift]. apply (both_on R1). intros c c' H. unfold c_output.
  pose proof (forget_eq c c' H) as (E1 & E2 & E3 & E4 & E5 & E6 & E7 & E8 & E9 & E10 & E11). rewrite <- E3. destruct (gate_map c !! g); [|done].
  cbn. split; [by rewrite E7|]. unfold R1, forget, set_consumers. cbn. congruence.
Qed.
Lemma op_R1 md o : both R1 (run_op md o) (run_op md o).
Proof. apply (both_op R1 kept_R1). intros l g _. apply output_R1. Qed.
Lemma hrel_R1 h h' : hrel R1 h h' <-> same_but_consumers h h'.
Proof.
  unfold hrel, same_but_consumers, R1. split; intros [H ?]; (split; [|done]).
  - induction H; cbn; [done|]. f_equal; done.
  - revert H. generalize (h_circ h) as cs, (h_circ h') as cs'. induction cs as [|c cs IH]; intros [|c' cs'] H; cbn in H; try discriminate H.
    + constructor.
    + pose proof (f_equal (fun l => hd c l) H) as Hc. pose proof (f_equal tl H) as Ht. cbn in Hc, Ht. constructor; [exact Hc|]. by apply IH.
Qed.
Lemma alter_cases {A} (f : A -> A) (l : nat) (xs : list A) (i : nat) (d : A) : alter f l xs !! i = Some d -> l = i /\ (exists d0, xs !! i = Some d0 /\ d = f d0) \/ l <> i /\ xs !! i = Some d.
Proof.
  intros H. destruct (decide (l = i)) as [<-|Hn].
  - left. split; [done|]. rewrite list_lookup_alter in H. destruct (xs !! l) as [d0|]; [|done]. injection H as <-. eauto.
  - right. rewrite list_lookup_alter_ne in H by done. done.
Qed.
Lemma edit_R1 md h h' l f : hrel R1 h h' -> hrel R1 (do_deed md h (Edit l f)) h'.
Proof.
  intros [H Hs]. split; [|exact Hs]. cbn. apply Forall2_same_length_lookup in H as [Hl H]. apply Forall2_same_length_lookup. split.
  - by rewrite alter_length.
  - intros i c c' Ec Ec'. apply alter_cases in Ec. destruct Ec as [(<- & c0 & E0 & ->)|[? E0]]; [|by eapply H].
    exact (H _ _ _ E0 Ec').
Qed.
Lemma deeds_R1 md es : forall h h', hrel R1 h h' -> hrel R1 (fold_left (do_deed md) es h) (fold_left (step md) (calls_of es) h') /\
  answers md h es = answers md h' (map Api (calls_of es)).
Proof.
  induction es as [|e es IH]; intros h h' H; [done|]. destruct e as [o|l f].
  - destruct (op_R1 md o h h' H) as [E1 E2]. cbn. unfold step at 2 4. destruct (IH _ _ E2) as [E3 E4]. split; [exact E3|]. f_equal; [exact E1|exact E4].
  - exact (IH _ _ (edit_R1 md h h' l f H)).
Qed.
(** ** Outputs that are their own consumers *)
Definition R2 (c c' : circuit) : Prop := forget c = forget c' /\ exists e : N -> nat,
  (forall g, length (deps c' g) = (length (deps c g) + e g)%nat) /\ forall k o, output_map c !! k = Some o -> (0 < e o)%nat.
Lemma dep_length c a g x : length (deps (add_dependence c a g) x) = (length (deps c x) + if decide (x = a) then 1 else 0)%nat.
Proof.
  unfold c_get_depended_gates, add_dependence. cbn. destruct (decide (x = a)) as [->|Hn].
  - rewrite lookup_insert. cbn. by rewrite app_length.
  - rewrite lookup_insert_ne by done. lia.
Qed.
Lemma kept_R2 : kept R2.
Proof.
  split.
  - intros c c' [H _]. exact H.
  - intros s. split; [done|]. exists (fun _ => O). split; [intros; unfold c_get_depended_gates; cbn; rewrite lookup_empty; done|].
    intros k o. cbn. by rewrite lookup_empty.
  - intros c c' im gm cg il nw ng nc gi (H & e & He & Ho). split; [done|]. exists e. split; [exact He|exact Ho].
  - intros c c' a g (H & e & He & Ho). split; [exact H|]. exists e. split; [|exact Ho]. intros x. rewrite !dep_length, He. lia.
Qed.
Lemma step_output md h l g : step md h (OpOutput l g) =
  match h_circ h !! l with None => h | Some c => Heap (<[l := snd (c_output c g)]> (h_circ h)) (h_stor h) end.
Proof.
  unfold step. cbn [run_op]. unfold as_ret, r_output, on_circ, get_circ, st_bind, put_circ, st_ret, st_lift, c_output.
  destruct (h_circ h !! l) as [c|]; [|done]. by destruct (gate_map c !! g).
Qed.
Lemma keep_R2 md o h h' : hrel R2 h h' -> hrel R2 (step md h o) (fold_left (do_deed md) (keep_output o) h').
Proof.
  intros H. assert (Hne : (forall l g, o <> OpOutput l g) -> hrel R2 (step md h o) (fold_left (do_deed md) (keep_output o) h')).
  { intros Hn. replace (keep_output o) with [Api o]; [|destruct o; try done; by destruct (Hn l g)]. cbn. apply (both_op R2 kept_R2 md o); [|done].
    intros l g ->. by destruct (Hn l g). }
  destruct o; try (apply Hne; done). clear Hne. cbn [keep_output fold_left do_deed push_consumer]. rewrite !step_output.
  destruct H as [H Hs]. apply Forall2_same_length_lookup in H as [Hl H].
  destruct (h_circ h !! l) as [c|] eqn:E.
  - destruct (lookup_lt_is_Some_2 (h_circ h') l) as [c' E']. { rewrite <- Hl. by eapply lookup_lt_Some. }
    rewrite E'. cbn. split; [|done]. cbn. apply Forall2_same_length_lookup. split; [by rewrite alter_length, !insert_length|].
    intros i d d' Ed Ed'. apply alter_cases in Ed'. destruct (decide (i = l)) as [->|Hn].
    + rewrite list_lookup_insert in Ed by (by eapply lookup_lt_Some). injection Ed as <-.
      destruct Ed' as [(_ & d0 & E0 & ->)|[? _]]; [|done]. rewrite list_lookup_insert in E0 by (by eapply lookup_lt_Some). injection E0 as <-.
      destruct (H _ _ _ E E') as (Hf & e & He & Ho). pose proof (forget_eq c c' Hf) as (E1 & E2 & E3 & E4 & E5 & E6 & E7 & E8 & E9 & E10 & E11).
      split.
      * unfold c_output. rewrite <- E3. destruct (gate_map c !! g); cbn; [|exact Hf]. unfold forget, set_consumers. cbn. congruence.
      * exists (fun x => e x + if decide (x = g) then 1 else 0)%nat.
        assert (Hd : forall c, dep_map (snd (c_output c g)) = dep_map c) by (intros c0; unfold c_output; by destruct (gate_map c0 !! g)).
        split.
        -- intros x. unfold c_get_depended_gates. cbn. rewrite !Hd. specialize (He x). unfold c_get_depended_gates in He. destruct (decide (x = g)) as [->|Hn].
           ++ rewrite lookup_insert. cbn. rewrite app_length, He. cbn. lia.
           ++ rewrite lookup_insert_ne by done. lia.
        -- intros k o. unfold c_output. destruct (gate_map c !! g); cbn.
           ++ destruct (decide (k = output_len c)) as [->|]; [rewrite lookup_insert|rewrite lookup_insert_ne by done].
              ** intros [= <-]. destruct (decide (g = g)); [lia|done].
              ** intros Hk%Ho. lia.
           ++ intros Hk%Ho. lia.
    + rewrite list_lookup_insert_ne in Ed by done. destruct Ed' as [(? & _)|[_ Ed']]; [done|]. rewrite list_lookup_insert_ne in Ed' by done.
      by eapply H.
  - rewrite (proj2 (lookup_ge_None (h_circ h') l)) by (rewrite <- Hl; by apply lookup_ge_None). split; [|done]. cbn.
    apply Forall2_same_length_lookup. split; [by rewrite alter_length|]. intros i d d' Ed Ed'. apply alter_cases in Ed'.
    destruct Ed' as [(<- & d0 & E0 & _)|[_ Ed']]; [congruence|by eapply H].
Qed.

Lemma keeps_R2 md ops : forall h h', hrel R2 h h' -> hrel R2 (fold_left (step md) ops h) (fold_left (do_deed md) (keep_outputs ops) h').
Proof.
  induction ops as [|o ops IH]; intros h h' H; [done|]. unfold keep_outputs. cbn [flat_map]. rewrite fold_left_app. cbn [fold_left].
  apply IH. by apply keep_R2.
Qed.
Lemma keep_calls ops : calls_of (keep_outputs ops) = ops.
Proof.
  unfold calls_of, keep_outputs. induction ops as [|o ops IH]; [done|]. cbn [flat_map]. rewrite flat_map_app, IH. by destruct o.
Qed.

(** * Evaluation *)
Lemma same_alike h h' : same_but_consumers h h' -> alike h h'.
Proof.
  intros H%hrel_R1. destruct H as [H Hs]. split; [done|]. intros l. apply Forall2_same_length_lookup in H as [Hl H].
  destruct (h_circ h !! l) as [c|] eqn:E, (h_circ h' !! l) as [c'|] eqn:E'; try done.
  - specialize (H _ _ _ E E'). pose proof (forget_eq c c' H) as (E1 & E2 & E3 & E4 & E5 & E6 & E7 & E8 & E9 & E10 & E11). by split.
  - apply lookup_lt_Some in E. apply lookup_ge_None in E'. lia.
  - apply lookup_lt_Some in E'. apply lookup_ge_None in E. lia.
Qed.
Lemma same_sym h h' : same_but_consumers h h' -> same_but_consumers h' h.
Proof. intros [? ?]. by split. Qed.
Lemma tended_all md h h' l : dinv h -> alike h h' -> is_Some (h_circ h !! l) ->
  (forall l c c', h_circ h !! l = Some c -> h_circ h' !! l = Some c' -> enough md c c' /\ spared md c c') -> tended md h h' l.
Proof.
  intros D A Hl H. destruct (di_rank h D) as [rank Hr]. remember (rank l) as n eqn:En. revert l En Hl.
  induction (lt_wf n) as [n _ IH]. intros l -> [c E]. destruct (alike_l _ _ _ _ A E) as (c' & E' & _). destruct (H l c c' E E') as [H1 H2].
  econstructor; [exact E|exact E'|exact H1|exact H2|]. intros l' Hc. apply (IH (rank l')); [by eapply Hr|done|].
  eapply calls_valid; [apply (di_inv h D)|exact E|exact Hc].
Qed.

(** * C92 *)
(** Whatever the caller does to the consumers and whenever, each call answers as if nothing had been done, and the circuits stay the same but for
    the consumers. *)
Theorem C92_calls md es : answers md heap_empty es = answers md heap_empty (map Api (calls_of es)) /\
  same_but_consumers (deeds md es) (run md (calls_of es)).
Proof.
  destruct (deeds_R1 md es heap_empty heap_empty) as [H1 H2]; [split; [constructor|done]|]. split; [exact H2|]. by apply hrel_R1.
Qed.
(** No content of the consumers makes the evaluator answer with wrong bits. *)
Theorem C92_sound md md' es fuel l inputs outs : eval_output md' (deeds md es) fuel l inputs = Ok outs ->
  outputs_of (run md (calls_of es)) l = Ok (N.of_nat (length outs)) /\
  forall k b, outs !! k = Some b -> outv (run md (calls_of es)) l (env_of inputs) (N.of_nat k) b.
Proof.
  intros Ev. destruct (C92_calls md es) as [_ H]. apply same_sym, same_alike in H.
  destruct (alike_sound md' _ _ _ _ _ _ (hinv_logical _ (run_hinv md (calls_of es))) H Ev) as (c & E & Hl & Ho).
  split; [|exact Ho]. unfold outputs_of, on. by rewrite E, Hl.
Qed.
Lemma finish_ok md md' es l : disciplined md heap_empty (calls_of es) -> (is_Some (h_circ (run md (calls_of es)) !! l) -> tended md' (run md (calls_of es)) (deeds md es) l) ->
  exists F, forall fuel inputs, (F <= fuel)%nat -> inputs_of (run md (calls_of es)) l = Ok (N.of_nat (length inputs)) ->
    exists outs, eval_output md' (deeds md es) fuel l inputs = Ok outs /\
      outputs_of (run md (calls_of es)) l = Ok (N.of_nat (length outs)) /\
      forall k b, outs !! k = Some b -> outv (run md (calls_of es)) l (env_of inputs) (N.of_nat k) b.
Proof.
  intros D Ht. destruct (h_circ (run md (calls_of es)) !! l) as [c|] eqn:Ec.
  2:{ exists O. intros fuel inputs _ Hi. unfold inputs_of, on in Hi. rewrite Ec in Hi. done. }
  destruct (C92_calls md es) as [_ H]. apply same_sym, same_alike in H.
  destruct (tended_complete md' _ _ l (dinv_run md _ D) H (Ht ltac:(eauto))) as [F HF]. exists F. intros fuel inputs Hf Hi.
  unfold inputs_of, on in Hi. rewrite Ec in Hi. injection Hi as Hi. destruct (HF fuel c inputs Ec Hf (eq_sym Hi)) as [outs Eo]. exists outs.
  split; [exact Eo|]. by eapply C92_sound.
Qed.
(** Lists that are long enough, and too long for the outputs: every evaluation succeeds, whatever the outputs are and however often they are used. *)
Theorem C92_long md md' es l : disciplined md heap_empty (calls_of es) ->
  (forall l g ds ds', consumers (run md (calls_of es)) l g = Ok ds -> consumers (deeds md es) l g = Ok ds' ->
     (length ds <= length ds')%nat /\ forall k, output_gate (run md (calls_of es)) l k = Ok g -> (length ds < length ds')%nat) ->
  exists F, forall fuel inputs, (F <= fuel)%nat -> inputs_of (run md (calls_of es)) l = Ok (N.of_nat (length inputs)) ->
    exists outs, eval_output md' (deeds md es) fuel l inputs = Ok outs /\
      outputs_of (run md (calls_of es)) l = Ok (N.of_nat (length outs)) /\
      forall k b, outs !! k = Some b -> outv (run md (calls_of es)) l (env_of inputs) (N.of_nat k) b.
Proof.
  intros D H. apply finish_ok; [done|]. intros Hl. destruct (C92_calls md es) as [_ A]. apply same_sym, same_alike in A.
  apply tended_all; [by apply dinv_run|done|done|]. intros l0 c c' E E'.
  assert (Hp2 : forall g, num_deps c' g <= pend md' c' g).
  { intros g. unfold pend. destruct md'; [lia|]. destruct (N.eqb_spec (num_deps c' g) 0); lia. }
  split.
  - intros g. destruct (H l0 g (deps c g) (deps c' g)) as [H1 _]; [unfold consumers, on; by rewrite E|unfold consumers, on; by rewrite E'|].
    specialize (Hp2 g). unfold num_deps in *. lia.
  - intros k o Eo. right. destruct (H l0 o (deps c o) (deps c' o)) as [_ H1]; [unfold consumers, on; by rewrite E|unfold consumers, on; by rewrite E'|].
    specialize (Hp2 o). specialize (H1 k). unfold output_gate, on, c_output_to_gate_id in H1. rewrite E, Eo in H1. specialize (H1 eq_refl). unfold num_deps in *. lia.
Qed.
(** In particular when the caller enters each gate declared as an output among its own consumers. *)
Theorem C92_kept md md' ops l : disciplined md heap_empty ops ->
  exists F, forall fuel inputs, (F <= fuel)%nat -> inputs_of (run md ops) l = Ok (N.of_nat (length inputs)) ->
    exists outs, eval_output md' (deeds md (keep_outputs ops)) fuel l inputs = Ok outs /\
      outputs_of (run md ops) l = Ok (N.of_nat (length outs)) /\
      forall k b, outs !! k = Some b -> outv (run md ops) l (env_of inputs) (N.of_nat k) b.
Proof.
  intros D. pose proof (C92_long md md' (keep_outputs ops) l) as H. rewrite keep_calls in H. apply H; [done|]. clear H.
  assert (HR : hrel R2 (run md ops) (deeds md (keep_outputs ops))). { apply keeps_R2. split; [constructor|done]. }
  destruct HR as [HR _]. apply Forall2_same_length_lookup in HR as [_ HR].
  intros l0 g ds ds' H1 H2. unfold consumers, on in H1, H2. destruct (h_circ (run md ops) !! l0) as [c|] eqn:E; [|done].
  destruct (h_circ (deeds md (keep_outputs ops)) !! l0) as [c'|] eqn:E'; [|done]. injection H1 as <-. injection H2 as <-.
  destruct (HR _ _ _ E E') as (_ & e & He & Ho). rewrite He. split; [lia|]. intros k Hk.
  unfold output_gate, on, c_output_to_gate_id in Hk. rewrite E in Hk. destruct (output_map c !! k) as [o|] eqn:Eo; [|done]. injection Hk as ->.
  specialize (Ho k g Eo). lia.
Qed.
(** In a release build it also helps to have no consumers at all: the first use takes the counter from 0 to [2^64 - 1]. *)
Theorem C92_release md es l : disciplined md heap_empty (calls_of es) ->
  (forall l g ds, consumers (deeds md es) l g = Ok ds -> ds = []) ->
  (forall l g ds, consumers (run md (calls_of es)) l g = Ok ds -> N.of_nat (length ds) < 2 ^ 64) ->
  exists F, forall fuel inputs, (F <= fuel)%nat -> inputs_of (run md (calls_of es)) l = Ok (N.of_nat (length inputs)) ->
    exists outs, eval_output Release (deeds md es) fuel l inputs = Ok outs /\
      outputs_of (run md (calls_of es)) l = Ok (N.of_nat (length outs)) /\
      forall k b, outs !! k = Some b -> outv (run md (calls_of es)) l (env_of inputs) (N.of_nat k) b.
Proof.
  intros D Hnone Hfew. apply finish_ok; [done|]. intros Hl. destruct (C92_calls md es) as [_ A]. apply same_sym, same_alike in A.
  apply tended_all; [by apply dinv_run|done|done|]. intros l0 c c' E E'.
  assert (Hlt : forall g, N.of_nat (length (deps c g)) < pend Release c' g).
  { intros g. unfold pend, num_deps. rewrite (Hnone l0 g (deps c' g)) by (unfold consumers, on; by rewrite E'). cbn [length N.of_nat N.eqb].
    apply (Hfew l0 g). unfold consumers, on. by rewrite E. }
  split.
  - intros g. specialize (Hlt g). lia.
  - intros k o _. right. apply Hlt.
Qed.

(** ** The writer *)
Section text.
Context (h h' : heap) (Hs : same_but_consumers h h').
Definition alikew {A} (m m' : WM A) : Prop := forall st, m st = m' st.
Lemma aw_refl {A} (m : WM A) : alikew m m.
Proof. by intros st. Qed.
Lemma aw_bind {A B} (m m' : WM A) (k k' : A -> WM B) : alikew m m' -> (forall a, alikew (k a) (k' a)) -> alikew (st_bind m k) (st_bind m' k').
Proof. intros Hm Hk st. unfold st_bind. rewrite Hm. destruct (m' st) as [[] ?]; try done. apply Hk. Qed.
Lemma aw_ret_bind {A B} (a a' : A) (k k' : A -> WM B) : alikew (k a) (k' a') -> alikew (st_bind (st_ret a) k) (st_bind (st_ret a') k').
Proof. intros H st. apply H. Qed.
Lemma aw_fold {A B} (f f' : B -> A -> WM B) xs : (forall b x, alikew (f b x) (f' b x)) -> forall b, alikew (st_foldM f b xs) (st_foldM f' b xs).
Proof. intros Hf. induction xs as [|x xs IH]; intros b; cbn [st_foldM]; [apply aw_refl|]. apply aw_bind; [apply Hf|]. intros. apply IH. Qed.
Lemma same_at l : match h_circ h !! l, h_circ h' !! l with Some c, Some c' => forget c = forget c' | None, None => True | _, _ => False end.
Proof using Hs.
  pose proof (proj2 (hrel_R1 h h') Hs) as [H _]. apply Forall2_same_length_lookup in H as [Hl H].
  destruct (h_circ h !! l) as [c|] eqn:E, (h_circ h' !! l) as [c'|] eqn:E'; try done.
  - exact (H _ _ _ E E').
  - apply lookup_lt_Some in E. apply lookup_ge_None in E'. lia.
  - apply lookup_lt_Some in E'. apply lookup_ge_None in E. lia.
Qed.
(** What follows a look at the current circuit may use it through [forget] only. *)
Lemma aw_circ {A} (k k' : circuit -> WM A) : (forall c c', forget c = forget c' -> alikew (k c) (k' c')) -> alikew (c <- w_circ h ;; k c) (c <- w_circ h' ;; k' c).
Proof using Hs.
  intros Hk st. unfold st_bind, w_circ. pose proof (same_at (w_c st)). destruct (h_circ h !! w_c st), (h_circ h' !! w_c st); try done. by apply Hk.
Qed.
Lemma aw_gate id : alikew (w_gate h id) (w_gate h' id).
Proof using Hs.
  apply aw_circ. intros c c' H. pose proof (forget_eq c c' H) as (E1 & E2 & E3 & _). unfold c_get_gate. rewrite E3. apply aw_refl.
Qed.
Section rec.
Context (f f' : N -> gate -> wmap -> WM wmap) (Hf : forall id g wog, alikew (f id g wog) (f' id g wog)).
Lemma aw_ensure wog id : alikew (ensure h f wog id) (ensure h' f' wog id).
Proof using Hs Hf. unfold ensure. destruct (wog !! id); [apply aw_refl|]. apply aw_bind; [apply aw_gate|]. intros. apply Hf. Qed.
Lemma aw_all wog ids : alikew (ensure_all h f wog ids) (ensure_all h' f' wog ids).
Proof using Hs Hf. apply aw_fold. intros. apply aw_ensure. Qed.
Lemma aw_const wog id : alikew (write_const h wog id) (write_const h' wog id).
Proof using Hs. apply aw_bind; [apply aw_gate|]. intros. apply aw_refl. Qed.
Lemma aw_pass1 acc i : alikew (write_pass1 h f acc i) (write_pass1 h' f' acc i).
Proof using Hs Hf.
  apply aw_circ. intros c c' H. pose proof (forget_eq c c' H) as (E1 & E2 & E3 & _). unfold c_output_to_gate_id, c_get_gate. rewrite E2.
  apply aw_bind; [apply aw_refl|]. intros id. rewrite E3. apply aw_bind; [apply aw_refl|]. intros g.
  destruct g; try apply aw_refl; (apply aw_bind; [apply aw_all|]; intros; apply aw_refl).
Qed.
Lemma aw_pass2 wog p : alikew (write_pass2 f wog p) (write_pass2 f' wog p).
Proof using Hf. unfold write_pass2. destruct (wog !! p.1); [apply aw_refl|apply Hf]. Qed.
Lemma aw_write_all wog : alikew (write_all h f wog) (write_all h' f' wog).
Proof using Hs Hf.
  apply aw_circ. intros c c' H. pose proof (forget_eq c c' H) as (E1 & E2 & E3 & E4 & E5 & E6 & E7 & _). unfold c_get_const_gates. rewrite E5, E7.
  apply aw_bind; [apply aw_fold; intros; apply aw_const|]. intros wog1. apply aw_bind; [apply aw_fold; intros; apply aw_pass1|]. intros [wog2 outs].
  apply aw_fold. intros. apply aw_pass2.
Qed.
Lemma aw_args fuel m m' wog : input_map m = input_map m' -> forall ids w new, alikew (bind_args fuel m wog ids w new) (bind_args fuel m' wog ids w new).
Proof.
  intros E. induction fuel as [|fuel IH]; intros ids w new; destruct ids as [|id r]; cbn [bind_args]; try apply aw_refl.
  unfold c_input_to_gate_id. rewrite E. apply aw_bind; [apply aw_refl|]. intros [g|]; [|apply IH]. apply aw_bind; [apply aw_refl|]. intros. apply IH.
Qed.
Lemma aw_body id g wog : alikew (single_body h f id g wog) (single_body h' f' id g wog).
Proof using Hs Hf.
  destruct g as [w|b|a|a b|a b|a b|il ol ids oi mid]; cbn [single_body]; try apply aw_refl; try (apply aw_bind; [apply aw_all|]; intros; apply aw_refl).
  apply aw_bind; [apply aw_all|]. intros wog1. apply aw_circ. intros c c' H. pose proof (forget_eq c c' H) as (_ & _ & _ & E4 & _). rewrite E4, (proj2 Hs).
  apply aw_bind; [apply aw_refl|]. intros l'. pose proof (same_at l') as Hl.
  destruct (h_circ h !! l') as [m|], (h_circ h' !! l') as [m'|]; try done.
  pose proof (forget_eq m m' Hl) as (M1 & M2 & _).
  apply aw_ret_bind. apply aw_bind. { rewrite M1. by apply aw_args. } intros new. apply aw_bind; [apply aw_refl|]. intros st0. apply aw_bind; [apply aw_refl|]. intros _.
  apply aw_bind; [apply aw_write_all|]. intros new'. apply aw_bind; [apply aw_refl|]. intros _. apply aw_fold. intros wog2 i.
  unfold copy_out, c_output_to_gate_id. rewrite M2. apply aw_refl.
Qed.
End rec.
Lemma aw_single fuel : forall id g wog, alikew (write_single h fuel id g wog) (write_single h' fuel id g wog).
Proof using Hs. induction fuel as [|fuel IH]; intros id g wog; cbn [write_single]; [apply aw_refl|]. by apply aw_body. Qed.
Lemma aw_inputs fuel f f' : (forall id g wog, alikew (f id g wog) (f' id g wog)) ->
  forall k w wog, alikew (write_inputs h fuel f k w wog) (write_inputs h' fuel f' k w wog).
Proof using Hs.
  intros Hf. induction fuel as [|fuel IH]; intros k w wog; destruct k as [|k]; cbn [write_inputs]; try apply aw_refl.
  apply aw_circ. intros c c' H. pose proof (forget_eq c c' H) as (E1 & E2 & E3 & _). unfold c_input_to_gate_id, c_get_gate. rewrite E1.
  apply aw_bind; [apply aw_refl|]. intros [id|]; [|apply IH]. rewrite E3. apply aw_bind; [apply aw_refl|]. intros g. apply aw_bind; [apply Hf|]. intros. apply IH.
Qed.
Lemma aw_write fuel n given : alikew (write h fuel n given) (write h' fuel n given).
Proof using Hs.
  apply aw_circ. intros c c' H. pose proof (forget_eq c c' H) as (E1 & E2 & E3 & E4 & E5 & E6 & E7 & E8 & E9 & E10 & E11).
  rewrite E1, E6, E7, E8, E9, E10. do 6 (apply aw_bind; [apply aw_refl|]; intros ?). apply aw_bind; [apply aw_inputs, aw_single|]. intros wog.
  do 3 (apply aw_bind; [apply aw_refl|]; intros ?). apply aw_bind; [apply aw_write_all, aw_single|]. intros. apply aw_refl.
Qed.
End text.
(** The writer does not look at the consumers: text, constants, map and outcome are the same. *)
Theorem C92_text md es fuel n given st : write (deeds md es) fuel n given st = write (run md (calls_of es)) fuel n given st.
Proof. apply aw_write. apply C92_calls. Qed.

(** ** Debug builds without consumers *)
Section none.
Context (h : heap) (l : nat) (c : circuit) (E : h_circ h !! l = Some c) (Hlog : logical h) (Hnone : forall g, deps c g = []).
Definition bare (g : N) : Prop := exists gt, gate_map c !! g = Some gt /\ operands gt = [].
Definition unused (s : estate) : Prop := (forall g n, ndep s !! g = Some n -> n = 0) /\ forall g, is_Some (evaled s !! g) -> bare g.
Lemma none_insert g b : bare g -> tri unused (e_insert c g b) (fun _ => True).
Proof using Hnone.
  intros Hg s r s' [H1 H2] [= <- <-]. split; [|done]. split; cbn.
  - intros x n. destruct (decide (x = g)) as [->|]; [rewrite lookup_insert|rewrite lookup_insert_ne by done; apply H1].
    intros [= <-]. unfold num_deps. by rewrite Hnone.
  - intros x. destruct (decide (x = g)) as [->|]; [done|rewrite lookup_insert_ne by done; apply H2].
Qed.
Lemma none_get g : tri unused (e_get g) (fun _ => True).
Proof. intros s r s' Hs. unfold e_get. destruct (evaled s !! g); intros [= <- <-]; done. Qed.
Lemma none_decr g : tri unused (e_decr Debug g) (fun _ => False).
Proof.
  intros s r s' [H1 H2]. unfold e_decr. destruct (ndep s !! g) as [n|] eqn:En.
  - rewrite (H1 g n En). cbn. intros [= <- <-]. done.
  - intros [= <- <-]. done.
Qed.
Lemma none_need eg g : tri unused (eg g) (fun _ => True) -> tri unused (e_need eg g) (fun _ => True).
Proof. intros H s r s' Hs. unfold e_need. destruct (evaled s !! g); [by intros [= <- <-]|]. by apply H. Qed.
Lemma none_binary eg f g a b (Q : unit -> Prop) : (forall g, tri unused (eg g) (fun _ => True)) -> tri unused (e_binary Debug c eg f g a b) Q.
Proof.
  intros Heg. unfold e_binary.
  eapply tri_bind; [apply none_need, Heg|intros _ _]. eapply tri_bind; [apply none_need, Heg|intros _ _].
  eapply tri_bind; [apply none_get|intros x _]. eapply tri_bind; [apply none_get|intros y _].
  eapply tri_bind; [apply none_decr|intros _ []].
Qed.
Lemma none_outputs first bits i k : (forall j, i <= j < i + N.of_nat k -> bare (first + j)) -> tri unused (e_insert_outputs c first bits i k) (fun _ => True).
Proof using Hnone.
  revert i. induction k as [|k IH]; intros i H; cbn [e_insert_outputs]; [by apply tri_ret|].
  eapply (tri_bind _ _ _ (fun _ => True)).
  { intros s r s' Hs. unfold st_nth. destruct (bits !! N.to_nat i); intros [= <- <-]; done. }
  intros b _. eapply tri_bind; [apply none_insert, H; lia|]. intros _ _. apply IH. intros. apply H. lia.
Qed.
Lemma none_gate fuel g : tri unused (eval_gate Debug h fuel l g) (fun _ => bare g).
Proof using E Hlog Hnone.
  revert g. induction fuel as [|fuel IH]; intros g; cbn [eval_gate].
  { intros s r s' Hs [= <- <-]. done. }
  assert (IH' : forall g, tri unused (eval_gate Debug h fuel l g) (fun _ => True)) by (intros; eapply tri_weaken; [apply IH|done]).
  rewrite E. destruct (gate_map c !! g) as [gt|] eqn:G; [|apply tri_err].
  destruct gt as [w|b|a|a b|a b|a b|il ol ids oi mid].
  - apply tri_ret. eexists. split; [exact G|done].
  - eapply tri_weaken; [apply none_insert|]; intros; eexists; (split; [exact G|done]).
  - eapply tri_bind; [apply none_need, IH'|intros _ _]. eapply tri_bind; [apply none_get|intros x _]. eapply tri_bind; [apply none_decr|intros _ []].
  - by apply none_binary.
  - by apply none_binary.
  - by apply none_binary.
  - eapply (tri_bind _ _ _ (fun _ => True)).
    { eapply tri_weaken; [apply (tri_mapM _ _ ids (fun _ _ => True))|done]. intros id _.
      eapply tri_bind; [apply none_need, IH'|intros _ _]. apply none_get. }
    intros bits _. destruct (h_stor h !! c_storage c) as [x|]; [|apply tri_panic]. destruct (module_map x !! mid) as [l'|]; [|apply tri_err].
    eapply tri_bind; [apply (tri_lift _ _ (fun _ => True)); done|]. intros outs _. destruct ids as [|a ids].
    + eapply tri_bind; [apply (tri_ret _ tt (fun _ => True)); done|]. intros _ _. destruct (lg_blk h Hlog l c _ _ _ _ _ _ E G) as (B1 & B3).
      eapply (tri_bind _ _ _ (fun f => f = g - oi)).
      { apply tri_lift. intros f. unfold usize_sub. destruct (N.leb_spec oi g); [congruence|lia]. }
      intros f ->. eapply tri_weaken; [apply none_outputs|]; [|intros; eexists; split; [exact G|done]].
      intros j Hj. eexists. split; [apply B3; lia|done].
    + cbn [st_iterM]. eapply (tri_bind _ _ _ (fun _ => False)); [|intros _ []]. eapply tri_bind; [apply none_decr|intros _ []].
Qed.
Lemma none_load k w inputs : tri unused (e_load c k w inputs) (fun _ => True).
Proof using E Hlog Hnone.
  revert w inputs. induction k as [|k IH]; intros w inputs; destruct inputs as [|b inputs]; cbn [e_load]; try (by apply tri_ret).
  - intros s r s' Hs [= <- <-]. done.
  - destruct (input_map c !! w) as [x|] eqn:Ei; [|apply tri_err]. destruct (lg_in h Hlog l c w x E Ei) as (g & -> & G).
    eapply tri_bind; [apply none_insert; eexists; split; [exact G|done]|]. intros _ _. apply IH.
Qed.
Lemma none_eval fuel inputs outs k o : k < output_len c -> output_map c !! k = Some o -> eval_output Debug h fuel l inputs = Ok outs -> bare o.
Proof using E Hlog Hnone.
  intros Hk Ho. unfold eval_output, eval_output_with. rewrite E. destruct (negb _); [done|]. intros Hr.
  assert (T : tri unused (e_load c (length inputs + size (input_map c) + 1) 0 inputs ;;
          st_mapM (e_single_output c (eval_gate Debug h fuel l) inputs) (nrange (output_len c)))
          (fun outs => Forall2 (fun w _ => forall o, output_map c !! w = Some o -> bare o) (nrange (output_len c)) outs)).
  { eapply tri_bind; [apply none_load|]. intros _ _. apply tri_mapM. intros w _.
    unfold e_single_output. destruct (negb _); [apply tri_err|]. destruct (_ <=? _); [apply tri_err|].
    destruct (output_map c !! w) as [o'|] eqn:Eo; [|apply tri_err]. intros s r s' Hs. destruct (evaled s !! o') as [b|] eqn:Eb.
    - intros [= <- <-]. split; [done|]. intros _ _ o2 [= <-]. apply Hs. by rewrite Eb.
    - revert s r s' Hs Eb. intros s r s' Hs _. revert s r s' Hs. change (tri unused (eval_gate Debug h fuel l o' ;; e_get o') (fun _ => forall o2, Some o' = Some o2 -> bare o2)).
      eapply tri_bind; [apply none_gate|]. intros u Hb. eapply tri_weaken; [apply none_get|]. intros _ _ o2 [= <-]. exact Hb. }
  revert Hr T. set (m := st_bind _ _). intros Hr T. destruct (m (EState ∅ ∅)) as [r s'] eqn:Ee. simpl in Hr.
  assert (G0 : unused (EState ∅ ∅)). { split; cbn; [intros g n; by rewrite lookup_empty|intros g; rewrite lookup_empty; by intros [? ?]]. }
  destruct (T _ _ _ G0 Ee) as [_ HF]. specialize (HF _ Hr).
  destruct (Forall2_lookup_l _ _ _ (N.to_nat k) k HF) as (b & _ & Hb); [|by apply Hb].
  rewrite nrange_lookup. destruct decide as [|Hn]; [f_equal; lia|lia].
Qed.
End none.
(** In a debug build a circuit without consumers never evaluates when one of its outputs is a gate with an operand. *)
Theorem C92_debug md es l k o gt a fuel inputs outs : (forall g, consumers (deeds md es) l g = Ok []) ->
  output_gate (run md (calls_of es)) l k = Ok o -> get_gate (run md (calls_of es)) l o = Ok gt -> a ∈ operands gt ->
  eval_output Debug (deeds md es) fuel l inputs <> Ok outs.
Proof.
  intros Hnone Ho Hg Ha Ev. destruct (C92_calls md es) as [_ H]. apply same_sym, same_alike in H.
  unfold output_gate, get_gate, on, c_output_to_gate_id, c_get_gate in Ho, Hg.
  destruct (h_circ (run md (calls_of es)) !! l) as [c|] eqn:E; [|done]. destruct (alike_l _ _ _ _ H E) as (c' & E' & K).
  destruct (output_map c !! k) as [o'|] eqn:Eo; [|done]. injection Ho as ->. destruct (gate_map c !! o) as [gt'|] eqn:G; [|done]. injection Hg as ->.
  destruct (none_eval (deeds md es) l c' E') with (fuel := fuel) (inputs := inputs) (outs := outs) (k := k) (o := o) as (gt2 & G2 & Hops).
  - eapply alike_logical; [exact H|]. apply hinv_logical, run_hinv.
  - intros g. specialize (Hnone g). unfold consumers, on in Hnone. rewrite E' in Hnone. by injection Hnone.
  - rewrite (lk_ol _ _ K). destruct (decide (k < output_len c)); [done|]. pose proof (hi_circ _ (run_hinv md (calls_of es)) l c E) as W.
    rewrite (wf_outputs_none c W) in Eo; [done|lia].
  - by rewrite (lk_out _ _ K).
  - exact Ev.
  - rewrite (lk_gates _ _ K), G in G2. injection G2 as <-. rewrite Hops in Ha. by apply elem_of_nil in Ha.
Qed.

(** * Examples *)
(** The three circuits that no call can evaluate (C14, C59) do evaluate when each output is its own consumer. *)
Example C92_repaired : forall md md', disciplined md heap_empty consumed_early /\ disciplined md heap_empty repeated_operand /\ disciplined md heap_empty evicted_argument /\
  eval_output md' (run md consumed_early) 9 0 [true] = Err (EUnknownEvaledBit 0) /\
  eval_output md' (deeds md (keep_outputs consumed_early)) 9 0 [true] = Ok [true; false] /\
  eval_output md' (run md repeated_operand) 9 0 [true] = Panic PKey /\
  eval_output md' (deeds md (keep_outputs repeated_operand)) 9 0 [true] = Ok [true; false; false] /\
  eval_output md' (run md evicted_argument) 9 0 [true] = Panic PKey /\
  eval_output md' (deeds md (keep_outputs evicted_argument)) 9 0 [true] = Ok [true; false; false].
Proof.
  intros md md'. split; [apply disciplined_b_sound; destruct md; vm_compute; reflexivity|]. split; [apply disciplined_b_sound; destruct md; vm_compute; reflexivity|].
  split; [apply disciplined_b_sound; destruct md; vm_compute; reflexivity|].
  destruct md, md'; (split; [vm_compute; reflexivity|]); (split; [vm_compute; reflexivity|]); (split; [vm_compute; reflexivity|]); (split; [vm_compute; reflexivity|]);
    (split; [vm_compute; reflexivity|]); vm_compute; reflexivity.
Qed.
(** Without consumers: fine in a release build, a panic in a debug build. *)
Definition cleared : list deed := map Api consumed_early ++ [clear_consumers 0].
Example C92_cleared : forall md, calls_of cleared = consumed_early /\
  eval_output Release (deeds md cleared) 9 0 [true] = Ok [true; false] /\ eval_output Debug (deeds md cleared) 9 0 [true] = Panic PArith /\
  output_gate (run md consumed_early) 0 0 = Ok 2 /\ get_gate (run md consumed_early) 0 2 = Ok (GNot 1).
Proof.
  intros md. split; [reflexivity|]. destruct md; (split; [vm_compute; reflexivity|]); (split; [vm_compute; reflexivity|]); (split; [vm_compute; reflexivity|]);
    vm_compute; reflexivity.
Qed.
(** The hypotheses of [C92_release] and [C92_debug] hold of it. *)
Lemma cleared_deps md : map dep_map (h_circ (deeds md cleared)) = [∅].
Proof. destruct md; vm_compute; reflexivity. Qed.
Lemma early_deps md : map dep_map (h_circ (run md consumed_early)) = [<[1 := [2]]> (<[0 := [1]]> ∅)].
Proof. destruct md; vm_compute; reflexivity. Qed.
Lemma consumers_of h l g : consumers h l g = match map dep_map (h_circ h) !! l with Some d => Ok (default [] (d !! g)) | None => Panic PDangling end.
Proof.
  unfold consumers, on. change (map dep_map (h_circ h)) with (dep_map <$> h_circ h). rewrite list_lookup_fmap. by destruct (h_circ h !! l).
Qed.
Example C92_meets : forall md, disciplined md heap_empty (calls_of cleared) /\
  (forall l g ds, consumers (deeds md cleared) l g = Ok ds -> ds = []) /\ (forall g, consumers (deeds md cleared) 0 g = Ok []) /\
  (forall l g ds, consumers (run md (calls_of cleared)) l g = Ok ds -> N.of_nat (length ds) < 2 ^ 64).
Proof.
  intros md. change (calls_of cleared) with consumed_early. split; [apply disciplined_b_sound; destruct md; vm_compute; reflexivity|]. split; [|split].
  - intros l g ds. rewrite consumers_of, cleared_deps. destruct l as [|l]; [|done]. cbn [lookup list_lookup]. rewrite lookup_empty. by intros [= <-].
  - intros g. rewrite consumers_of, cleared_deps. cbn [lookup list_lookup]. by rewrite lookup_empty.
  - intros l g ds. rewrite consumers_of, early_deps. destruct l as [|l]; [|done]. cbn [lookup list_lookup].
    destruct (decide (g = 1)) as [->|H1]; [rewrite lookup_insert; by intros [= <-]|rewrite lookup_insert_ne by done].
    destruct (decide (g = 0)) as [->|H0]; [rewrite lookup_insert; by intros [= <-]|rewrite lookup_insert_ne by done].
    rewrite lookup_empty. by intros [= <-].
Qed.
