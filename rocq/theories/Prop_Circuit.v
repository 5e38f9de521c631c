(** Properties C01-C11: building circuits. *)
From Coq Require Import Sorted.
From stdpp Require Import sorting.
From Verif Require Import SemFacts DepsFacts Counts DiscDec EvalSound.

Ltac dex := repeat match goal with H : exists _, _ |- _ => destruct H | H : _ /\ _ |- _ => destruct H end.

(** * Observations through the read-only API, on a handle *)
Definition on {A} (h : heap) (l : nat) (f : circuit -> res A) : res A :=
  match h_circ h !! l with Some c => f c | None => Panic PDangling end.
Definition get_gate h l g := on h l (fun c => c_get_gate c g).
Definition input_gate h l w := on h l (fun c => c_input_to_gate_id c w).
Definition output_gate h l w := on h l (fun c => c_output_to_gate_id c w).
Definition consumers h l g := on h l (fun c => Ok (c_get_depended_gates c g)).
Definition const_ids h l := on h l (fun c => Ok (c_get_const_gates c)).
Definition inputs_of h l := on h l (fun c => Ok (input_len c)).
Definition outputs_of h l := on h l (fun c => Ok (output_len c)).
Definition get_module h l mid : res nat := fst (r_get_module l mid h).

(** A history with two circuits, a module call and a constant, used to show that hypotheses can be met. *)
Definition demo : list op :=
  [OpNewStorage; OpNewCircuit 0; OpInput 0; OpInput 0; OpSub 0; OpInput 1; OpInput 1; OpXor 1 0 1; OpNot 1 2; OpConst 1 true;
   OpAnd 1 3 4; OpOutput 1 5; OpModule 0 0 [0; 1]; OpOr 0 0 2; OpOutput 0 3].

(** * C01 *)
(** Between [h] and [h'] the circuit at [l] gained exactly the gates [gs], numbered from its previous number of gates. *)
Definition appended (h h' : heap) (l : nat) (gs : list gate) (first : N) : Prop :=
  exists c c', h_circ h !! l = Some c /\ h_circ h' !! l = Some c' /\ first = N.of_nat (size (gate_map c)) /\
    forall g, gate_map c' !! g = if g <? first then gate_map c !! g else gs !! N.to_nat (g - first).

Definition fresh_ids (h h' : heap) (o : op) (r : ret) : Prop :=
  match o, r with
  | OpInput l, RGate g => exists w, inputs_of h l = Ok w /\ appended h h' l [GInput w] g
  | OpConst l b, RGate g => appended h h' l [GConst b] g
  | OpNot l a, RGate g => appended h h' l [GNot a] g
  | OpXor l a b, RGate g => appended h h' l [GXor a b] g
  | OpAnd l a b, RGate g => appended h h' l [GAnd a b] g
  | OpOr l a b, RGate g => appended h h' l [GOr a b] g
  | OpEquivalent l a b, RGate g => appended h h' l [GXor a b; GNot (g - 1)] (g - 1)
  | OpIdentity l a, RGate g => appended h h' l [GNot a; GNot (g - 1)] (g - 1)
  | OpModule l mid ids, RGates gs => exists l' m first, get_module h l mid = Ok l' /\ h_circ h !! l' = Some m /\
      gs = map (fun j => first + j) (nrange (output_len m)) /\
      appended h h' l (map (fun j => GModule (input_len m) (output_len m) ids j mid) (nrange (output_len m))) first
  | OpOutput l _, RWire _ => h_circ h !! l <> None /\ forall g, get_gate h' l g = get_gate h l g
  | OpNewStorage, RStorage _ | OpNewCircuit _, RCircuit _ | OpClone _, RCircuit _ | OpRegister _ _, RModule _ | OpSub _, RSub _ _ | OpPut _ _, RModule _ =>
      forall l g gt, get_gate h l g = Ok gt -> get_gate h' l g = Ok gt
  | _, _ => False
  end.

Lemma get_gate_ok h l g gt : get_gate h l g = Ok gt <-> exists c, h_circ h !! l = Some c /\ gate_map c !! g = Some gt.
Proof.
  unfold get_gate, on, c_get_gate. split.
  - destruct (h_circ h !! l) as [c|]; [|done]. destruct (gate_map c !! g) eqn:G; [|done]. intros [= <-]. eauto.
  - intros (c & -> & ->). done.
Qed.
Lemma push_appended h l c gt c' : hinv h -> h_circ h !! l = Some c -> push c gt c' -> appended h (upd h l c') l [gt] (gate_index c).
Proof.
  intros H E P. pose proof (hi_circ h H l c E) as W. exists c, c'. split; [done|]. split; [by eapply upd_lookup|].
  split; [by apply size_gates|]. intros g. rewrite (push_lookup _ _ _ _ P). destruct (N.ltb_spec g (gate_index c)).
  - destruct decide; [lia|done].
  - destruct decide as [-> |].
    + by rewrite N.sub_diag.
    + destruct (N.to_nat (g - gate_index c)) as [|k] eqn:Ek; [lia|]. simpl. apply (gm_none_ge c g W). lia.
Qed.
Lemma push2_appended h l c gt1 c1 gt2 c2 : hinv h -> h_circ h !! l = Some c -> push c gt1 c1 -> push c1 gt2 c2 ->
  appended h (upd h l c2) l [gt1; gt2] (gate_index c).
Proof.
  intros H E P1 P2. pose proof (hi_circ h H l c E) as W. exists c, c2. split; [done|]. split; [by eapply upd_lookup|].
  split; [by apply size_gates|]. intros g. rewrite (push_lookup _ _ _ _ P2), (push_lookup _ _ _ _ P1), (p_gi _ _ _ P1).
  destruct (N.ltb_spec g (gate_index c)).
  - destruct decide; [lia|]. destruct decide; [lia|done].
  - destruct decide as [-> |].
    + by replace (gate_index c + 1 - gate_index c) with 1 by lia.
    + destruct decide as [-> |].
      * by rewrite N.sub_diag.
      * destruct (N.to_nat (g - gate_index c)) as [|[|k] ] eqn:Ek; [lia|lia|]. simpl. apply (gm_none_ge c g W). lia.
Qed.
Lemma get_module_ok h l mid l' : get_module h l mid = Ok l' <->
  exists c x, h_circ h !! l = Some c /\ h_stor h !! c_storage c = Some x /\ module_map x !! mid = Some l'.
Proof.
  unfold get_module, r_get_module, st_bind, get_circ, get_stor. split.
  - destruct (h_circ h !! l) as [c|]; [|done]. destruct (h_stor h !! c_storage c) as [x|] eqn:S; [|done].
    destruct (module_map x !! mid) as [l2|] eqn:Hm; [|done]. simpl. intros [= ->]. eauto.
  - intros (c & x & -> & -> & ->). done.
Qed.

Theorem C01_fresh md ops o r h' : run_op md o (run md ops) = (Ok r, h') -> fresh_ids (run md ops) h' o r.
Proof.
  intros Er. pose proof (run_hinv md ops) as H. set (h := run md ops) in *. clearbody h.
  pose proof (run_op_hinv _ _ _ _ _ H Er) as [H' L]. apply run_op_ok in Er.
  assert (Hkeep : forall l g gt, get_gate h l g = Ok gt -> get_gate h' l g = Ok gt).
  { intros l g gt (c & E & G)%get_gate_ok. apply get_gate_ok. destruct (hle_circ _ _ L _ _ E) as (c' & E' & Lc).
    exists c'. split; [done|]. eapply lookup_weaken; [done|apply Lc]. }
  destruct o; simpl in Er; dex; subst; simpl; auto.
  - exists (input_len x). split; [unfold inputs_of, on; by rewrite H0|]. by apply push_appended.
  - split; [by rewrite H0|]. intros g'. unfold get_gate, on. rewrite H0. erewrite upd_lookup by done. by destruct H3 as [_ ->].
  - by apply push_appended.
  - by apply push_appended.
  - by apply push_appended.
  - by apply push_appended.
  - by apply push_appended.
  - match goal with P : push x _ x0 |- _ => rewrite (p_gi _ _ _ P), N.add_sub end. by eapply push2_appended.
  - match goal with P : push x _ x0 |- _ => rewrite (p_gi _ _ _ P), N.add_sub end. by eapply push2_appended.
  - exists x1, x2, (gate_index x). split; [apply get_module_ok; eauto|]. split; [done|].
    pose proof (hi_circ h H l x H0) as W. match goal with Q : push_mod _ _ _ _ _ _ |- _ => rename Q into P end.
    split; [apply P|]. exists x, x4. split; [done|]. split; [by eapply upd_lookup|]. split; [by apply size_gates|].
    intros g. rewrite (pm_gm _ _ _ _ _ _ P). destruct (N.ltb_spec g (gate_index x)).
    + destruct decide; [lia|done].
    + rewrite list_lookup_fmap, nrange_lookup. rewrite N2Nat.id. destruct decide, decide; try lia; simpl; [done|].
      apply (gm_none_ge x g W). lia.
Qed.

Theorem C01_stable md ops ops' l g gt : get_gate (run md ops) l g = Ok gt -> get_gate (run md (ops ++ ops')) l g = Ok gt.
Proof.
  intros (c & E & G)%get_gate_ok. apply get_gate_ok. destruct (hle_circ _ _ (run_app_hle md ops ops') _ _ E) as (c' & E' & Lc).
  exists c'. split; [done|]. eapply lookup_weaken; [done|apply Lc].
Qed.

(** The ids a history hands out for the circuit at [l], in order. *)
Definition ids_of_call (l : nat) (o : op) (r : res ret) : list N :=
  match o, r with
  | (OpInput l' | OpConst l' _ | OpNot l' _ | OpXor l' _ _ | OpAnd l' _ _ | OpOr l' _ _ | OpEquivalent l' _ _ | OpIdentity l' _), Ok (RGate g) =>
      if decide (l' = l) then [g] else []
  | OpModule l' _ _, Ok (RGates gs) => if decide (l' = l) then gs else []
  | _, _ => []
  end.
Fixpoint returned_from (md : mode) (h : heap) (l : nat) (ops : list op) : list N :=
  match ops with
  | [] => []
  | o :: ops => ids_of_call l o (fst (run_op md o h)) ++ returned_from md (step md h o) l ops
  end.
Definition returned md l ops := returned_from md heap_empty l ops.

Lemma StronglySorted_app (xs ys : list N) : (forall a b, a ∈ xs -> b ∈ ys -> a < b) ->
  StronglySorted N.lt xs -> StronglySorted N.lt ys -> StronglySorted N.lt (xs ++ ys).
Proof.
  intros H. induction 1 as [|x xs Hs IH Hf]; intros Hy; simpl; [done|]. constructor.
  - apply IH; [|done]. intros. apply H; [by right|done].
  - apply Forall_app. split; [done|]. apply Forall_forall. intros y Hin. apply H; [left|done].
Qed.
Definition num_gates (h : heap) (l : nat) : N := match h_circ h !! l with Some c => gate_index c | None => 0 end.
Lemma ids_of_call_range md h l o : hinv h ->
  StronglySorted N.lt (ids_of_call l o (fst (run_op md o h))) /\ num_gates h l <= num_gates (step md h o) l /\ (forall g, g ∈ ids_of_call l o (fst (run_op md o h)) -> num_gates h l <= g < num_gates (step md h o) l).
Proof.
  intros H. assert (Hmono : num_gates h l <= num_gates (step md h o) l).
  { unfold num_gates. destruct (h_circ h !! l) as [c|] eqn:E; [|lia].
    destruct (run_op md o h) as [r h'] eqn:Er. pose proof (run_op_hinv _ _ _ _ _ H Er) as [_ L].
    unfold step. rewrite Er. simpl. destruct (hle_circ _ _ L _ _ E) as (c' & -> & Lc). apply Lc. }
  destruct (run_op md o h) as [r h'] eqn:Er. unfold step in *. rewrite Er in *. simpl in *.
  assert (Hnil : True -> StronglySorted N.lt [] /\ num_gates h l <= num_gates h' l /\ (forall g, g ∈ [] -> num_gates h l <= g < num_gates h' l)).
  { intros _. split; [constructor|]. split; [done|]. intros g []%elem_of_nil. }
  destruct r as [r| | |]; try (destruct o; exact (Hnil I)). apply run_op_ok in Er.
  destruct o; simpl in Er; dex; subst; simpl; try exact (Hnil I); destruct (decide (l0 = l)) as [-> |]; try exact (Hnil I);
  try (split; [repeat constructor|split; [done|]]; intros g ->%elem_of_list_singleton; unfold num_gates;
    erewrite upd_lookup by done; match goal with E : h_circ h !! l = _ |- _ => rewrite E end;
    repeat match goal with P : push _ _ _ |- _ => rewrite (p_gi _ _ _ P); clear P end; lia).
  match goal with Q : push_mod _ _ _ _ _ _ |- _ => rename Q into P end. rewrite (pm_outs _ _ _ _ _ _ P).
  split; [|split; [done|] ].
  - generalize (output_len x2). intros n. induction n as [|n IH] using N.peano_ind; [constructor|].
    rewrite <- N.add_1_r, nrange_succ, map_app. simpl. apply StronglySorted_app; [|done|repeat constructor].
    intros a b (j & -> & Hj%elem_of_nrange)%elem_of_list_fmap ->%elem_of_list_singleton. lia.
  - intros g (j & -> & Hj%elem_of_nrange)%elem_of_list_fmap. unfold num_gates. erewrite upd_lookup by done.
    match goal with E : h_circ h !! l = _ |- _ => rewrite E end. rewrite (pm_gi _ _ _ _ _ _ P). lia.
Qed.
Lemma returned_from_sorted md h l ops : hinv h -> StronglySorted N.lt (returned_from md h l ops) /\ forall g, g ∈ returned_from md h l ops -> num_gates h l <= g.
Proof.
  revert h. induction ops as [|o ops IH]; intros h H; simpl.
  - split; [constructor|]. intros g []%elem_of_nil.
  - destruct (ids_of_call_range md h l o H) as (S1 & M1 & R1).
    destruct (IH (step md h o)) as [S2 R2].
    { eapply (run_op_hinv md h o); [done|]. unfold step. apply surjective_pairing. }
    split.
    + apply StronglySorted_app; [|done|done]. intros a b Ha%R1 Hb%R2. lia.
    + intros g [Hg%R1|Hg%R2]%elem_of_app; lia.
Qed.
(** No id is ever handed out twice for the same circuit: they are strictly increasing. *)
Theorem C01_never_reused md l ops : StronglySorted N.lt (returned md l ops).
Proof. apply returned_from_sorted, hinv_empty. Qed.

Example C01_example : returned Debug 0 demo = [0; 1; 2; 3] /\ returned Debug 1 demo = [0; 1; 2; 3; 4; 5] /\ get_gate (run Debug demo) 0 2 = Ok (GModule 2 1 [0; 1] 0 0).
Proof. vm_compute. done. Qed.

(** * C02 *)
Theorem C02_failure_changes_nothing md o h r h' : run_op md o h = (r, h') -> (forall a, r <> Ok a) -> h' = h.
Proof. intros E N. eapply run_op_fail; [done|]. destruct r; try done. by destruct (N a). Qed.

Theorem C02_unknown_output md h l c g : h_circ h !! l = Some c -> get_gate h l g = Err (EUnknownGate g) ->
  run_op md (OpOutput l g) h = (Err (EUnknownGate g), h).
Proof.
  intros E G. unfold get_gate, on, c_get_gate in G. rewrite E in G. destruct (gate_map c !! g) eqn:Eg; [done|].
  simpl. unfold as_ret, st_bind. destruct (r_output_cases h l c E g) as [ [_ ->]|(c' & _ & [ [? ?] _])]; [done|congruence].
Qed.
Theorem C02_unknown_module md h l mid ids : get_module h l mid = Err (EUnknownModule mid) ->
  run_op md (OpModule l mid ids) h = (Err (EUnknownModule mid), h).
Proof.
  unfold get_module. simpl. unfold as_ret, r_module, r_get_module, st_bind, get_circ, get_stor.
  destruct (h_circ h !! l) as [c|]; [|done]. destruct (h_stor h !! c_storage c) as [x|]; [|done].
  destruct (module_map x !! mid); done.
Qed.
(** The only ways a call on valid handles can fail after any history. *)
Ltac inj1 E := apply (f_equal fst) in E; simpl in E; subst.
Theorem C02_only_failures md ops o r h' : run_op md o (run md ops) = (r, h') -> (forall a, r <> Ok a) ->
  match o with
  | OpOutput l g => r = Panic PDangling \/ (r = Err (EUnknownGate g) /\ forall gt, get_gate h' l g <> Ok gt)
  | OpModule l mid _ => r = Panic PDangling \/ (r = Err (EUnknownModule mid) /\ forall l', get_module h' l mid <> Ok l')
       \/ (r = Panic PBorrow /\ get_module h' l mid = Ok l) \/ (r = Panic PArith /\ md = Debug)
  | OpNewStorage => False
  | _ => r = Panic PDangling
  end /\ (r = Panic PDangling -> match o with
     | OpNewStorage => False
     | OpNewCircuit s => h_stor h' !! s = None
     | OpRegister l l' => h_circ h' !! l = None \/ h_circ h' !! l' = None
     | OpPut s l' => h_stor h' !! s = None \/ h_circ h' !! l' = None
     | OpClone l | OpInput l | OpOutput l _ | OpConst l _ | OpNot l _ | OpXor l _ _ | OpAnd l _ _ | OpOr l _ _
     | OpEquivalent l _ _ | OpIdentity l _ | OpSub l | OpModule l _ _ => h_circ h' !! l = None end).
Proof.
  intros Er Nok. pose proof (run_hinv md ops) as H. set (h := run md ops) in *. clearbody h.
  assert (h' = h) as -> by (by eapply C02_failure_changes_nothing).
  assert (Hst : forall l c, h_circ h !! l = Some c -> is_Some (h_stor h !! c_storage c)) by apply (hi_stor h H).
  assert (Hon : forall A l (f : circuit -> A * circuit) (k : A -> ret), as_ret k (on_circ l f) h = (r, h) -> r = Panic PDangling /\ (r = Panic PDangling -> h_circ h !! l = None)).
  { intros A l f k. unfold as_ret, st_bind. destruct (h_circ h !! l) as [c|] eqn:E.
    - destruct (f c) as [a c'] eqn:Ef. erewrite on_circ_ok by eauto. simpl. intros Er'; inj1 Er'. by edestruct Nok.
    - rewrite on_circ_dangling by done. intros Er'; by inj1 Er'. }
  destruct o; simpl in Er; try (unfold r_input, r_constant, r_not, r_xor, r_and, r_or, r_equivalent, r_identity in Er; exact (Hon _ _ _ _ Er)); unfold as_ret in Er.
  - inj1 Er. by edestruct Nok.
  - unfold st_bind, get_stor in Er. destruct (h_stor h !! s) eqn:E; inj1 Er; [by edestruct Nok|done].
  - unfold st_bind, get_circ in Er. destruct (h_circ h !! l) eqn:E; inj1 Er; [by edestruct Nok|done].
  - unfold st_bind in Er. destruct (h_circ h !! l) as [c|] eqn:E.
    + destruct (r_output_cases h l c E g) as [ [G E1]|(c' & E1 & P)]; rewrite E1 in Er; inj1 Er; [|by edestruct Nok].
      split; [right; split; [done|]|done]. intros gt (c0 & E0 & G0)%get_gate_ok. congruence.
    + unfold r_output, st_bind in Er. rewrite on_circ_dangling in Er by done. inj1 Er. split; [by left|done].
  - unfold r_register, st_bind, get_circ in Er. destruct (h_circ h !! l) as [c|] eqn:E; [|inj1 Er; split; auto].
    destruct (h_circ h !! l') as [c'|] eqn:E'; [|inj1 Er; split; auto].
    unfold s_register, st_bind, get_stor in Er. destruct (Hst l c E) as [x Ex]. rewrite Ex in Er. inj1 Er. by edestruct Nok.
  - unfold r_sub_circuit, st_bind, get_circ, get_stor in Er. destruct (h_circ h !! l) as [c|] eqn:E; [|inj1 Er; split; auto].
    destruct (Hst l c E) as [x Ex]. rewrite Ex in Er. unfold alloc_circ in Er. simpl in Er. unfold s_register, st_bind, get_stor in Er.
    simpl in Er. rewrite Ex in Er. inj1 Er. by edestruct Nok.
  - unfold r_module, r_get_module, st_bind, get_circ, get_stor in Er. destruct (h_circ h !! l) as [c|] eqn:E; [|inj1 Er; split; auto].
    destruct (Hst l c E) as [x Ex]. rewrite Ex in Er.
    assert (Hgm : forall l', get_module h l mid = Ok l' <-> module_map x !! mid = Some l').
    { intros l'. rewrite get_module_ok. split; [intros (c0 & x0 & E0 & X0 & M0); congruence|eauto]. }
    destruct (module_map x !! mid) as [l'|] eqn:Em; simpl in Er.
    + destruct (decide (l' = l)) as [-> |].
      * inj1 Er. split; [|done]. right; right; left. split; [done|]. by apply Hgm.
      * destruct (hi_mods h H _ _ Ex mid) as [M1 M2].
        destruct (decide (mid < num_module x)) as [Hlt|]; [|rewrite M2 in Em; [done|lia] ].
        destruct (M1 Hlt) as (l2 & m & Em2 & Hm). rewrite Em in Em2. injection Em2 as <-. rewrite Hm, E in Er.
        destruct (c_module md c m mid ids) as [ [outs c']|] eqn:Ec; inj1 Er; [by edestruct Nok|].
        split; [|done]. right; right; right. split; [done|]. by apply c_module_none in Ec as [? _].
    + inj1 Er. split; [|done]. right; left. split; [done|]. intros l'. by rewrite Hgm.
  - unfold st_bind, get_circ in Er. destruct (h_circ h !! l') as [c'|] eqn:E'; [|inj1 Er; split; auto].
    unfold s_register, st_bind, get_stor in Er. destruct (h_stor h !! s) as [x|] eqn:Ex; [inj1 Er; by edestruct Nok|inj1 Er; split; auto].
Qed.

Example C02_example :
  run_op Debug (OpOutput 0 9) (run Debug demo) = (Err (EUnknownGate 9), run Debug demo) /\ run_op Debug (OpModule 0 7 [0]) (run Debug demo) = (Err (EUnknownModule 7), run Debug demo).
Proof. split; vm_compute; done. Qed.

(** * C03 *)
Theorem C03_num_wire md ops l c : h_circ (run md ops) !! l = Some c ->
  num_wire c = Z.of_N (input_len c + num_const c + num_gate c).
Proof. intros E. eapply wf_wires, (hi_circ _ (run_hinv md ops) l c E). Qed.

(** How many successful input() and output() calls a history makes on the circuit at [l]. *)
Definition is_input_call (l : nat) (o : op) (r : res ret) : N :=
  match o, r with OpInput l', Ok _ => if decide (l' = l) then 1 else 0 | _, _ => 0 end.
Definition is_output_call (l : nat) (o : op) (r : res ret) : N :=
  match o, r with OpOutput l' _, Ok _ => if decide (l' = l) then 1 else 0 | _, _ => 0 end.
Fixpoint count_calls (md : mode) (h : heap) (f : op -> res ret -> N) (ops : list op) : N :=
  match ops with [] => 0 | o :: ops => f o (fst (run_op md o h)) + count_calls md (step md h o) f ops end.

Lemma step_lens md h o l c : hinv h -> h_circ h !! l = Some c -> exists c', h_circ (step md h o) !! l = Some c' /\
  input_len c' = input_len c + is_input_call l o (fst (run_op md o h)) /\
  output_len c' = output_len c + is_output_call l o (fst (run_op md o h)).
Proof.
  intros H E. unfold step. destruct (run_op md o h) as [r h'] eqn:Er. simpl.
  destruct r as [r| | |].
  2-4: (assert (h' = h) as -> by (by eapply run_op_fail); exists c; split; [done|]; destruct o; simpl; lia).
  apply run_op_ok in Er.
  assert (Hother : forall l0 c0, l <> l0 -> h_circ (upd h l0 c0) !! l = Some c) by (intros; by rewrite upd_lookup_ne).
  destruct o; simpl in Er; dex; subst; simpl is_input_call; simpl is_output_call;
  try (destruct (decide (l0 = l)) as [-> |]; [|exists c; split; [by apply Hother|lia] ]);
  try (eexists; split; [by eapply upd_lookup|]; simplify_eq;
    repeat match goal with P : push _ _ _ |- _ => rewrite (p_il _ _ _ P), (p_ol _ _ _ P); simpl; clear P end; lia);
  try (exists c; split; [by apply add_circ_old|lia]; fail);
  try (exists c; split; [done|lia]; fail).
  - eexists. split; [by eapply upd_lookup|]. simplify_eq. match goal with P : push_out _ _ _ |- _ => destruct P as [_ ->] end. simpl. lia.
  - eexists. split; [by eapply upd_lookup|]. simplify_eq.
    match goal with P : push_mod _ _ _ _ _ _ |- _ => rewrite (pm_il _ _ _ _ _ _ P), (pm_ol _ _ _ _ _ _ P) end. lia.
Qed.
(** From any reachable state on; circuits start with no wires ([C07_sub_circuit], [C03_new_empty]) except copies. *)
Theorem C03_input_output_len md ops ops' l c : h_circ (run md ops) !! l = Some c ->
  exists c', h_circ (run md (ops ++ ops')) !! l = Some c' /\
    input_len c' = input_len c + count_calls md (run md ops) (is_input_call l) ops' /\
    output_len c' = output_len c + count_calls md (run md ops) (is_output_call l) ops'.
Proof.
  rewrite run_app. pose proof (run_hinv md ops) as H. revert H. generalize (run md ops). intros h. revert h c.
  induction ops' as [|o ops' IH]; intros h c H E; simpl.
  - exists c. split; [done|]. lia.
  - destruct (step_lens md h o l c H E) as (c1 & E1 & H1 & H2).
    destruct (IH (step md h o) c1) as (c2 & E2 & H3 & H4); [|done|].
    { eapply (run_op_hinv md h o); [done|]. unfold step. apply surjective_pairing. }
    exists c2. split; [done|]. lia.
Qed.
Theorem C03_new_empty md h s l h' : run_op md (OpNewCircuit s) h = (Ok (RCircuit l), h') ->
  exists c, h_circ h' !! l = Some c /\ input_len c = 0 /\ output_len c = 0 /\ num_gate c = 0 /\ num_const c = 0 /\
    gate_map c = ∅ /\ c_storage c = s.
Proof.
  intros (_ & [= ->] & ->)%run_op_ok. exists (circuit_new s). split; [|done]. simpl. by rewrite lookup_app_r, Nat.sub_diag.
Qed.

(** Numbers of logic gates and of constants of the circuit with every module call replaced by a copy of the callee. *)
Definition pair_add (p q : N * N) : N * N := (p.1 + q.1, p.2 + q.2).
Fixpoint expanded (fuel : nat) (h : heap) (l : nat) : option (N * N) :=
  match fuel with
  | O => None
  | S fuel =>
    match h_circ h !! l with
    | None => None
    | Some c =>
      let size_of (g : N) : option (N * N) :=
        match gate_map c !! g with
        | Some (GNot _) | Some (GXor _ _) | Some (GAnd _ _) | Some (GOr _ _) => Some (1, 0)
        | Some (GConst _) => Some (0, 1)
        | Some (GInput _) => Some (0, 0)
        | Some (GModule _ _ _ 0 mid) =>
          match get_module h l mid with Ok l' => expanded fuel h l' | _ => None end
        | Some (GModule _ _ _ _ _) => Some (0, 0)
        | None => None
        end in
      foldr (fun g acc => p ← size_of g; q ← acc; Some (pair_add p q)) (Some (0, 0)) (nrange (N.of_nat (size (gate_map c))))
    end
  end.

Lemma foldr_weights (sz : N -> option (N * N)) (w1 w2 : N -> N) xs : (forall g, g ∈ xs -> sz g = Some (w1 g, w2 g)) ->
  foldr (fun g acc => p ← sz g; q ← acc; Some (pair_add p q)) (Some (0, 0)) xs = Some (nsum (map w1 xs), nsum (map w2 xs)).
Proof.
  induction xs as [|x xs IH]; intros Hs; simpl; [done|]. rewrite (Hs x) by left. rewrite IH; [done|]. intros. apply Hs. by right.
Qed.

Theorem C03_inlined_counts md ops l c : disciplined md heap_empty ops -> h_circ (run md ops) !! l = Some c ->
  exists fuel, forall fuel', (fuel <= fuel')%nat -> expanded fuel' (run md ops) l = Some (num_gate c, num_const c).
Proof.
  intros Hd. pose proof (dinv_run md ops Hd) as D. pose proof (cinv_run md ops Hd) as C. revert D C. generalize (run md ops).
  clear. intros h D C E. pose proof (di_inv h D) as H. destruct (di_rank h D) as [rank Hr].
  exists (S (rank l)). remember (rank l) as r eqn:Er. revert l c E Er.
  induction (lt_wf r) as [r _ IH]. intros l c E -> fuel Hf. destruct fuel as [|fuel]; [lia|].
  pose proof (hi_circ h H l c E) as W. simpl. rewrite E.
  rewrite (foldr_weights _ (weight is_logic num_gate h c) (weight is_const num_const h c)).
  - destruct (C l c E) as [-> ->]. by rewrite <- size_gates.
  - intros g Hg%elem_of_nrange. rewrite <- size_gates in Hg by done. apply (wf_gates c W) in Hg as [gt G]. unfold weight. rewrite G.
    destruct gt as [| | | | | |il ol ids oi mid]; try done. destruct oi as [|oi]; [|done]. simpl.
    destruct (hi_calls h H _ _ _ _ _ _ _ _ E G) as (x & l' & m & S & M & Em & _).
    assert (Hgm : get_module h l mid = Ok l') by (apply get_module_ok; eauto). rewrite Hgm.
    unfold callee. rewrite S, M, Em. eapply (IH (rank l')); [|done|done|].
    + eapply Hr; [done|]. exists g, il, ol, ids, 0, mid, x. done.
    + assert (rank l' < rank l)%nat by (eapply Hr; [done|]; exists g, il, ol, ids, 0, mid, x; done). lia.
Qed.

Example C03_example : disciplined Debug heap_empty demo /\ expanded 2 (run Debug demo) 0 = Some (4, 1).
Proof. split; [apply disciplined_b_sound|]; vm_compute; done. Qed.

(** * C04 *)
(** How often gate [gt] names [g] as an operand. *)
Definition uses (gt : gate) (g : N) : nat :=
  let one a := if a =? g then 1%nat else 0%nat in
  match gt with
  | GInput _ | GConst _ => 0%nat
  | GNot a => one a
  | GXor a b | GAnd a b | GOr a b => (one a + one b)%nat
  | GModule _ _ ids _ _ => length (List.filter (fun a => a =? g) ids)
  end.
(** What the call that created gate [d] first contributes: [d] once per use; for a module call, all its output gates, once per use. *)
Definition entries (c : circuit) (g d : N) : list N :=
  match gate_map c !! d with
  | None => []
  | Some (GModule il ol ids 0 mid) => concat (replicate (uses (GModule il ol ids 0 mid) g) (map (fun j => d + j) (nrange ol)))
  | Some (GModule _ _ _ _ _) => []
  | Some gt => replicate (uses gt g) d
  end.
Lemma uses_occ gt g : uses gt g = occ g (operands gt).
Proof.
  assert (H1 : forall a, (if N.eq_dec a g then 1%nat else 0%nat) = (if a =? g then 1%nat else 0%nat)).
  { intros a. by destruct (N.eqb_spec a g), N.eq_dec. }
  destruct gt; simpl; unfold occ; simpl; rewrite <- ?H1; try done; try (repeat destruct N.eq_dec; done).
  induction ids as [|a ids IH]; simpl; [done|]. destruct (N.eqb_spec a g), N.eq_dec; simpl; try done. lia.
Qed.
Theorem C04_consumers md ops l c g : h_circ (run md ops) !! l = Some c ->
  consumers (run md ops) l g = Ok (flat_map (entries c g) (nrange (N.of_nat (size (gate_map c))))).
Proof.
  intros E. pose proof (hi_circ _ (run_hinv md ops) l c E) as W. unfold consumers, on. rewrite E. f_equal.
  rewrite (wf_deps c W), <- size_gates by done. apply flat_map_ext_in. intros d _. unfold contrib, entries.
  destruct (gate_map c !! d) as [gt|]; [|done]. rewrite <- ?uses_occ. destruct gt as [| | | | | |il ol ids oi mid]; try done.
  destruct oi; [|done]. by rewrite uses_occ.
Qed.
Theorem C04_multiplicity md ops l g ds : consumers (run md ops) l g = Ok ds -> forall d,
  count_occ N.eq_dec ds d = match get_gate (run md ops) l d with Ok gt => uses gt g | _ => 0%nat end.
Proof.
  unfold consumers, get_gate, on, c_get_gate. destruct (h_circ (run md ops) !! l) as [c|] eqn:E; [|done]. intros [= <-] d.
  pose proof (hi_circ _ (run_hinv md ops) l c E) as W. rewrite (deps_count c W).
  destruct (gate_map c !! d) as [gt|]; [|done]. by rewrite uses_occ.
Qed.
Theorem C04_unused md ops l c g : h_circ (run md ops) !! l = Some c ->
  (forall d gt, get_gate (run md ops) l d = Ok gt -> uses gt g = 0%nat) -> consumers (run md ops) l g = Ok [].
Proof.
  intros E H. unfold consumers, on. rewrite E. destruct (c_get_depended_gates c g) as [|d ds] eqn:Ed; [done|exfalso].
  pose proof (hi_circ _ (run_hinv md ops) l c E) as W.
  assert (Hd : d ∈ c_get_depended_gates c g) by (rewrite Ed; left). apply (deps_in c W) in Hd as (gt & G & Hin).
  specialize (H d gt). rewrite uses_occ in H. apply occ_in in Hin. rewrite H in Hin; [lia|]. apply get_gate_ok. eauto.
Qed.
Example C04_example :
  consumers (run Debug (demo ++ [OpSub 0; OpInput 2; OpNot 2 0; OpNot 2 0; OpOutput 2 1; OpOutput 2 2; OpModule 0 1 [2]])) 0 2 = Ok [3; 4; 5].
Proof. vm_compute. done. Qed.

(** * C05 *)
Lemma run_cons_app md ops o ops' : run md (ops ++ o :: ops') = fold_left (step md) ops' (snd (run_op md o (run md ops))).
Proof. by rewrite run_app. Qed.
Lemma run_later_hle md ops o r h' ops' : run_op md o (run md ops) = (r, h') -> hle h' (run md (ops ++ o :: ops')).
Proof.
  intros Er. rewrite run_cons_app, Er. simpl. eapply (rtc_eff_hinv md); [|apply run_effs_from].
  eapply run_op_hinv; [apply run_hinv|done].
Qed.
Theorem C05_input_wire md ops ops' l g h' : run_op md (OpInput l) (run md ops) = (Ok (RGate g), h') ->
  exists w, inputs_of (run md ops) l = Ok w /\ inputs_of h' l = Ok (w + 1) /\
    input_gate (run md (ops ++ OpInput l :: ops')) l w = Ok (Some g) /\
    get_gate (run md (ops ++ OpInput l :: ops')) l g = Ok (GInput w).
Proof.
  intros Er. pose proof (run_later_hle _ _ _ _ _ ops' Er) as L. apply run_op_ok in Er as (c & c' & E & [= ->] & -> & P).
  exists (input_len c). unfold inputs_of, on. rewrite E. split; [done|]. erewrite upd_lookup by done. split; [by rewrite (p_il _ _ _ P)|].
  destruct (hle_circ _ _ L l c') as (c2 & E2 & Lc); [by eapply upd_lookup|]. split.
  - unfold input_gate, on, c_input_to_gate_id. rewrite E2.
    assert (input_map c2 !! input_len c = Some (Some (gate_index c))) as ->; [|done].
    eapply lookup_weaken; [|apply Lc]. rewrite (p_im _ _ _ P). simpl. apply lookup_insert.
  - apply get_gate_ok. exists c2. split; [done|]. eapply lookup_weaken; [|apply Lc]. rewrite (push_lookup _ _ _ _ P). by rewrite decide_True.
Qed.
Theorem C05_output_wire md ops ops' l g w h' : run_op md (OpOutput l g) (run md ops) = (Ok (RWire w), h') ->
  outputs_of (run md ops) l = Ok w /\ outputs_of h' l = Ok (w + 1) /\
  output_gate (run md (ops ++ OpOutput l g :: ops')) l w = Ok g.
Proof.
  intros Er. pose proof (run_later_hle _ _ _ _ _ ops' Er) as L. apply run_op_ok in Er as (c & c' & E & [= ->] & -> & P).
  unfold outputs_of, on. rewrite E. split; [done|]. erewrite upd_lookup by done. split; [by destruct P as [_ ->]|].
  destruct (hle_circ _ _ L l c') as (c2 & E2 & Lc); [by eapply upd_lookup|].
  unfold output_gate, on, c_output_to_gate_id. rewrite E2.
  assert (output_map c2 !! output_len c = Some g) as ->; [|done].
  eapply lookup_weaken; [|apply Lc]. destruct P as [_ ->]. apply lookup_insert.
Qed.
Theorem C05_outside md ops l c w : h_circ (run md ops) !! l = Some c ->
  (input_len c <= w -> input_gate (run md ops) l w = Err (EUnknownInput w)) /\
  (output_len c <= w -> output_gate (run md ops) l w = Err (EUnknownOutput w)) /\
  (w < input_len c -> exists g, input_gate (run md ops) l w = Ok (Some g) /\ get_gate (run md ops) l g = Ok (GInput w)) /\
  (w < output_len c -> exists g gt, output_gate (run md ops) l w = Ok g /\ get_gate (run md ops) l g = Ok gt).
Proof.
  intros E. pose proof (hi_circ _ (run_hinv md ops) l c E) as W. unfold input_gate, output_gate, on, c_input_to_gate_id, c_output_to_gate_id.
  rewrite E. split; [|split; [|split] ].
  - intros Hw. by rewrite (wf_inputs_none c W).
  - intros Hw. by rewrite (wf_outputs_none c W).
  - intros Hw. destruct (wf_inputs c W w Hw) as (g & -> & G). exists g. split; [done|]. apply get_gate_ok. eauto.
  - intros Hw. destruct (wf_outputs c W w Hw) as (g & -> & gt & G). exists g, gt. split; [done|]. apply get_gate_ok. eauto.
Qed.
(** Two input wires never share a gate, and an input gate belongs to its wire only. *)
Theorem C05_inputs_distinct md ops l w g : get_gate (run md ops) l g = Ok (GInput w) -> input_gate (run md ops) l w = Ok (Some g).
Proof.
  intros (c & E & G)%get_gate_ok. pose proof (hi_circ _ (run_hinv md ops) l c E) as W. unfold input_gate, on, c_input_to_gate_id.
  rewrite E. by rewrite (wf_input_gates c W _ _ G).
Qed.
Example C05_example : input_gate (run Debug demo) 1 1 = Ok (Some 1) /\ output_gate (run Debug demo) 1 0 = Ok 5 /\
  input_gate (run Debug demo) 1 2 = Err (EUnknownInput 2).
Proof. vm_compute. done. Qed.

(** * C06 *)
Definition is_const_gate (r : res gate) : bool := match r with Ok (GConst _) => true | _ => false end.
Theorem C06_constants md ops l c : h_circ (run md ops) !! l = Some c ->
  const_ids (run md ops) l =
    Ok (List.filter (fun g => is_const_gate (get_gate (run md ops) l g)) (nrange (N.of_nat (size (gate_map c))))).
Proof.
  intros E. pose proof (hi_circ _ (run_hinv md ops) l c E) as W. unfold const_ids, on. rewrite E. f_equal.
  unfold c_get_const_gates. rewrite (wf_consts c W), <- size_gates by done. apply filter_ext_in'. intros g _.
  unfold const_at, get_gate, on, c_get_gate. rewrite E. destruct (gate_map c !! g) as [ [] |]; done.
Qed.
Theorem C06_ascending md ops l ks : const_ids (run md ops) l = Ok ks ->
  StronglySorted N.lt ks /\ forall g, g ∈ ks <-> exists b, get_gate (run md ops) l g = Ok (GConst b).
Proof.
  intros Hk. destruct (h_circ (run md ops) !! l) as [c|] eqn:E; [|unfold const_ids, on in Hk; by rewrite E in Hk].
  rewrite (C06_constants md ops l c E) in Hk. injection Hk as <-. split.
  - generalize (N.of_nat (size (gate_map c))). intros n. induction n as [|n IH] using N.peano_ind; [constructor|].
    rewrite <- N.add_1_r, nrange_succ, List.filter_app. apply StronglySorted_app; [|done|].
    + intros a b Ha Hb. apply elem_of_list_In, filter_In in Ha as [Ha _]. apply elem_of_list_In, filter_In in Hb as [Hb _].
      apply elem_of_list_In, elem_of_nrange in Ha. apply elem_of_list_In, elem_of_list_singleton in Hb. lia.
    + simpl. destruct (is_const_gate _); repeat constructor.
  - intros g. rewrite elem_of_list_In, filter_In, <- elem_of_list_In, elem_of_nrange. split.
    + intros [_ H]. destruct (get_gate (run md ops) l g) as [ [] | | |]; try done. eauto.
    + intros [b Hb]. rewrite Hb. split; [|done]. apply get_gate_ok in Hb as (c0 & E0 & G). rewrite E in E0. injection E0 as <-.
      pose proof (hi_circ _ (run_hinv md ops) l c E) as W. rewrite <- size_gates by done. by eapply gm_lt.
Qed.
Theorem C06_order md ops l b g h' ks : run_op md (OpConst l b) (run md ops) = (Ok (RGate g), h') -> const_ids (run md ops) l = Ok ks ->
  const_ids h' l = Ok (ks ++ [g]) /\ get_gate h' l g = Ok (GConst b).
Proof.
  intros (c & c' & E & [= ->] & -> & P)%run_op_ok. unfold const_ids, on, c_get_const_gates. rewrite E. intros [= <-].
  erewrite upd_lookup by done. split; [by rewrite (p_const _ _ _ P)|]. apply get_gate_ok. exists c'.
  split; [by eapply upd_lookup|]. rewrite (push_lookup _ _ _ _ P). by rewrite decide_True.
Qed.
Example C06_example : const_ids (run Debug (demo ++ [OpConst 0 true; OpConst 0 false])) 0 = Ok [4; 5].
Proof. vm_compute. done. Qed.

(** * C07 *)
Definition storage_of (h : heap) (l : nat) : option nat := match h_circ h !! l with Some c => Some (c_storage c) | None => None end.
Lemma registered h s x mid l' l2 : h_stor h !! s = Some x -> module_map x !! mid = Some l' -> storage_of h l2 = Some s -> get_module h l2 mid = Ok l'.
Proof.
  unfold storage_of. destruct (h_circ h !! l2) as [c|] eqn:E; [|done]. intros S M [= <-]. apply get_module_ok. eauto.
Qed.
Theorem C07_register md ops ops' l l' mid h' s : run_op md (OpRegister l l') (run md ops) = (Ok (RModule mid), h') ->
  storage_of (run md ops) l = Some s ->
  (forall l2, storage_of (run md ops) l2 = Some s -> get_module (run md ops) l2 mid = Err (EUnknownModule mid)) /\
  (forall l2, storage_of (run md (ops ++ OpRegister l l' :: ops')) l2 = Some s ->
     get_module (run md (ops ++ OpRegister l l' :: ops')) l2 mid = Ok l').
Proof.
  intros Er Hs. pose proof (run_later_hle _ _ _ _ _ ops' Er) as L. pose proof (run_hinv md ops) as H.
  apply run_op_ok in Er as (c & c' & x & E & E' & S & [= ->] & ->). unfold storage_of in Hs. rewrite E in Hs. injection Hs as <-. split.
  - intros l2. unfold storage_of, get_module, r_get_module, st_bind, get_circ, get_stor.
    destruct (h_circ (run md ops) !! l2) as [c2|] eqn:E2; [|done]. intros [= ->]. rewrite S.
    destruct (hi_mods _ H _ _ S (num_module x)) as [_ M]. rewrite M by lia. done.
  - intros l2 H2. destruct (hle_stor _ _ L (c_storage c) (Storage (<[num_module x := l']> (module_map x)) (num_module x + 1))) as (x2 & S2 & Hm & _).
    { simpl. apply list_lookup_insert. by eapply lookup_lt_Some. }
    eapply registered; [done| |done]. eapply lookup_weaken; [|exact Hm]. simpl. apply lookup_insert.
Qed.
Theorem C07_sub_circuit md ops ops' l l' mid h' s : run_op md (OpSub l) (run md ops) = (Ok (RSub mid l'), h') ->
  storage_of (run md ops) l = Some s ->
  h_circ h' = h_circ (run md ops) ++ [circuit_new s] /\ l' = length (h_circ (run md ops)) /\
  (forall l2, storage_of (run md ops) l2 = Some s -> get_module (run md ops) l2 mid = Err (EUnknownModule mid)) /\
  (forall l2, storage_of (run md (ops ++ OpSub l :: ops')) l2 = Some s -> get_module (run md (ops ++ OpSub l :: ops')) l2 mid = Ok l').
Proof.
  intros Er Hs. pose proof (run_later_hle _ _ _ _ _ ops' Er) as L. pose proof (run_hinv md ops) as H.
  apply run_op_ok in Er as (c & x & E & S & [= -> ->] & ->). unfold storage_of in Hs. rewrite E in Hs. injection Hs as <-.
  split; [done|]. split; [done|]. split.
  - intros l2. unfold storage_of, get_module, r_get_module, st_bind, get_circ, get_stor.
    destruct (h_circ (run md ops) !! l2) as [c2|] eqn:E2; [|done]. intros [= ->]. rewrite S.
    destruct (hi_mods _ H _ _ S (num_module x)) as [_ M]. rewrite M by lia. done.
  - intros l2 H2.
    destruct (hle_stor _ _ L (c_storage c) (Storage (<[num_module x := length (h_circ (run md ops))]> (module_map x)) (num_module x + 1))) as (x2 & S2 & Hm & _).
    { simpl. apply list_lookup_insert. by eapply lookup_lt_Some. }
    eapply registered; [done| |done]. eapply lookup_weaken; [|exact Hm]. simpl. apply lookup_insert.
Qed.
(** A module id, once it denotes a circuit, denotes it for ever, and the storage of a circuit never changes. *)
Theorem C07_for_ever md ops ops' l mid l' : get_module (run md ops) l mid = Ok l' -> get_module (run md (ops ++ ops')) l mid = Ok l'.
Proof.
  intros (c & x & E & S & M)%get_module_ok. pose proof (run_app_hle md ops ops') as L. apply get_module_ok.
  destruct (hle_circ _ _ L _ _ E) as (c' & E' & Lc). destruct (hle_stor _ _ L _ _ S) as (x' & S' & Hm & _).
  exists c', x'. rewrite (cle_st _ _ Lc). split; [done|]. split; [done|]. by eapply lookup_weaken.
Qed.
(** register_module, sub_circuit and the creation of circuits and storages change no existing circuit; any call changes at most
    the circuit it is made on. *)
Definition target (o : op) : option nat :=
  match o with
  | OpNewStorage | OpNewCircuit _ | OpClone _ | OpRegister _ _ | OpSub _ | OpPut _ _ => None
  | OpInput l | OpOutput l _ | OpConst l _ | OpNot l _ | OpXor l _ _ | OpAnd l _ _ | OpOr l _ _ | OpEquivalent l _ _
  | OpIdentity l _ | OpModule l _ _ => Some l
  end.
Theorem C07_frame md h o r h' l c : run_op md o h = (r, h') -> target o <> Some l -> h_circ h !! l = Some c -> h_circ h' !! l = Some c.
Proof.
  intros Er Ht E. destruct r as [r| | |].
  2-4: assert (h' = h) as -> by (by eapply run_op_fail); done.
  apply run_op_ok in Er.
  destruct o; simpl in Er; dex; subst; try done; try (rewrite upd_lookup_ne; [done|by intros ->]); by apply (add_circ_old h).
Qed.
(** register_module of the storage itself: the same as register_module of any circuit of that storage. *)
Theorem C07_put md ops l l' s : storage_of (run md ops) l = Some s -> run_op md (OpPut s l') (run md ops) = run_op md (OpRegister l l') (run md ops).
Proof.
  unfold storage_of. destruct (h_circ (run md ops) !! l) as [c|] eqn:E; [|done]. intros [= <-].
  simpl. unfold r_register, as_ret, st_bind, get_circ. by rewrite E.
Qed.
(** So is get_module. *)
Theorem C07_get md ops l mid s : storage_of (run md ops) l = Some s -> r_get_module l mid (run md ops) = s_get_module s mid (run md ops).
Proof.
  unfold storage_of. destruct (h_circ (run md ops) !! l) as [c|] eqn:E; [|done]. intros [= <-].
  unfold r_get_module, s_get_module, st_bind, get_circ. by rewrite E.
Qed.
(** What the storage holds is exactly the list of the circuits registered in it, by whichever of the three calls, in the order of
    the calls: the module ids are the positions in this list. *)
Fixpoint registrations (md : mode) (s : nat) (h : heap) (ops : list op) : list nat :=
  match ops with
  | [] => []
  | o :: r =>
      let (x, h') := run_op md o h in
      let now := match o, x with
                 | OpRegister l l', Ok _ => if bool_decide (storage_of h l = Some s) then [l'] else []
                 | OpPut s' l', Ok _ => if bool_decide (s' = s) then [l'] else []
                 | OpSub l, Ok (RSub _ l') => if bool_decide (storage_of h l = Some s) then [l'] else []
                 | _, _ => []
                 end in now ++ registrations md s h' r
  end.
Definition holds (x : storage) (ls : list nat) : Prop :=
  num_module x = N.of_nat (length ls) /\ forall mid, module_map x !! mid = ls !! N.to_nat mid.
Lemma holds_put x ls l' : holds x ls -> holds (Storage (<[num_module x := l']> (module_map x)) (num_module x + 1)) (ls ++ [l']).
Proof.
  intros [H1 H2]. split; simpl; [rewrite app_length; simpl; lia|]. intros mid. destruct (decide (num_module x = mid)) as [<-|].
  - by rewrite lookup_insert, H1, Nat2N.id, list_lookup_middle.
  - rewrite lookup_insert_ne by done. rewrite H2. destruct (decide (N.to_nat mid < length ls)%nat).
    + by rewrite lookup_app_l.
    + rewrite lookup_ge_None_2 by lia. symmetry. apply lookup_ge_None_2. rewrite app_length. simpl. lia.
Qed.
Definition holds_at (h : heap) (s : nat) (ls : list nat) : Prop := match h_stor h !! s with Some x => holds x ls | None => ls = [] end.
Lemma holds_same h h' s ls : h_stor h' = h_stor h -> holds_at h s ls -> holds_at h' s (ls ++ []).
Proof. unfold holds_at. intros ->. by rewrite app_nil_r. Qed.
Lemma holds_reg h s' x l' s ls (b : bool) : h_stor h !! s' = Some x -> (b <-> s' = s) -> holds_at h s ls ->
  holds_at (reg h s' x l') s (ls ++ if b then [l'] else []).
Proof.
  unfold holds_at. intros Ex Hb H. simpl. destruct (decide (s' = s)) as [->|Hn].
  - rewrite list_lookup_insert by (by eapply lookup_lt_Some). rewrite Ex in H. destruct b; [by apply holds_put|]. by destruct Hb as [_ []].
  - rewrite list_lookup_insert_ne by done. destruct b; [by destruct Hn; apply Hb|]. by rewrite app_nil_r.
Qed.
Lemma storage_is h l c s : h_circ h !! l = Some c -> bool_decide (storage_of h l = Some s) <-> c_storage c = s.
Proof. unfold storage_of. intros ->. rewrite bool_decide_spec. split; [by intros [= ->]|by intros ->]. Qed.
Lemma holds_from md s ops : forall h ls, holds_at h s ls -> holds_at (fold_left (step md) ops h) s (ls ++ registrations md s h ops).
Proof.
  induction ops as [|o ops IH]; intros h ls H; [by rewrite app_nil_r|].
  cbn [fold_left registrations]. unfold step at 2. destruct (run_op md o h) as [r h'] eqn:Er. cbn [snd]. rewrite (assoc app). apply IH. clear IH.
  destruct r as [r| | |].
  2-4: replace h' with h by (symmetry; by eapply run_op_fail); destruct o; by apply (holds_same h).
  apply run_op_ok in Er. destruct o; simpl in Er; dex; subst; try (by apply (holds_same h)).
  - unfold holds_at in *. simpl. rewrite app_nil_r. destruct (h_stor h !! s) as [x|] eqn:E.
    + rewrite (lookup_app_l_Some _ _ _ _ E); exact H.
    + subst ls. destruct ((h_stor h ++ [storage_new]) !! s) as [x|] eqn:E2; [|done]. apply lookup_app_Some in E2 as [E2|[_ E2]]; [congruence|].
      apply list_lookup_singleton_Some in E2 as [_ <-]. by split.
  - apply holds_reg; [done|by apply storage_is|done].
  - match goal with |- holds_at (reg ?h' _ _ _) _ _ => apply (holds_reg h') end; [done|by apply storage_is|].
    by rewrite <- (app_nil_r ls); apply (holds_same h).
  - apply holds_reg; [done|by rewrite bool_decide_spec|done].
Qed.
Theorem C07_modules md ops s : is_Some (h_stor (run md ops) !! s) ->
  let ls := registrations md s heap_empty ops in
  s_num_module s (run md ops) = (Ok (N.of_nat (length ls)), run md ops) /\
  forall mid, s_get_module s mid (run md ops) = (match ls !! N.to_nat mid with Some l' => Ok l' | None => Err (EUnknownModule mid) end, run md ops).
Proof.
  intros [x E] ls. assert (H : holds_at (run md ops) s ls) by (by apply (holds_from md s ops heap_empty [])).
  unfold holds_at in H. rewrite E in H. destruct H as [H1 H2].
  unfold s_num_module, s_get_module, st_bind, get_stor. rewrite E. split; [by rewrite <- H1|].
  intros mid. rewrite H2. by destruct (ls !! _).
Qed.
Example C07_example_modules : registrations Debug 0 heap_empty (demo ++ [OpRegister 1 0; OpPut 0 1; OpPut 1 0]) = [1; 0; 1]%nat.
Proof. vm_compute. done. Qed.
Example C07_example : get_module (run Debug (demo ++ [OpRegister 1 0])) 0 1 = Ok 0%nat /\
  get_module (run Debug (demo ++ [OpRegister 1 0])) 1 0 = Ok 1%nat.
Proof. vm_compute. done. Qed.

(** * C08 *)
Theorem C08_gate_meaning_kept md ops ops' l ρ g b : gv (run md ops) l ρ g b -> gv (run md (ops ++ ops')) l ρ g b.
Proof. apply gv_hle, run_app_hle. Qed.
Theorem C08_gate_meaning_unique md ops ops' l ρ g b b' : gv (run md ops) l ρ g b -> gv (run md (ops ++ ops')) l ρ g b' -> b' = b.
Proof. intros H1 H2. eapply gv_det; [done|]. by apply C08_gate_meaning_kept. Qed.
Theorem C08_output_kept md ops ops' l ρ k b : outv (run md ops) l ρ k b -> outv (run md (ops ++ ops')) l ρ k b.
Proof. apply outv_hle, run_app_hle. Qed.
Lemma eval_outv md h fuel l inputs outs k b : hinv h -> eval_output md h fuel l inputs = Ok outs -> outs !! k = Some b ->
  outv h l (env_of inputs) (N.of_nat k) b.
Proof. intros H E O. destruct (eval_sound md h H _ _ _ _ E) as (c & _ & _ & Ho). by apply Ho. Qed.
Example C08_example : outv (run Debug (demo ++ [OpNot 0 3; OpOutput 0 4])) 0 (env_of [false; false]) 0 true.
Proof. apply C08_output_kept, (eval_outv Debug _ 9 0 _ [true] 0); [apply run_hinv|vm_compute; done|done]. Qed.

(** * C09 *)
Section C09.
Context (md : mode) (ops : list op) (l l' : nat) (mid : N) (ids : list N) (m : circuit).
Context (Hget : get_module (run md ops) l mid = Ok l') (Hother : l' <> l) (Hm : h_circ (run md ops) !! l' = Some m).

Lemma C09_cases : exists c, h_circ (run md ops) !! l = Some c /\ run_op md (OpModule l mid ids) (run md ops) =
  match c_module md c m mid ids with
  | None => (Panic PArith, run md ops)
  | Some (outs, c') => (Ok (RGates outs), upd (run md ops) l c')
  end.
Proof using All.
  apply get_module_ok in Hget as (c & x & E & S & M). exists c. split; [done|].
  simpl. unfold as_ret, r_module, r_get_module, st_bind, get_circ, get_stor. rewrite E, S, M. simpl.
  rewrite decide_False by done. rewrite Hm, E. by destruct (c_module md c m mid ids) as [ [] |].
Qed.
(** Enough wires (or a build without overflow checks): success, whatever the ids. *)
Theorem C09_success : md = Release \/ input_len m + output_len m <= input_len m + num_const m + num_gate m ->
  exists h' c, h_circ (run md ops) !! l = Some c /\ run_op md (OpModule l mid ids) (run md ops) =
    (Ok (RGates (map (fun j => N.of_nat (size (gate_map c)) + j) (nrange (output_len m)))), h').
Proof using All.
  intros Hw. destruct C09_cases as (c & E & ->). pose proof (hi_circ _ (run_hinv md ops) _ _ Hm) as Wm.
  pose proof (hi_circ _ (run_hinv md ops) _ _ E) as W.
  destruct (c_module_some md c m mid ids) as (outs & c' & Ec).
  { intros ->. destruct Hw as [|Hw]; [done|]. rewrite (wf_wires m Wm). lia. }
  rewrite Ec. apply c_module_push in Ec as [_ P]. exists (upd (run md ops) l c'), c. split; [done|].
  rewrite (pm_outs _ _ _ _ _ _ P), size_gates by done. done.
Qed.
(** Otherwise the subtraction underflows. *)
Theorem C09_underflow : md = Debug -> num_const m + num_gate m < output_len m ->
  run_op md (OpModule l mid ids) (run md ops) = (Panic PArith, run md ops).
Proof using All.
  intros Hd Hw. destruct C09_cases as (c & E & ->). pose proof (hi_circ _ (run_hinv md ops) _ _ Hm) as Wm.
  destruct (c_module md c m mid ids) as [ [outs c']|] eqn:Ec; [|done].
  apply c_module_push in Ec as [Hok _]. specialize (Hok Hd). rewrite (wf_wires m Wm) in Hok. lia.
Qed.
End C09.
(** A pure pass-through module cannot be called in a build with overflow checks; a call with the wrong number of ids is accepted. *)
Example C09_example :
  let h := run Debug [OpNewStorage; OpNewCircuit 0; OpInput 0; OpSub 0; OpInput 1; OpOutput 1 0] in
  run_op Debug (OpModule 0 0 [0]) h = (Panic PArith, h) /\
  fst (run_op Release (OpModule 0 0 [0]) h) = Ok (RGates [1]) /\
  fst (run_op Debug (OpModule 0 0 []) (run Debug demo)) = Ok (RGates [4]) /\
  fst (run_op Debug (OpModule 0 0 [0; 1; 2; 99]) (run Debug demo)) = Ok (RGates [4]).
Proof. vm_compute. done. Qed.

(** * C10 *)
Theorem C10_self_call md ops l mid ids : get_module (run md ops) l mid = Ok l ->
  run_op md (OpModule l mid ids) (run md ops) = (Panic PBorrow, run md ops).
Proof.
  intros (c & x & E & S & M)%get_module_ok.
  simpl. unfold as_ret, r_module, r_get_module, st_bind, get_circ, get_stor. rewrite E, S, M. simpl. by rewrite decide_True.
Qed.
Definition nodirect (h : heap) : Prop := forall l c, h_circ h !! l = Some c -> ~ calls h c l.
Lemma nodirect_eff md h h' : hinv h -> nodirect h -> eff md h h' -> nodirect h'.
Proof.
  intros H Hn He. pose proof (hle_eff _ _ _ H He) as L.
  assert (Hold : forall l1 c1 l', h_circ h !! l1 = Some c1 -> calls h' c1 l' -> calls h c1 l') by (intros; by eapply calls_shrink).
  destruct He as [l c gt c' E P|l c g c' E P|l c s x l' m mid ids outs c' E Es Ex Em Hne Em' Hw P|
    |s x E|l c E|s x l' c' E E']; intros l1 c1 E1 Hc.
  - destruct (decide (l1 = l)) as [-> |].
    + erewrite upd_lookup in E1 by done. injection E1 as <-. change (calls h c' l) in Hc. eapply Hn; [done|].
      eapply push_calls; [|done|done]. by eapply (hi_circ h).
    + rewrite upd_lookup_ne in E1 by done. eapply Hn; eauto.
  - destruct (decide (l1 = l)) as [-> |].
    + erewrite upd_lookup in E1 by done. injection E1 as <-. change (calls h c' l) in Hc. eapply Hn; [done|]. by eapply push_out_calls.
    + rewrite upd_lookup_ne in E1 by done. eapply Hn; eauto.
  - destruct (decide (l1 = l)) as [-> |].
    + erewrite upd_lookup in E1 by done. injection E1 as <-. change (calls h c' l) in Hc. subst s.
      destruct (push_mod_calls _ _ _ _ _ _ _ _ _ _ P Ex Em Hc) as [Hc'|Hc']; [exact (Hn l c E Hc')|congruence].
    + rewrite upd_lookup_ne in E1 by done. eapply Hn; eauto.
  - eapply Hn; eauto.
  - apply add_circ_inv in E1 as [E1|[-> ->] ]; [eapply Hn; eauto|]. destruct Hc as (? & ? & ? & ? & ? & ? & ? & G & _). simpl in G. by rewrite lookup_empty in G.
  - apply add_circ_inv in E1 as [E1|[-> ->] ]; [eapply Hn; eauto|].
    assert (Hc' : calls h c (length (h_circ h))) by (by eapply (Hold l)).
    destruct (calls_valid _ _ _ _ H E Hc') as [m Em]. apply lookup_lt_Some in Em. lia.
  - eapply Hn; eauto.
Qed.
(** No history produces a circuit that calls itself directly. *)
Theorem C10_no_direct_recursion md ops l g il ol ids oi mid :
  get_gate (run md ops) l g = Ok (GModule il ol ids oi mid) -> exists l', get_module (run md ops) l mid = Ok l' /\ l' <> l.
Proof.
  intros (c & E & G)%get_gate_ok. destruct (hi_calls _ (run_hinv md ops) _ _ _ _ _ _ _ _ E G) as (x & l' & m & S & M & _).
  exists l'. split; [apply get_module_ok; eauto|]. intros ->.
  assert (Hn : hinv (run md ops) /\ nodirect (run md ops)).
  { apply run_ind; [split; [apply hinv_empty|by intros ???]|]. intros h h' [? ?] ?. split; [by eapply hinv_eff|by eapply nodirect_eff]. }
  eapply Hn; [done|]. exists g, il, ol, ids, oi, mid, x. done.
Qed.
(** Two circuits that call each other. *)
Definition mutual : list op :=
  [OpNewStorage; OpNewCircuit 0; OpNewCircuit 0; OpRegister 0 0; OpRegister 0 1;
   OpInput 0; OpInput 1; OpNot 0 0; OpNot 1 0; OpOutput 0 1; OpOutput 1 1; OpModule 0 1 [0]; OpModule 1 0 [0]].
Theorem C10_mutual_recursion : exists ops l1 l2 g1 g2 il ol ids oi mid1 mid2, l1 <> l2 /\
  get_gate (run Debug ops) l1 g1 = Ok (GModule il ol ids oi mid1) /\ get_module (run Debug ops) l1 mid1 = Ok l2 /\
  get_gate (run Debug ops) l2 g2 = Ok (GModule il ol ids oi mid2) /\ get_module (run Debug ops) l2 mid2 = Ok l1.
Proof. exists mutual, 0%nat, 1%nat, 2, 2, 1, 1, [0], 0, 1, 0. repeat split; try (vm_compute; done). Qed.
Example C10_example : get_module (run Debug mutual) 0 0 = Ok 0%nat /\
  run_op Debug (OpModule 0 0 [0]) (run Debug mutual) = (Panic PBorrow, run Debug mutual).
Proof. split; [vm_compute; done|]. apply C10_self_call. vm_compute. done. Qed.

(** * C11 *)
Theorem C11_equivalence : (forall c, circuit_eqb c c = true) /\ (forall c d, circuit_eqb c d = true -> circuit_eqb d c = true) /\
  (forall c d e, circuit_eqb c d = true -> circuit_eqb d e = true -> circuit_eqb c e = true).
Proof.
  assert (Hspec : forall c d, circuit_eqb c d = true <-> input_map c = input_map d /\ output_map c = output_map d /\
    gate_map c = gate_map d /\ dep_map c = dep_map d /\ const_gates c = const_gates d /\ input_len c = input_len d /\
    output_len c = output_len d /\ num_wire c = num_wire d /\ num_gate c = num_gate d /\ gate_index c = gate_index d).
  { intros c d. unfold circuit_eqb. rewrite !andb_true_iff, !bool_decide_eq_true. tauto. }
  split; [|split]; intros *; rewrite !Hspec; intuition congruence.
Qed.
Lemma eqb_gates c d : circuit_eqb c d = true -> gate_map c = gate_map d /\ output_map c = output_map d.
Proof. unfold circuit_eqb. rewrite !andb_true_iff, !bool_decide_eq_true. tauto. Qed.
Lemma gv_same_gates h1 l1 c1 h2 l2 c2 ρ g b : h_circ h1 !! l1 = Some c1 -> h_circ h2 !! l2 = Some c2 -> gate_map c1 = gate_map c2 ->
  (forall g il ol ids oi mid, gate_map c1 !! g <> Some (GModule il ol ids oi mid)) -> gv h1 l1 ρ g b -> gv h2 l2 ρ g b.
Proof.
  intros E1 E2 Hg Hm V. revert E1. induction V as [l ρ g c w b E G R|l ρ g c b E G|l ρ g c a x E G _ IH|l ρ g c a b x y E G _ IH1 _ IH2
    |l ρ g c a b x y E G _ IH1 _ IH2|l ρ g c a b x y E G _ IH1 _ IH2
    |l ρ g c il ol ids oi mid s l' c' o bits b E G S M E' O F IHF _ IH] using gv_ind'; intros E1; simplify_eq;
  try (by edestruct Hm); rewrite Hg in G.
  - by eapply gv_input.
  - by eapply gv_const.
  - eapply gv_not; eauto.
  - eapply gv_xor; eauto.
  - eapply gv_and; eauto.
  - eapply gv_or; eauto.
Qed.
Theorem C11_equal_means_equal h1 l1 c1 h2 l2 c2 : h_circ h1 !! l1 = Some c1 -> h_circ h2 !! l2 = Some c2 ->
  circuit_eqb c1 c2 = true -> (forall g il ol ids oi mid, gate_map c1 !! g <> Some (GModule il ol ids oi mid)) ->
  (forall ρ g b, gv h1 l1 ρ g b <-> gv h2 l2 ρ g b) /\ (forall ρ k b, outv h1 l1 ρ k b <-> outv h2 l2 ρ k b).
Proof.
  intros E1 E2 [Hg Ho]%eqb_gates Hm.
  assert (HV : forall ρ g b, gv h1 l1 ρ g b <-> gv h2 l2 ρ g b).
  { intros ρ g b. split; intros V; [by eapply (gv_same_gates h1 l1 c1)|].
    eapply (gv_same_gates h2 l2 c2); eauto. by rewrite <- Hg. }
  split; [done|]. intros ρ k b. split; intros (c & o & E & O & V); simplify_eq.
  - exists c2, o. rewrite <- Ho. split; [done|]. split; [done|]. by apply HV.
  - exists c1, o. rewrite Ho. split; [done|]. split; [done|]. by apply HV.
Qed.
Definition twins : list op :=
  [OpNewStorage; OpNewStorage; OpNewCircuit 0; OpNewCircuit 1; OpSub 0; OpSub 1;
   OpInput 2; OpInput 2; OpXor 2 0 1; OpOutput 2 2; OpInput 3; OpInput 3; OpAnd 3 0 1; OpOutput 3 2;
   OpInput 0; OpInput 0; OpModule 0 0 [0; 1]; OpOutput 0 2; OpInput 1; OpInput 1; OpModule 1 0 [0; 1]; OpOutput 1 2].
(** With module calls, equal circuits can compute different functions: the module storage is not compared. *)
Theorem C11_modules_not_compared : exists ops l1 l2 c1 c2 inputs, h_circ (run Debug ops) !! l1 = Some c1 /\
  h_circ (run Debug ops) !! l2 = Some c2 /\ circuit_eqb c1 c2 = true /\
  outv (run Debug ops) l1 (env_of inputs) 0 false /\ outv (run Debug ops) l2 (env_of inputs) 0 true.
Proof.
  exists twins, 0%nat, 1%nat. eexists _, _, [true; true]. split; [vm_compute; done|]. split; [vm_compute; done|]. split; [vm_compute; done|].
  split; [apply (eval_outv Debug _ 9 0 _ [false] 0)|apply (eval_outv Debug _ 9 1 _ [true] 0)]; first [apply run_hinv|vm_compute; done|done].
Qed.
(** [num_const] is not compared either. *)
Theorem C11_num_const_ignored c k : circuit_eqb c (Circuit (input_map c) (output_map c) (gate_map c) (c_storage c) (dep_map c)
  (const_gates c) (input_len c) (output_len c) (num_wire c) (num_gate c) k (gate_index c)) = true.
Proof. unfold circuit_eqb. simpl. by rewrite !bool_decide_true. Qed.
Example C11_example : match h_circ (run Debug twins) !! 2%nat, h_circ (run Debug (twins ++ [OpClone 2])) !! 4%nat with
  | Some c, Some d => circuit_eqb c d = true | _, _ => False end.
Proof. vm_compute. done. Qed.
