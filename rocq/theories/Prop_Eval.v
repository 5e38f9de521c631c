(** Properties C12-C17: evaluation, composition, truth tables. *)
From Verif Require Import EvalComplete EvalDec OpFacts Prop_Circuit.

(** * C12 *)
(** Whatever the history, whatever the fuel (call depth): a returned list has one bit per output, each the value of that output. *)
Theorem C12_sound md md' ops fuel l inputs outs : eval_output md' (run md ops) fuel l inputs = Ok outs ->
  outputs_of (run md ops) l = Ok (N.of_nat (length outs)) /\
  forall k, k < N.of_nat (length outs) -> exists b, outs !! N.to_nat k = Some b /\ outv (run md ops) l (env_of inputs) k b.
Proof.
  intros E. destruct (eval_sound md' _ (run_hinv md ops) _ _ _ _ E) as (c & Ec & Hlen & Ho). split.
  - unfold outputs_of, on. by rewrite Ec, Hlen.
  - intros k Hk. destruct (lookup_lt_is_Some_2 outs (N.to_nat k)) as [b Hb]; [lia|]. exists b. split; [done|].
    apply Ho in Hb. by rewrite N2Nat.id in Hb.
Qed.
(** The values do not depend on the build mode, the fuel or the moment of the evaluation. *)
Theorem C12_deterministic md md1 md2 ops later fuel1 fuel2 l inputs outs1 outs2 :
  eval_output md1 (run md ops) fuel1 l inputs = Ok outs1 -> eval_output md2 (run md (ops ++ later)) fuel2 l inputs = Ok outs2 ->
  outs1 `prefix_of` outs2.
Proof.
  intros E1 E2. destruct (eval_sound _ _ (run_hinv md ops) _ _ _ _ E1) as (c & Ec & Hlen & Ho).
  destruct (eval_sound _ _ (run_hinv md (ops ++ later)) _ _ _ _ E2) as (c' & Ec' & Hlen' & Ho').
  destruct (hle_circ _ _ (run_app_hle md ops later) _ _ Ec) as (c2 & Ec2 & L). simplify_eq. pose proof (cle_ol _ _ L).
  exists (drop (length outs1) outs2). rewrite <- (take_drop (length outs1) outs2) at 1. f_equal. apply list_eq. intros k.
  destruct (decide (k < length outs1)%nat) as [Hk|Hk].
  - rewrite lookup_take by done. destruct (lookup_lt_is_Some_2 outs1 k Hk) as [b Hb].
    destruct (lookup_lt_is_Some_2 outs2 k) as [b' Hb']; [lia|]. rewrite Hb, Hb'. f_equal. symmetry.
    eapply outv_det; [|by apply Ho']. eapply outv_hle; [apply run_app_hle|by apply Ho].
  - rewrite lookup_take_ge by lia. symmetry. apply lookup_ge_None_2. lia.
Qed.
Example C12_example : eval_output Debug (run Debug demo) 9 0 [false; false] = Ok [true] /\
  eval_output Debug (run Debug demo) 9 0 [false; true] = Ok [false].
Proof. vm_compute. done. Qed.

(** * C13 *)
(** Every disciplined history; every circuit whose outputs, and whose callees' outputs, are unconsumed, or have a consumer the
    earlier outputs do not need, or are arguments of a call with several outputs. [F] is the depth of the recursion: evaluation terminates. *)
Theorem C13_complete md md' ops l : disciplined md heap_empty ops -> evaluable (run md ops) l ->
  exists F, forall fuel inputs, (F <= fuel)%nat -> inputs_of (run md ops) l = Ok (N.of_nat (length inputs)) ->
    exists outs, eval_output md' (run md ops) fuel l inputs = Ok outs /\
      outputs_of (run md ops) l = Ok (N.of_nat (length outs)) /\
      forall k b, outs !! k = Some b -> outv (run md ops) l (env_of inputs) (N.of_nat k) b.
Proof.
  intros D Ev. destruct (eval_complete md' _ l (dinv_run md ops D) Ev) as [F HF]. exists F. intros fuel inputs Hf Hl.
  unfold inputs_of, on in Hl. destruct (h_circ (run md ops) !! l) as [c|] eqn:Ec; [|done]. injection Hl as Hl.
  destruct (HF fuel c inputs eq_refl Hf (eq_sym Hl)) as [outs Eo]. exists outs. split; [done|].
  destruct (eval_sound md' _ (run_hinv md ops) _ _ _ _ Eo) as (c' & Ec' & Hlen & Ho). split; [|done].
  unfold outputs_of, on. by rewrite Ec', Hlen.
Qed.
(** In particular when no output of the circuit or of a circuit it calls is consumed. *)
Inductive unconsumed (h : heap) : nat -> Prop :=
| unconsumed_intro l c : h_circ h !! l = Some c -> (forall k o, output_map c !! k = Some o -> c_get_depended_gates c o = []) ->
    (forall l', calls h c l' -> unconsumed h l') -> unconsumed h l.
Lemma unconsumed_evaluable h l : unconsumed h l -> evaluable h l.
Proof. induction 1 as [l c E HO Hc IH]. econstructor; eauto. intros k o Ho. left. by eapply HO. Qed.
Theorem C13_unconsumed md md' ops l : disciplined md heap_empty ops -> unconsumed (run md ops) l ->
  exists F, forall fuel inputs, (F <= fuel)%nat -> inputs_of (run md ops) l = Ok (N.of_nat (length inputs)) ->
    exists outs, eval_output md' (run md ops) fuel l inputs = Ok outs.
Proof.
  intros D U. destruct (C13_complete md md' ops l D (unconsumed_evaluable _ _ U)) as [F HF]. exists F. intros fuel inputs Hf Hl.
  destruct (HF fuel inputs Hf Hl) as (outs & ? & _). eauto.
Qed.

(** x; a = ¬x; b = ¬a; outputs a, b: the output a is consumed by b, which comes later. *)
Definition consumed_late : list op := [OpNewStorage; OpNewCircuit 0; OpInput 0; OpNot 0 0; OpNot 0 1; OpOutput 0 1; OpOutput 0 2].
(** The same circuit with the outputs declared in the other order. *)
Definition consumed_early : list op := [OpNewStorage; OpNewCircuit 0; OpInput 0; OpNot 0 0; OpNot 0 1; OpOutput 0 2; OpOutput 0 1].
(** A caller and a callee that both have a consumed output. *)
Definition nested : list op := [OpNewStorage; OpNewCircuit 0; OpInput 0; OpInput 0; OpSub 0; OpInput 1; OpInput 1; OpXor 1 0 1; OpConst 1 true;
  OpAnd 1 2 3; OpOutput 1 2; OpOutput 1 4; OpModule 0 0 [1; 0]; OpOr 0 2 3; OpOutput 0 2; OpOutput 0 4].
Example C13_example : disciplined Debug heap_empty nested /\ evaluable (run Debug nested) 0 /\
  (exists outs, eval_output Debug (run Debug nested) 20 0 [true; false] = Ok outs /\ outs = [true; true]).
Proof.
  assert (D : disciplined Debug heap_empty nested) by (apply disciplined_b_sound; vm_compute; done).
  split; [done|]. split; [|vm_compute; eauto].
  apply (evaluable_b_sound _ 3); [by apply dinv_run|vm_compute; done].
Qed.

(** * C14 *)
(** The general reason: an input gate declared as an output after outputs that need all its consumers. [F] only excludes running out
    of fuel; the error is returned for every input list of the right length. *)
Theorem C14_passthrough md md' ops l c k o w : disciplined md heap_empty ops -> h_circ (run md ops) !! l = Some c ->
  (forall l', calls (run md ops) c l' -> evaluable (run md ops) l') ->
  output_gate (run md ops) l k = Ok o -> get_gate (run md ops) l o = Ok (GInput w) ->
  c_get_depended_gates c o <> [] ->
  (forall d, d ∈ c_get_depended_gates c o ->
    (exists gt, gate_map c !! d = Some gt /\ gate_output_len gt = 1) /\
    exists k' o', k' < k /\ output_map c !! k' = Some o' /\ touch c o' d) ->
  (forall k' o', k' < k -> output_map c !! k' = Some o' -> c_get_depended_gates c o' = []) ->
  exists F, forall fuel inputs, (F <= fuel)%nat -> inputs_of (run md ops) l = Ok (N.of_nat (length inputs)) ->
    eval_output md' (run md ops) fuel l inputs = Err (EUnknownEvaledBit o).
Proof.
  intros D Ec Hcalls Ho Hg Hne Hall Hearlier. pose proof (hi_circ _ (run_hinv md ops) _ _ Ec) as W.
  unfold output_gate, on, c_output_to_gate_id in Ho. rewrite Ec in Ho. destruct (output_map c !! k) as [o'|] eqn:Eo; [|done]. injection Ho as ->.
  unfold get_gate, on, c_get_gate in Hg. rewrite Ec in Hg. destruct (gate_map c !! o) as [gt|] eqn:Go; [|done]. injection Hg as ->.
  destruct (eval_gone md' (run md ops) l c k o w) as [F HF]; try done.
  - by apply dinv_run.
  - intros k' Hk' o' Eo'. left. by eapply Hearlier.
  - destruct (decide (k < output_len c)); [done|]. rewrite (wf_outputs_none c W) in Eo by lia. done.
  - intros d Hd. by apply Hall.
  - intros d gt Hd Gd. destruct (Hall d Hd) as [(gt' & Gd' & Hl) _]. simplify_eq. destruct gt; try done. simpl in Hl. subst.
    destruct (wf_blocks c W _ _ _ _ _ _ Gd) as [? _]. simpl. lia.
  - exists F. intros fuel inputs Hf Hl. apply HF; [done|]. unfold inputs_of, on in Hl. rewrite Ec in Hl. by injection Hl as Hl.
Qed.
(** x; a = ¬x; outputs a, x. *)
Definition passthrough : list op := [OpNewStorage; OpNewCircuit 0; OpInput 0; OpNot 0 0; OpOutput 0 1; OpOutput 0 0].
Example C14_passthrough_example : exists F, forall fuel x, (F <= fuel)%nat ->
  eval_output Debug (run Debug passthrough) fuel 0 [x] = Err (EUnknownEvaledBit 0).
Proof.
  evar (c0 : circuit). assert (Ec : h_circ (run Debug passthrough) !! 0%nat = Some c0) by (vm_compute; reflexivity).
  destruct (C14_passthrough Debug Debug passthrough 0 c0 1 0 0) as [F HF].
  - apply disciplined_b_sound. vm_compute. done.
  - done.
  - intros l' Hc. apply callees_complete in Hc. revert Hc. vm_compute. by inversion 1.
  - vm_compute. done.
  - vm_compute. done.
  - vm_compute. done.
  - intros d Hd. assert (d = 1) as -> by (vm_compute in Hd; by apply elem_of_list_singleton in Hd). split.
    + eexists. split; vm_compute; done.
    + exists 0, 1. split; [lia|]. split; [vm_compute; done|]. apply touch_self. vm_compute. left.
  - intros k' o' Hk' Eo'. assert (k' = 0) as -> by lia. vm_compute in Eo'. injection Eo' as <-. vm_compute. done.
  - exists F. intros fuel x Hf. apply HF; [done|]. vm_compute. done.
Qed.
(** A consumed NOT gate cannot be recomputed either. *)
Theorem C14_not_chain md fuel x : (3 <= fuel)%nat ->
  eval_output md (run md consumed_early) fuel 0 [x] = Err (EUnknownEvaledBit 0).
Proof.
  intros Hf. do 3 (destruct fuel as [|fuel]; [lia|]). destruct md, x; vm_compute; done.
Qed.
(** The same gates with the outputs declared in the other order evaluate. *)
Theorem C14_order_matters md fuel x : (3 <= fuel)%nat ->
  eval_output md (run md consumed_late) fuel 0 [x] = Ok [negb x; x].
Proof.
  intros Hf. do 3 (destruct fuel as [|fuel]; [lia|]). destruct md, x; vm_compute; done.
Qed.
(** Both histories are disciplined, build the same gates and differ only in the order of the last two calls. *)
Theorem C14_same_gates md : disciplined md heap_empty consumed_late /\ disciplined md heap_empty consumed_early /\
  take 5 consumed_late = take 5 consumed_early /\ consumed_late ≡ₚ consumed_early /\
  forall g, get_gate (run md consumed_late) 0 g = get_gate (run md consumed_early) 0 g.
Proof.
  split; [apply disciplined_b_sound; destruct md; vm_compute; done|]. split; [apply disciplined_b_sound; destruct md; vm_compute; done|].
  split; [done|]. split; [unfold consumed_late, consumed_early; do 5 constructor; constructor|]. intros g.
  assert (Hg : option_map gate_map (h_circ (run md consumed_late) !! 0%nat) = option_map gate_map (h_circ (run md consumed_early) !! 0%nat))
    by (destruct md; vm_compute; done).
  unfold get_gate, on, c_get_gate.
  destruct (h_circ (run md consumed_late) !! 0%nat), (h_circ (run md consumed_early) !! 0%nat); try done. injection Hg as Hg. by rewrite Hg.
Qed.

(** * C15 *)
Theorem C15_wrong_length md h fuel l inputs n : inputs_of h l = Ok n -> N.of_nat (length inputs) <> n ->
  eval_output md h fuel l inputs = Panic PAssert.
Proof.
  unfold inputs_of, on, eval_output, eval_output_with. destruct (h_circ h !! l) as [c|]; [|done]. intros [= <-] Hne.
  destruct (N.eqb_spec (N.of_nat (length inputs)) (input_len c)); done.
Qed.
Definition not_len {A} (r : res A) : Prop := forall a b, r <> Err (EInvalidInputLen a b).
Definition nlen {S A} (m : ST S A) : Prop := forall s, not_len (fst (m s)).
Lemma nlen_bind {S A B} (m : ST S A) (k : A -> ST S B) : nlen m -> (forall a, nlen (k a)) -> nlen (st_bind m k).
Proof.
  intros Hm Hk s. specialize (Hm s). unfold st_bind. destruct (m s) as [ [a|e|p|] s'] eqn:E; simpl in *; try done; [apply Hk|].
  intros a b Heq. injection Heq as ->. by eapply Hm.
Qed.
Lemma nlen_mapM {S A B} (f : A -> ST S B) xs : (forall a, nlen (f a)) -> nlen (st_mapM f xs).
Proof.
  intros Hf. induction xs as [|x xs IH]; simpl; [done|]. apply nlen_bind; [done|]. intros y. apply nlen_bind; [done|]. done.
Qed.
Lemma nlen_iterM {S A} (f : A -> ST S unit) xs : (forall a, nlen (f a)) -> nlen (st_iterM f xs).
Proof. intros Hf. induction xs as [|x xs IH]; simpl; [done|]. by apply nlen_bind. Qed.
Lemma nlen_need eg id : (forall g, nlen (eg g)) -> nlen (e_need eg id).
Proof. intros H s. unfold e_need. destruct (evaled s !! id); [done|]. apply H. Qed.
Lemma nlen_get id : nlen (e_get id).
Proof. intros s. unfold e_get. by destruct (evaled s !! id). Qed.
Lemma nlen_decr md id : nlen (e_decr md id).
Proof. intros s. unfold e_decr. destruct (ndep s !! id); [|done]. destruct usize_sub; [|done..]. by destruct N.eqb. Qed.
Lemma nlen_outputs c first bits i k : nlen (e_insert_outputs c first bits i k).
Proof.
  revert i. induction k as [|k IH]; intros i; simpl; [done|]. apply nlen_bind; [|intros; by apply nlen_bind].
  intros s. unfold st_nth. by destruct (bits !! N.to_nat i).
Qed.
Lemma nlen_load c k w inputs : nlen (e_load c k w inputs).
Proof.
  revert w inputs. induction k as [|k IH]; intros w [|b inputs]; simpl; try done.
  destruct (input_map c !! w) as [ [id|]|]; [|apply IH|done]. by apply nlen_bind.
Qed.
Lemma not_len_eval h eg l inputs : (forall l g, nlen (eg l g)) -> not_len (eval_output_with h eg l inputs).
Proof.
  intros Hg. unfold eval_output_with. destruct (h_circ h !! l) as [c|]; [|done]. destruct (negb _) eqn:Hn; [done|].
  apply nlen_bind; [apply nlen_load|]. intros _. apply nlen_mapM. intros k s. unfold e_single_output. rewrite Hn.
  destruct (output_len c <=? k); [done|]. destruct (output_map c !! k); [|done]. destruct (evaled s !! _); [done|].
  apply nlen_bind; [apply Hg|]. intros _. apply nlen_get.
Qed.
Lemma nlen_gate md h fuel : forall l g, nlen (eval_gate md h fuel l g).
Proof.
  induction fuel as [|fuel IH]; intros l g; simpl; [done|].
  destruct (h_circ h !! l) as [c|]; [|done]. destruct (gate_map c !! g) as [gt|]; [|done].
  assert (Hbin : forall f a b, nlen (e_binary md c (eval_gate md h fuel l) f g a b)).
  { intros. unfold e_binary. repeat first [apply nlen_need; apply IH|apply nlen_get|apply nlen_decr|apply nlen_bind; [|intros]|done]. }
  destruct gt as [| |a|a b|a b|a b|il ol ids oi mid]; try done.
  - repeat first [apply nlen_need; apply IH|apply nlen_get|apply nlen_decr|apply nlen_bind; [|intros]|done].
  - apply nlen_bind.
    { apply nlen_mapM. intros. apply nlen_bind; [apply nlen_need, IH|]. intros. apply nlen_get. }
    intros bits. destruct (h_stor h !! c_storage c); [|done]. destruct (module_map _ !! mid); [|done].
    apply nlen_bind; [intros s1; by apply not_len_eval|]. intros outs. apply nlen_bind; [apply nlen_iterM, nlen_decr|]. intros _.
    apply nlen_bind; [|intros; apply nlen_outputs]. intros s1. unfold st_lift, usize_sub. destruct (oi <=? g); [done|]. by destruct md.
Qed.
(** The error value [InvalidInputLen] is never returned, in any state whatsoever. *)
Theorem C15_never_invalid_len md h fuel l inputs a b : eval_output md h fuel l inputs <> Err (EInvalidInputLen a b).
Proof. apply not_len_eval. intros. apply nlen_gate. Qed.
Example C15_example : eval_output Debug (run Debug demo) 9 0 [true] = Panic PAssert.
Proof. eapply C15_wrong_length; vm_compute; done. Qed.

(** * C16 *)
(** After any history, a successful call [module(mid, ids)] that returns [gs]: when the arguments carry [bits], the j-th returned gate
    has exactly the value of the module's output j on [bits], now and after any later calls; [bits] is unique, so this determines
    the value. *)
Theorem C16_composition md ops l mid ids gs later : (exists h', run_op md (OpModule l mid ids) (run md ops) = (Ok (RGates gs), h')) ->
  exists l', get_module (run md ops) l mid = Ok l' /\ outputs_of (run md ops) l' = Ok (N.of_nat (length gs)) /\
  forall ρ bits j g b, gs !! j = Some g -> Forall2 (gv (run md (ops ++ OpModule l mid ids :: later)) l ρ) ids bits ->
    gv (run md (ops ++ OpModule l mid ids :: later)) l ρ g b <->
    outv (run md (ops ++ OpModule l mid ids :: later)) l' (env_of bits) (N.of_nat j) b.
Proof.
  intros [h' Er]. pose proof (run_hinv md ops) as H.
  assert (L : hle h' (run md (ops ++ OpModule l mid ids :: later))).
  { change (OpModule l mid ids :: later) with ([OpModule l mid ids] ++ later). rewrite app_assoc.
    replace h' with (run md (ops ++ [OpModule l mid ids])); [apply run_app_hle|]. rewrite run_snoc. unfold step. by rewrite Er. }
  set (h2 := run md (ops ++ _)) in *. clearbody h2.
  pose proof (run_op_hinv _ _ _ _ _ H Er) as [H' L0]. apply run_op_ok in Er.
  destruct Er as (c & x & l' & m & outs & c' & Ec & Sx & Mx & Hne & Em & _ & Hr & -> & P). injection Hr as ->.
  exists l'. split; [apply get_module_ok; eauto|].
  rewrite (pm_outs _ _ _ _ _ _ P). split.
  { unfold outputs_of, on. rewrite Em, map_length, nrange_length. by rewrite N2Nat.id. }
  intros ρ bits j g b Hj Hbits.
  assert (Ec' : h_circ (upd (run md ops) l c') !! l = Some c') by (by eapply upd_lookup).
  assert (Hjj : N.of_nat j < output_len m /\ g = gate_index c + N.of_nat j).
  { rewrite list_lookup_fmap, nrange_lookup in Hj. destruct decide; [|done]. simpl in Hj. injection Hj as <-. done. }
  destruct Hjj as [Hjm ->].
  assert (G : gate_map c' !! (gate_index c + N.of_nat j) = Some (GModule (input_len m) (output_len m) ids (N.of_nat j) mid)).
  { rewrite (pm_gm _ _ _ _ _ _ P). destruct decide; [|lia]. do 2 f_equal. lia. }
  destruct (hle_circ _ _ L _ _ Ec') as (c2 & Ec2 & Lc). pose proof (lookup_weaken _ _ _ _ G (cle_gates _ _ Lc)) as G2.
  destruct (hle_stor _ _ L0 _ _ Sx) as (x1 & Sx1 & Mx1 & _). destruct (hle_stor _ _ L _ _ Sx1) as (x2 & Sx2 & Mx2 & _).
  pose proof (lookup_weaken _ _ _ _ (lookup_weaken _ _ _ _ Mx Mx1) Mx2) as Mx'.
  destruct (hle_circ _ _ L0 _ _ Em) as (m1 & Em1 & Lm1). destruct (hle_circ _ _ L _ _ Em1) as (m2 & Em2 & Lm2).
  destruct (wf_outputs m (hi_circ _ H _ _ Em) _ Hjm) as (o & Eo & _).
  pose proof (lookup_weaken _ _ _ _ (lookup_weaken _ _ _ _ Eo (cle_outs _ _ Lm1)) (cle_outs _ _ Lm2)) as Eo2.
  assert (Hst : c_storage c2 = c_storage c).
  { rewrite (cle_st _ _ Lc). destruct (hle_circ _ _ L0 _ _ Ec) as (c3 & Ec3 & L3). rewrite Ec' in Ec3. injection Ec3 as <-. apply (cle_st _ _ L3). }
  split.
  - intros V. inversion V; subst; simplify_eq.
    match goal with F2 : Forall2 (gv h2 l ρ) ids ?bs |- _ =>
      lazymatch bs with bits => fail | _ => assert (bits = bs) as -> by (eapply (Forall2_det _ _ _ _ _ Hbits F2); intros; by eapply gv_det) end end.
    rewrite Hst in *. simplify_eq. exists m2, o. split; [done|]. split; [done|]. done.
  - intros (m3 & o3 & Em3 & Eo3 & V). simplify_eq.
    eapply (gv_module h2 l ρ _ c2 (input_len m) (output_len m) ids (N.of_nat j) mid x2 l' m2 o bits b); try done. by rewrite Hst.
Qed.
(** The same of the bits that evaluate returns: those of the call, where they are outputs, are those of the module on the arguments' values. *)
Theorem C16_evaluated md md' ops l mid ids gs later l' c fuel fuel' ins outs args res : let h := run md (ops ++ OpModule l mid ids :: later) in
  (exists h', run_op md (OpModule l mid ids) (run md ops) = (Ok (RGates gs), h')) -> get_module (run md ops) l mid = Ok l' ->
  h_circ h !! l = Some c -> eval_output md' h fuel l ins = Ok outs -> Forall2 (gv h l (env_of ins)) ids args -> eval_output md' h fuel' l' args = Ok res ->
  forall j g k, gs !! j = Some g -> output_map c !! k = Some g -> outs !! N.to_nat k = res !! j /\ is_Some (res !! j).
Proof.
  intros h Hcall Hl' Ec E1 Ha E2 j g k Hj Hk. destruct (C16_composition md ops l mid ids gs later Hcall) as (l2 & El2 & _ & HV). rewrite Hl' in El2. injection El2 as <-.
  destruct (C12_sound md md' _ fuel l ins outs E1) as [H1 V1]. destruct (C12_sound md md' _ fuel' l' args res E2) as [H2 V2]. fold h in H1, V1, H2, V2, HV.
  assert (Hlt : k < N.of_nat (length outs)).
  { unfold outputs_of, on in H1. rewrite Ec in H1. injection H1 as <-. apply N.nle_gt. intros Hge.
    by rewrite (wf_outputs_none c (hi_circ h (run_hinv md _) _ _ Ec) k Hge) in Hk. }
  destruct (V1 k Hlt) as (b & Hb & c1 & o & Ec1 & Eo & Gb). simplify_eq. pose proof (proj1 (HV _ _ j g b Hj Ha) Gb) as Vb.
  assert (Hlj : N.of_nat j < N.of_nat (length res)).
  { destruct Vb as (m & o & Em & Eo' & _). unfold outputs_of, on in H2. rewrite Em in H2. injection H2 as <-. apply N.nle_gt. intros Hge.
    by rewrite (wf_outputs_none m (hi_circ h (run_hinv md _) _ _ Em) _ Hge) in Eo'. }
  destruct (V2 _ Hlj) as (b' & Hb' & Vb'). rewrite Nat2N.id in Hb'. rewrite Hb, Hb'. split; [|eauto]. f_equal. by eapply outv_det.
Qed.
Definition demo2 : list op := demo ++ OpModule 0 0 [1; 0] :: [OpOutput 0 4].
Example C16_example : (exists h', run_op Debug (OpModule 0 0 [1; 0]) (run Debug demo) = (Ok (RGates [4]), h')) /\
  get_module (run Debug demo) 0 0 = Ok 1%nat /\ eval_output Debug (run Debug demo2) 9 0 [true; false] = Ok [true; false] /\
  Forall2 (gv (run Debug demo2) 0 (env_of [true; false])) [1; 0] [false; true] /\ eval_output Debug (run Debug demo2) 9 1 [false; true] = Ok [false].
Proof.
  split; [eexists; vm_compute; done|]. split; [vm_compute; done|]. split; [vm_compute; done|]. split; [|vm_compute; done].
  repeat constructor; (eapply gv_input; [vm_compute; reflexivity..|reflexivity]).
Qed.

(** * C17 *)
(** What the gate returned by a successful call means, in terms of the meanings of the operands. *)
Definition gate_meaning (h' : heap) (o : op) (g : N) (ρ : N -> option bool) (v : bool) : Prop :=
  match o with
  | OpInput l => exists w, inputs_of h' l = Ok (w + 1) /\ (gv h' l ρ g v <-> ρ w = Some v)
  | OpConst l b => gv h' l ρ g v <-> v = b
  | OpNot l a => gv h' l ρ g v <-> exists x, gv h' l ρ a x /\ v = negb x
  | OpXor l a b => gv h' l ρ g v <-> exists x y, gv h' l ρ a x /\ gv h' l ρ b y /\ v = xorb x y
  | OpAnd l a b => gv h' l ρ g v <-> exists x y, gv h' l ρ a x /\ gv h' l ρ b y /\ v = (x && y)%bool
  | OpOr l a b => gv h' l ρ g v <-> exists x y, gv h' l ρ a x /\ gv h' l ρ b y /\ v = (x || y)%bool
  | OpEquivalent l a b => gv h' l ρ g v <-> exists x y, gv h' l ρ a x /\ gv h' l ρ b y /\ (v = true <-> x = y)
  | OpIdentity l a => gv h' l ρ g v <-> gv h' l ρ a v
  | _ => False
  end.
Definition makes_gate (o : op) : bool :=
  match o with
  | OpInput _ | OpConst _ _ | OpNot _ _ | OpXor _ _ _ | OpAnd _ _ _ | OpOr _ _ _ | OpEquivalent _ _ _ | OpIdentity _ _ => true
  | _ => false
  end.
Lemma push_new c gt c' : push c gt c' -> gate_map c' !! gate_index c = Some gt.
Proof. intros P. rewrite (push_lookup _ _ _ _ P), decide_True; done. Qed.
Lemma push_old c gt c' g x : push c gt c' -> g < gate_index c -> gate_map c !! g = x -> gate_map c' !! g = x.
Proof. intros P Hg <-. rewrite (push_lookup _ _ _ _ P), decide_False; [done|lia]. Qed.
Theorem C17_truth_tables md ops o r h' : makes_gate o = true -> run_op md o (run md ops) = (Ok r, h') ->
  exists g, r = RGate g /\ forall ρ v, gate_meaning h' o g ρ v.
Proof.
  intros Ho Er. apply run_op_ok in Er. set (h := run md ops) in *. clearbody h.
  destruct o as [|s|l|l|l g|l b|l a|l a b|l a b|l a b|l a b|l a|l l'|l|l mid ids|s l']; try discriminate Ho; cbn [op_effect] in Er.
  - destruct Er as (c & c' & E & -> & -> & P). eexists. split; [done|]. intros ρ v. cbn [gate_meaning]. pose proof (upd_lookup _ l c' _ E) as E'. apply push_new in P as G.
    exists (input_len c). split; [|by eapply gv_input_iff].
    unfold inputs_of, on. rewrite E'. by rewrite (p_il _ _ _ P).
  - destruct Er as (c & c' & E & -> & -> & P). eexists. split; [done|]. intros ρ v. cbn [gate_meaning]. pose proof (upd_lookup _ l c' _ E) as E'. apply push_new in P as G.
    by eapply gv_const_iff.
  - destruct Er as (c & c' & E & -> & -> & P). eexists. split; [done|]. intros ρ v. cbn [gate_meaning]. pose proof (upd_lookup _ l c' _ E) as E'. apply push_new in P as G.
    rewrite (gv_not_iff _ _ _ E' _ _ _ _ G). split; [|intros (x & V & ->); by rewrite negb_involutive].
    intros V. exists (negb v). by rewrite negb_involutive.
  - destruct Er as (c & c' & E & -> & -> & P). eexists. split; [done|]. intros ρ v. cbn [gate_meaning]. pose proof (upd_lookup _ l c' _ E) as E'. apply push_new in P as G.
    by eapply gv_xor_iff.
  - destruct Er as (c & c' & E & -> & -> & P). eexists. split; [done|]. intros ρ v. cbn [gate_meaning]. pose proof (upd_lookup _ l c' _ E) as E'. apply push_new in P as G.
    by eapply gv_and_iff.
  - destruct Er as (c & c' & E & -> & -> & P). eexists. split; [done|]. intros ρ v. cbn [gate_meaning]. pose proof (upd_lookup _ l c' _ E) as E'. apply push_new in P as G.
    by eapply gv_or_iff.
  - destruct Er as (c & c1 & c2 & E & -> & -> & P1 & P2). eexists. split; [done|]. intros ρ v. cbn [gate_meaning]. pose proof (upd_lookup _ l c2 _ E) as E'. apply push_new in P2 as G2.
    apply push_new in P1 as G1. eapply (push_old _ _ _ _ _ P2) in G1; [|rewrite (p_gi _ _ _ P1); lia].
    rewrite (gv_not_iff _ _ _ E' _ _ _ _ G2), (gv_xor_iff _ _ _ E' _ _ _ _ _ G1).
    split; intros (x & y & Vx & Vy & Hv); exists x, y; (split; [done|]); (split; [done|]).
    + destruct v, x, y; simpl in *; try done.
    + destruct v, x, y; simpl in *; try done; destruct Hv as [Hv1 Hv2]; exfalso; first [discriminate (Hv1 eq_refl)|discriminate (Hv2 eq_refl)].
  - destruct Er as (c & c1 & c2 & E & -> & -> & P1 & P2). eexists. split; [done|]. intros ρ v. cbn [gate_meaning]. pose proof (upd_lookup _ l c2 _ E) as E'. apply push_new in P2 as G2.
    apply push_new in P1 as G1. eapply (push_old _ _ _ _ _ P2) in G1; [|rewrite (p_gi _ _ _ P1); lia].
    by rewrite (gv_not_iff _ _ _ E' _ _ _ _ G2), (gv_not_iff _ _ _ E' _ _ _ _ G1), negb_involutive.
Qed.
Example C17_example : exists h', run_op Debug (OpEquivalent 0 0 3) (run Debug demo) = (Ok (RGate 5), h').
Proof. eexists. vm_compute. done. Qed.
