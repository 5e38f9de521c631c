(** How an evaluation can end: C59. *)
From Verif Require Import Prop_Circuit Prop_Eval EvalModes EvalDec.

(** Any disciplined circuit, whatever its outputs, called with as many bits as it has inputs: the evaluation terminates, and it returns the right bits,
    the error [UnknownEvaledBit], or panics on a missing key of [num_depend_map]. *)
Theorem C59_outcomes md md' ops l : disciplined md heap_empty ops -> exists F, forall fuel inputs, (F <= fuel)%nat ->
  inputs_of (run md ops) l = Ok (N.of_nat (length inputs)) ->
  (exists outs, eval_output md' (run md ops) fuel l inputs = Ok outs /\ outputs_of (run md ops) l = Ok (N.of_nat (length outs)) /\
     forall k b, outs !! k = Some b -> outv (run md ops) l (env_of inputs) (N.of_nat k) b) \/
  (exists g, eval_output md' (run md ops) fuel l inputs = Err (EUnknownEvaledBit g)) \/
  eval_output md' (run md ops) fuel l inputs = Panic PKey.
Proof.
  intros D. destruct (eval_outcome md' _ l (dinv_run md ops D)) as [F HF]. exists F. intros fuel inputs Hf Hi.
  unfold inputs_of, on in Hi. destruct (h_circ (run md ops) !! l) as [c|] eqn:Ec; [|done]. injection Hi as Hi.
  pose proof (HF false fuel c inputs eq_refl ltac:(done) Hf (eq_sym Hi)) as O.
  destruct (eval_output md' (run md ops) fuel l inputs) as [outs|e|p|] eqn:Ev.
  - left. exists outs. split; [done|]. destruct (C12_sound md md' ops fuel l inputs outs Ev) as [Ho Hv]. split; [done|]. intros k b Hk.
    destruct (Hv (N.of_nat k)) as (b' & Hb' & Hov). { apply lookup_lt_Some in Hk. lia. } rewrite Nat2N.id in Hb'. congruence.
  - right. left. destruct e; try done. eauto.
  - right. right. by destruct p.
  - done.
Qed.

(** Without module calls and without a gate that uses the same gate twice there is no panic either. *)
Definition simple (h : heap) (l : nat) : Prop :=
  forall g gt, get_gate h l g = Ok gt ->
    match gt with GInput _ | GConst _ | GNot _ => True | GXor a b | GAnd a b | GOr a b => a <> b | GModule _ _ _ _ _ => False end.
Theorem C59_no_panic md md' ops l : disciplined md heap_empty ops -> simple (run md ops) l -> exists F, forall fuel inputs, (F <= fuel)%nat ->
  inputs_of (run md ops) l = Ok (N.of_nat (length inputs)) ->
  (exists outs, eval_output md' (run md ops) fuel l inputs = Ok outs) \/ (exists g, eval_output md' (run md ops) fuel l inputs = Err (EUnknownEvaledBit g)).
Proof.
  intros D S. destruct (eval_outcome md' _ l (dinv_run md ops D)) as [F HF]. exists F. intros fuel inputs Hf Hi.
  unfold inputs_of, on in Hi. destruct (h_circ (run md ops) !! l) as [c|] eqn:Ec; [|done]. injection Hi as Hi.
  assert (P : plain c).
  { intros g gt G. specialize (S g gt). unfold get_gate, on, c_get_gate in S. rewrite Ec, G in S. specialize (S eq_refl).
    assert (H1 : forall a : N, NoDup [a]) by (intros; apply NoDup_singleton).
    assert (H2 : forall a b : N, a <> b -> NoDup [a; b]). { intros a b Hab. apply NoDup_cons. split; [|done]. intros ->%elem_of_list_singleton. done. }
    destruct gt; try done; split; try done; cbn [operands]; auto; constructor. }
  pose proof (HF true fuel c inputs eq_refl ltac:(done) Hf (eq_sym Hi)) as O.
  destruct (eval_output md' (run md ops) fuel l inputs) as [outs|e|p|]; [eauto| |by destruct p|done]. right. destruct e; try done. eauto.
Qed.

(** x; a = ¬x; b = ¬a; s = x XOR x; outputs b, a, s. The output a is evaluated a second time, which counts x down once too often; s then counts x
    down twice, and the second time its entry is gone. *)
Definition repeated_operand : list op :=
  [OpNewStorage; OpNewCircuit 0; OpInput 0; OpNot 0 0; OpNot 0 1; OpXor 0 0 0; OpOutput 0 2; OpOutput 0 1; OpOutput 0 3].
(** x; a = ¬x; b = ¬a; y = ¬x; m = module(x, y) with module(p, q) = p AND q; outputs b, a, m. The operands of the call are different, but evaluating y
    evicts x between the reading of x and the counting down. *)
Definition evicted_argument : list op :=
  [OpNewStorage; OpNewCircuit 0; OpSub 0; OpInput 1; OpInput 1; OpAnd 1 0 1; OpOutput 1 2;
   OpInput 0; OpNot 0 0; OpNot 0 1; OpNot 0 0; OpModule 0 0 [0; 3]; OpOutput 0 2; OpOutput 0 1; OpOutput 0 4].
Theorem C59_panics md md' ops : ops ∈ [repeated_operand; evicted_argument] ->
  disciplined md heap_empty ops /\ forall fuel x, (4 <= fuel)%nat -> eval_output md' (run md ops) fuel 0 [x] = Panic PKey.
Proof.
  intros H. apply elem_of_list_In in H. destruct H as [<- | [<- | [] ] ].
  - split; [apply disciplined_b_sound; destruct md; vm_compute; done|]. intros fuel x Hf. do 4 (destruct fuel as [|fuel]; [lia|]). destruct md, md', x; vm_compute; done.
  - split; [apply disciplined_b_sound; destruct md; vm_compute; done|]. intros fuel x Hf. do 4 (destruct fuel as [|fuel]; [lia|]). destruct md, md', x; vm_compute; done.
Qed.
Lemma gate_bound h l n g gt : hinv h -> option_map gate_index (h_circ h !! l) = Some n -> get_gate h l g = Ok gt -> g < n.
Proof.
  intros Hh Hn Hg. unfold get_gate, on, c_get_gate in Hg. destruct (h_circ h !! l) as [c|] eqn:Ec; [|done]. injection Hn as <-.
  destruct (gate_map c !! g) as [gt'|] eqn:G; [|done]. by eapply gm_lt; [eapply hi_circ|].
Qed.
Lemma consumed_early_gates : option_map gate_index (h_circ (run Debug consumed_early) !! 0%nat) = Some 3.
Proof. vm_compute. reflexivity. Qed.
(** All three outcomes occur; the circuit of the error is simple. *)
Example C59_example : disciplined Debug heap_empty consumed_early /\ simple (run Debug consumed_early) 0 /\
  inputs_of (run Debug consumed_early) 0 = Ok 1 /\ eval_output Debug (run Debug consumed_early) 3 0 [true] = Err (EUnknownEvaledBit 0) /\
  eval_output Debug (run Debug consumed_late) 3 0 [true] = Ok [false; true] /\ eval_output Debug (run Debug repeated_operand) 4 0 [true] = Panic PKey.
Proof.
  split; [apply disciplined_b_sound; vm_compute; done|]. split; [|split; [vm_compute; reflexivity|]; split; [vm_compute; reflexivity|]; split; vm_compute; reflexivity].
  intros g gt H. pose proof (gate_bound _ 0%nat 3 g gt (run_hinv Debug consumed_early) consumed_early_gates H) as Hlt.
  assert (H0 : get_gate (run Debug consumed_early) 0 0 = Ok (GInput 0)) by (vm_compute; reflexivity).
  assert (H1 : get_gate (run Debug consumed_early) 0 1 = Ok (GNot 0)) by (vm_compute; reflexivity).
  assert (H2 : get_gate (run Debug consumed_early) 0 2 = Ok (GNot 1)) by (vm_compute; reflexivity).
  assert (Hc : g = 0 \/ g = 1 \/ g = 2) by lia. destruct Hc as [-> | [-> | ->] ].
  - rewrite H0 in H. by injection H as <-.
  - rewrite H1 in H. by injection H as <-.
  - rewrite H2 in H. by injection H as <-.
Qed.

(** * C60 *)
(** The output gates are in the order of their creation, in the circuit and in all circuits it calls, directly or not. *)
Inductive ordered (h : heap) : nat -> Prop :=
| ordered_intro l c : h_circ h !! l = Some c ->
    (forall k k' o o', k < k' -> output_gate h l k = Ok o -> output_gate h l k' = Ok o' -> o <= o') ->
    (forall l', calls h c l' -> ordered h l') -> ordered h l.
(** Whatever an output needs that uses [o] was created after [o]. *)
Lemma touch_user c h g x o gt : cwf c -> cdisc h c -> touch c g x -> gate_map c !! x = Some gt -> o ∈ operands gt -> is_Some (gate_map c !! g) -> o < g.
Proof.
  intros W Dc T. induction T as [g x Hx|g gt' a x G Ha T IH]; intros Gx Ho [gg Gg].
  - destruct (blk_member c W g gg x Gg Hx) as (gt2 & G2 & Hops & _). rewrite Gx in G2. injection G2 as <-. rewrite Hops in Ho.
    pose proof (d_ops h c Dc g gg o Gg Ho). lia.
  - pose proof (d_ops h c Dc g gt' a G Ha) as Hlt. assert (o < a); [|lia]. apply IH; [done|done|]. apply (wf_gates c W). pose proof (gm_lt c g gt' W G). lia.
Qed.
Lemma ordered_evaluable h l : dinv h -> ordered h l -> evaluable h l.
Proof.
  intros D. induction 1 as [l c E Ho Hc IH]. econstructor; [exact E| |exact IH]. pose proof (hi_circ h (di_inv h D) l c E) as W.
  intros k o Ek. destruct (deps c o) as [|d ds] eqn:Ed; [by left|]. right. exists d. split; [rewrite Ed; left|]. right. intros k' o' Hk' Ek' T.
  assert (Hd : d ∈ deps c o) by (rewrite Ed; left). apply (deps_in c W) in Hd as (gt & Gd & Hop).
  assert (Hlt : o < o').
  { eapply (touch_user c h o' d o gt); [done|by eapply di_disc|done|done|done|]. destruct (decide (k' < output_len c)) as [Hk|Hk].
    - destruct (wf_outputs c W k' Hk) as (g & Eg & Gg). congruence.
    - rewrite (wf_outputs_none c W k') in Ek' by lia. done. }
  assert (Hle : o' <= o). { apply (Ho k' k); [done| |]; unfold output_gate, on, c_output_to_gate_id; by rewrite E, ?Ek', ?Ek. }
  lia.
Qed.
(** Any disciplined circuit whose outputs were declared in the order in which their gates were made evaluates, to the right bits, also when
    outputs are used by other gates or declared several times. *)
Theorem C60_ordered md md' ops l : disciplined md heap_empty ops -> ordered (run md ops) l ->
  exists F, forall fuel inputs, (F <= fuel)%nat -> inputs_of (run md ops) l = Ok (N.of_nat (length inputs)) ->
    exists outs, eval_output md' (run md ops) fuel l inputs = Ok outs /\
      outputs_of (run md ops) l = Ok (N.of_nat (length outs)) /\
      forall k b, outs !! k = Some b -> outv (run md ops) l (env_of inputs) (N.of_nat k) b.
Proof. intros D Ho. apply C13_complete; [done|]. apply ordered_evaluable; [by apply dinv_run|done]. Qed.
(** A checker for the example. *)
Fixpoint ordered_b (h : heap) (n : nat) (l : nat) : bool :=
  match n with
  | O => false
  | S n => match h_circ h !! l with
    | None => false
    | Some c => forallb (fun k' => forallb (fun k => match output_map c !! k, output_map c !! k' with Some o, Some o' => o <=? o' | _, _ => true end) (nrange k'))
        (nrange (output_len c)) && forallb (ordered_b h n) (callees h c)
    end
  end.
Lemma ordered_b_sound h n l : dinv h -> ordered_b h n l = true -> ordered h l.
Proof.
  intros D. revert l. induction n as [|n IH]; intros l; cbn [ordered_b]; [done|].
  destruct (h_circ h !! l) as [c|] eqn:E; [|done]. intros [H1 H2]%andb_true_iff. econstructor; [exact E| |].
  - intros k k' o o' Hk Eo Eo'. unfold output_gate, on, c_output_to_gate_id in Eo, Eo'. rewrite E in Eo, Eo'.
    destruct (output_map c !! k) as [o1|] eqn:E1; [|done]. destruct (output_map c !! k') as [o2|] eqn:E2; [|done]. injection Eo as <-. injection Eo' as <-.
    rewrite forallb_forall in H1. specialize (H1 k'). rewrite <- elem_of_list_In, elem_of_nrange in H1.
    assert (Hk' : k' < output_len c). { destruct (decide (k' < output_len c)); [done|]. rewrite (wf_outputs_none c (hi_circ h (di_inv h D) l c E)) in E2 by lia. done. }
    specialize (H1 Hk'). rewrite forallb_forall in H1. specialize (H1 k). rewrite <- elem_of_list_In, elem_of_nrange, E1, E2 in H1. by apply N.leb_le, H1.
  - intros l' Hc. apply IH. rewrite forallb_forall in H2. apply H2. by apply elem_of_list_In, callees_complete.
Qed.
(** Caller and callee both have an output that another output uses; with the outputs of the first circuit of C14 in the other order this fails. *)
Example C60_example : disciplined Debug heap_empty nested /\ ordered (run Debug nested) 0 /\ ~ unconsumed (run Debug nested) 0 /\
  eval_output Debug (run Debug nested) 20 0 [true; false] = Ok [true; true] /\ ordered_b (run Debug consumed_early) 3 0 = false.
Proof.
  assert (D : disciplined Debug heap_empty nested) by (apply disciplined_b_sound; vm_compute; done).
  split; [done|]. split; [apply (ordered_b_sound _ 3); [by apply dinv_run|vm_compute; done]|].
  split; [|split; vm_compute; reflexivity]. intros U. 
  assert (H : exists c, h_circ (run Debug nested) !! 0%nat = Some c /\ output_map c !! 0 = Some 2 /\ c_get_depended_gates c 2 = [4]).
  { eexists. split; [vm_compute; reflexivity|]. split; vm_compute; reflexivity. }
  destruct H as (c & E & Ho & Hd). inversion U as [l c' E' Hu _]. subst l. rewrite E in E'. injection E' as <-. specialize (Hu 0 2 Ho). rewrite Hd in Hu. done.
Qed.
