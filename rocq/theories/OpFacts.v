(** Inversion of successful calls and the outcome of failing ones. *)
From Verif Require Export Inv.

Lemma as_ret_ok {A} (f : A -> ret) (m : M A) h r h' : as_ret f m h = (Ok r, h') -> exists a, m h = (Ok a, h') /\ r = f a.
Proof. unfold as_ret, st_bind, st_ret. destruct (m h) as [[]]; try done. intros [= <- <-]. eauto. Qed.

Lemma on_circ_dang {A} l (f : circuit -> A * circuit) h r h' : h_circ h !! l = None -> on_circ l f h = (Ok r, h') -> False.
Proof. intros H. rewrite on_circ_dangling; done. Qed.

Definition op_effect (h : heap) (md : mode) (o : op) (r : ret) (h' : heap) : Prop :=
  match o with
  | OpNewStorage => r = RStorage (length (h_stor h)) /\ h' = Heap (h_circ h) (h_stor h ++ [storage_new])
  | OpNewCircuit s => is_Some (h_stor h !! s) /\ r = RCircuit (length (h_circ h)) /\ h' = add_circ h (circuit_new s)
  | OpClone l => exists c, h_circ h !! l = Some c /\ r = RCircuit (length (h_circ h)) /\ h' = add_circ h c
  | OpInput l => exists c c', h_circ h !! l = Some c /\ r = RGate (gate_index c) /\ h' = upd h l c' /\ push c (GInput (input_len c)) c'
  | OpOutput l g => exists c c', h_circ h !! l = Some c /\ r = RWire (output_len c) /\ h' = upd h l c' /\ push_out c g c'
  | OpConst l b => exists c c', h_circ h !! l = Some c /\ r = RGate (gate_index c) /\ h' = upd h l c' /\ push c (GConst b) c'
  | OpNot l a => exists c c', h_circ h !! l = Some c /\ r = RGate (gate_index c) /\ h' = upd h l c' /\ push c (GNot a) c'
  | OpXor l a b => exists c c', h_circ h !! l = Some c /\ r = RGate (gate_index c) /\ h' = upd h l c' /\ push c (GXor a b) c'
  | OpAnd l a b => exists c c', h_circ h !! l = Some c /\ r = RGate (gate_index c) /\ h' = upd h l c' /\ push c (GAnd a b) c'
  | OpOr l a b => exists c c', h_circ h !! l = Some c /\ r = RGate (gate_index c) /\ h' = upd h l c' /\ push c (GOr a b) c'
  | OpEquivalent l a b => exists c c1 c2, h_circ h !! l = Some c /\ r = RGate (gate_index c1) /\ h' = upd h l c2 /\
      push c (GXor a b) c1 /\ push c1 (GNot (gate_index c)) c2
  | OpIdentity l a => exists c c1 c2, h_circ h !! l = Some c /\ r = RGate (gate_index c1) /\ h' = upd h l c2 /\
      push c (GNot a) c1 /\ push c1 (GNot (gate_index c)) c2
  | OpRegister l l' => exists c c' x, h_circ h !! l = Some c /\ h_circ h !! l' = Some c' /\ h_stor h !! c_storage c = Some x /\
      r = RModule (num_module x) /\ h' = reg h (c_storage c) x l'
  | OpSub l => exists c x, h_circ h !! l = Some c /\ h_stor h !! c_storage c = Some x /\
      r = RSub (num_module x) (length (h_circ h)) /\
      h' = reg (add_circ h (circuit_new (c_storage c))) (c_storage c) x (length (h_circ h))
  | OpModule l mid ids => exists c x l' m outs c', h_circ h !! l = Some c /\ h_stor h !! c_storage c = Some x /\
      module_map x !! mid = Some l' /\ l' <> l /\ h_circ h !! l' = Some m /\ wires_ok md m /\
      r = RGates outs /\ h' = upd h l c' /\ push_mod c m mid ids outs c'
  | OpPut s l' => exists c' x, h_circ h !! l' = Some c' /\ h_stor h !! s = Some x /\ r = RModule (num_module x) /\ h' = reg h s x l'
  end.

Lemma run_op_ok md h o r h' : run_op md o h = (Ok r, h') -> op_effect h md o r h'.
Proof.
  destruct o as [|s|l|l|l g|l b|l a|l a b|l a b|l a b|l a b|l a|l l'|l|l mid ids|s l']; simpl; intros (z & E & ->)%as_ret_ok.
  - injection E as <- <-. done.
  - unfold st_bind, get_stor in E. destruct (h_stor h !! s) eqn:Es; [|done]. injection E as <- <-. eauto.
  - unfold st_bind, get_circ in E. destruct (h_circ h !! l) eqn:Es; [|done]. injection E as <- <-. eauto.
  - destruct (h_circ h !! l) as [c|] eqn:Hl; [|by eapply on_circ_dang in E].
    destruct (r_input_ok h l c Hl) as (c' & E' & P). rewrite E in E'. injection E' as -> ->. eauto 10.
  - destruct (h_circ h !! l) as [c|] eqn:Hl.
    + destruct (r_output_cases h l c Hl g) as [[H1 E']|(c' & E' & P)]; rewrite E in E'; [done|]. injection E' as -> ->. eauto 10.
    + exfalso. unfold r_output, st_bind in E. rewrite on_circ_dangling in E by done. done.
  - destruct (h_circ h !! l) as [c|] eqn:Hl; [|by eapply on_circ_dang in E].
    destruct (r_constant_ok h l c Hl b) as (c' & E' & P). rewrite E in E'. injection E' as -> ->. eauto 10.
  - destruct (h_circ h !! l) as [c|] eqn:Hl; [|by eapply on_circ_dang in E].
    destruct (r_not_ok h l c Hl a) as (c' & E' & P). rewrite E in E'. injection E' as -> ->. eauto 10.
  - destruct (h_circ h !! l) as [c|] eqn:Hl; [|by eapply on_circ_dang in E].
    destruct (r_xor_ok h l c Hl a b) as (c' & E' & P). rewrite E in E'. injection E' as -> ->. eauto 10.
  - destruct (h_circ h !! l) as [c|] eqn:Hl; [|by eapply on_circ_dang in E].
    destruct (r_and_ok h l c Hl a b) as (c' & E' & P). rewrite E in E'. injection E' as -> ->. eauto 10.
  - destruct (h_circ h !! l) as [c|] eqn:Hl; [|by eapply on_circ_dang in E].
    destruct (r_or_ok h l c Hl a b) as (c' & E' & P). rewrite E in E'. injection E' as -> ->. eauto 10.
  - destruct (h_circ h !! l) as [c|] eqn:Hl; [|by eapply on_circ_dang in E].
    destruct (r_equivalent_ok h l c Hl a b) as (c1 & c2 & E' & _ & P1 & P2). rewrite E in E'. injection E' as -> ->.
    exists c, c1, c2. rewrite upd_upd. done.
  - destruct (h_circ h !! l) as [c|] eqn:Hl; [|by eapply on_circ_dang in E].
    destruct (r_identity_ok h l c Hl a) as (c1 & c2 & E' & _ & P1 & P2). rewrite E in E'. injection E' as -> ->.
    exists c, c1, c2. rewrite upd_upd. done.
  - unfold r_register, st_bind, get_circ in E. destruct (h_circ h !! l) as [c|] eqn:Hl; [|done].
    destruct (h_circ h !! l') as [c'|] eqn:Hl'; [|done]. unfold s_register, st_bind, get_stor in E.
    destruct (h_stor h !! c_storage c) as [x|] eqn:Hx; [|done]. injection E as <- <-. eauto 10.
  - unfold r_sub_circuit, st_bind, get_circ, get_stor in E. destruct (h_circ h !! l) as [c|] eqn:Hl; [|done].
    destruct (h_stor h !! c_storage c) as [x|] eqn:Hx; [|done]. unfold alloc_circ in E. simpl in E.
    unfold s_register, st_bind, get_stor in E. simpl in E. rewrite Hx in E. injection E as <- <-. eauto 10.
  - unfold r_module, r_get_module, st_bind, get_circ, get_stor in E. destruct (h_circ h !! l) as [c|] eqn:Hl; [|done].
    destruct (h_stor h !! c_storage c) as [x|] eqn:Hx; [|done].
    destruct (module_map x !! mid) as [l'|] eqn:Hm; [|done]. simpl in E.
    destruct (decide (l' = l)) as [|Hne]; [done|]. destruct (h_circ h !! l') as [m|] eqn:Hl'; [|done]. rewrite Hl in E.
    destruct (c_module md c m mid ids) as [[outs c']|] eqn:Ec; [|done]. injection E as <- <-.
    apply c_module_push in Ec as [Hw Hp]. exists c, x, l', m, outs, c'. done.
  - unfold st_bind, get_circ in E. destruct (h_circ h !! l') as [c'|] eqn:Hl'; [|done]. unfold s_register, st_bind, get_stor in E.
    destruct (h_stor h !! s) as [x|] eqn:Hx; [|done]. injection E as <- <-. eauto 10.
Qed.

Lemma run_op_fail md h o r h' : run_op md o h = (r, h') -> is_ok r = false -> h' = h.
Proof.
  destruct o as [|s|l|l|l g|l b|l a|l a b|l a b|l a b|l a b|l a|l l'|l|l mid ids|s l']; simpl; unfold as_ret.
  - unfold st_bind, alloc_stor. intros [= <- <-]. done.
  - unfold st_bind, get_stor. destruct (h_stor h !! s); by intros [= <- <-].
  - unfold st_bind, get_circ. destruct (h_circ h !! l); by intros [= <- <-].
  - unfold st_bind. unfold r_input. destruct (h_circ h !! l) as [c|] eqn:Hl.
    + destruct (c_input c) as [? ?] eqn:E. erewrite on_circ_ok by eauto. by intros [= <- <-].
    + rewrite on_circ_dangling by done. by intros [= <- <-].
  - unfold st_bind. destruct (h_circ h !! l) as [c|] eqn:Hl.
    + destruct (r_output_cases h l c Hl g) as [[H1 ->]|(c' & -> & P)]; by intros [= <- <-].
    + unfold r_output, st_bind. rewrite on_circ_dangling by done. by intros [= <- <-].
  - unfold st_bind. unfold r_constant. destruct (h_circ h !! l) as [c|] eqn:Hl.
    + destruct (c_constant c b) as [? ?] eqn:E. erewrite on_circ_ok by eauto. by intros [= <- <-].
    + rewrite on_circ_dangling by done. by intros [= <- <-].
  - unfold st_bind. unfold r_not. destruct (h_circ h !! l) as [c|] eqn:Hl.
    + destruct (c_not c a) as [? ?] eqn:E. erewrite on_circ_ok by eauto. by intros [= <- <-].
    + rewrite on_circ_dangling by done. by intros [= <- <-].
  - unfold st_bind. unfold r_xor. destruct (h_circ h !! l) as [c|] eqn:Hl.
    + destruct (c_xor c a b) as [? ?] eqn:E. erewrite on_circ_ok by eauto. by intros [= <- <-].
    + rewrite on_circ_dangling by done. by intros [= <- <-].
  - unfold st_bind. unfold r_and. destruct (h_circ h !! l) as [c|] eqn:Hl.
    + destruct (c_and c a b) as [? ?] eqn:E. erewrite on_circ_ok by eauto. by intros [= <- <-].
    + rewrite on_circ_dangling by done. by intros [= <- <-].
  - unfold st_bind. unfold r_or. destruct (h_circ h !! l) as [c|] eqn:Hl.
    + destruct (c_or c a b) as [? ?] eqn:E. erewrite on_circ_ok by eauto. by intros [= <- <-].
    + rewrite on_circ_dangling by done. by intros [= <- <-].
  - unfold st_bind. unfold r_equivalent. destruct (h_circ h !! l) as [c|] eqn:Hl.
    + destruct (c_equivalent c a b) as [? ?] eqn:E. erewrite on_circ_ok by eauto. by intros [= <- <-].
    + rewrite on_circ_dangling by done. by intros [= <- <-].
  - unfold st_bind. unfold r_identity. destruct (h_circ h !! l) as [c|] eqn:Hl.
    + destruct (c_identity c a) as [? ?] eqn:E. erewrite on_circ_ok by eauto. by intros [= <- <-].
    + rewrite on_circ_dangling by done. by intros [= <- <-].
  - unfold r_register, st_bind, get_circ. destruct (h_circ h !! l) as [c|] eqn:Hl; [|by intros [= <- <-]].
    destruct (h_circ h !! l') as [c'|]; [|by intros [= <- <-]]. unfold s_register, st_bind, get_stor.
    destruct (h_stor h !! c_storage c); by intros [= <- <-].
  - unfold r_sub_circuit, st_bind, get_circ, get_stor. destruct (h_circ h !! l) as [c|] eqn:Hl; [|by intros [= <- <-]].
    destruct (h_stor h !! c_storage c) eqn:Hx; [|by intros [= <- <-]].
    unfold alloc_circ. simpl. unfold s_register, st_bind, get_stor. simpl. rewrite Hx. by intros [= <- <-].
  - unfold r_module, r_get_module, st_bind, get_circ, get_stor. destruct (h_circ h !! l) as [c|] eqn:Hl; [|by intros [= <- <-]].
    destruct (h_stor h !! c_storage c) as [x|] eqn:Hx; [|by intros [= <- <-]].
    destruct (module_map x !! mid) as [l'|] eqn:Hm; [|by intros [= <- <-]]. simpl.
    destruct (decide (l' = l)) as [|Hne]; [by intros [= <- <-]|]. destruct (h_circ h !! l') as [m|] eqn:Hl'; [|by intros [= <- <-]].
    rewrite Hl. destruct (c_module md c m mid ids) as [[outs c']|] eqn:Ec; by intros [= <- <-].
  - unfold st_bind, get_circ. destruct (h_circ h !! l') as [c'|]; [|by intros [= <- <-]]. unfold s_register, st_bind, get_stor.
    destruct (h_stor h !! s); by intros [= <- <-].
Qed.

Lemma run_app md ops ops' : run md (ops ++ ops') = fold_left (step md) ops' (run md ops).
Proof. unfold run. apply fold_left_app. Qed.
Lemma run_snoc md ops o : run md (ops ++ [o]) = step md (run md ops) o.
Proof. by rewrite run_app. Qed.
Lemma run_app_hle md ops ops' : hle (run md ops) (run md (ops ++ ops')).
Proof. rewrite run_app. eapply (rtc_eff_hinv md); [apply run_hinv|]. apply run_effs_from. Qed.
Lemma run_op_hinv md h o r h' : hinv h -> run_op md o h = (r, h') -> hinv h' /\ hle h h'.
Proof. intros H E. eapply (rtc_eff_hinv md); [done|]. replace h' with (step md h o) by (unfold step; by rewrite E). apply run_op_effs. Qed.

(** The number of gates is the next id. *)
Lemma size_gates c : cwf c -> gate_index c = N.of_nat (size (gate_map c)).
Proof.
  intros W. assert (dom (gate_map c) = list_to_set (C := gset N) (nrange (gate_index c))) as Hd.
  { apply set_eq. intros g. rewrite elem_of_dom, elem_of_list_to_set, elem_of_nrange. apply (wf_gates c W). }
  rewrite <- size_dom, Hd, size_list_to_set by apply NoDup_nrange. rewrite nrange_length. lia.
Qed.
