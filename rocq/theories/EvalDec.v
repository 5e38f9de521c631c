(** Checking that a small concrete circuit is evaluable. *)
From Verif Require Export EvalComplete DiscDec.

Fixpoint touch_list (c : circuit) (n : nat) (g : N) : list N :=
  blk c g ++ match n with
    | O => []
    | S n => match gate_map c !! g with Some gt => flat_map (touch_list c n) (operands gt) | None => [] end
    end.
Lemma touch_list_complete h c g x : cdisc h c -> touch c g x -> forall n, (N.to_nat g <= n)%nat -> x ∈ touch_list c n g.
Proof.
  intros D T. induction T as [g x Hx|g gt a x G A T IH]; intros n Hn.
  - destruct n; simpl; apply elem_of_app; by left.
  - pose proof (d_ops h c D _ _ _ G A) as Hlt. destruct n as [|n]; [lia|]. simpl. apply elem_of_app. right. rewrite G.
    apply elem_of_list_In, in_flat_map. exists a. split; [by apply elem_of_list_In|]. apply elem_of_list_In, IH. lia.
Qed.
Definition outputs_ok_b (c : circuit) : bool :=
  forallb (fun k => match output_map c !! k with
    | None => true
    | Some o => match deps c o with [] => true | _ => false end || existsb (fun d => match gate_map c !! d with Some gt => negb (gate_oi gt =? 0) | None => false end || forallb (fun k' => match output_map c !! k' with
        | None => true | Some o' => negb (existsb (N.eqb d) (touch_list c (N.to_nat o') o')) end) (nrange k)) (deps c o)
    end) (nrange (output_len c)).
Lemma outputs_ok_b_sound h c : cwf c -> cdisc h c -> outputs_ok_b c = true -> outputs_ok c.
Proof.
  intros W D H k o Eo. unfold outputs_ok_b in H. rewrite forallb_forall in H.
  assert (Hk : k < output_len c).
  { destruct (decide (k < output_len c)); [done|]. rewrite (wf_outputs_none c W) in Eo by lia. done. }
  specialize (H k). rewrite <- elem_of_list_In, elem_of_nrange in H. specialize (H Hk). rewrite Eo in H.
  apply orb_true_iff in H as [H|H].
  - left. by destruct (deps c o).
  - right. apply existsb_exists in H as (d & Hd & H). exists d. split; [by apply elem_of_list_In|]. apply orb_true_iff in H as [H|H].
    { left. destruct (gate_map c !! d) as [gt|]; [|done]. exists gt. split; [done|]. apply negb_true_iff in H. by apply N.eqb_neq. }
    right.
    intros k' o' Hk' Eo' T. rewrite forallb_forall in H. specialize (H k'). rewrite <- elem_of_list_In, elem_of_nrange in H.
    specialize (H Hk'). rewrite Eo' in H. apply negb_true_iff in H. apply not_true_iff_false in H. apply H.
    apply existsb_exists. exists d. split; [|apply N.eqb_refl]. apply elem_of_list_In. by eapply touch_list_complete.
Qed.

Definition callees (h : heap) (c : circuit) : list nat :=
  flat_map (fun p => match snd p with
    | GModule _ _ _ _ mid => match h_stor h !! c_storage c with
      | Some x => match module_map x !! mid with Some l' => [l'] | None => [] end
      | None => [] end
    | _ => [] end) (map_to_list (gate_map c)).
Lemma callees_complete h c l' : calls h c l' -> l' ∈ callees h c.
Proof.
  intros (g & il & ol & ids & oi & mid & x & G & S & M). unfold callees. apply elem_of_list_In, in_flat_map.
  exists (g, GModule il ol ids oi mid). split; [by apply elem_of_list_In, elem_of_map_to_list|]. simpl. rewrite S, M. by left.
Qed.
Fixpoint evaluable_b (h : heap) (n : nat) (l : nat) : bool :=
  match n with
  | O => false
  | S n => match h_circ h !! l with
    | None => false
    | Some c => outputs_ok_b c && forallb (evaluable_b h n) (callees h c)
    end
  end.
Lemma evaluable_b_sound h n l : dinv h -> evaluable_b h n l = true -> evaluable h l.
Proof.
  intros D. revert l. induction n as [|n IH]; intros l; simpl; [done|].
  destruct (h_circ h !! l) as [c|] eqn:E; [|done]. intros [H1 H2]%andb_true_iff. econstructor; [exact E| |].
  - eapply (outputs_ok_b_sound h); [exact (hi_circ h (di_inv h D) l c E)|exact (di_disc h D l c E)|done].
  - intros l' Hc. apply IH. rewrite forallb_forall in H2. apply H2. by apply elem_of_list_In, callees_complete.
Qed.
