(** Checking that a concrete history is disciplined. *)
From Verif Require Export Disc.

Definition uncalled_b (h : heap) (l : nat) : bool :=
  forallb (fun c1 => forallb (fun p => match snd p with
    | GModule _ _ _ _ mid =>
      match h_stor h !! c_storage c1 with
      | Some x => match module_map x !! mid with Some l' => negb (Nat.eqb l' l) | None => true end
      | None => true
      end
    | _ => true end) (map_to_list (gate_map c1))) (h_circ h).
Definition has_gate_b (h : heap) (l : nat) (g : N) : bool :=
  match h_circ h !! l with Some c => match gate_map c !! g with Some _ => true | None => false end | None => false end.
Definition dop_b (h : heap) (o : op) : bool :=
  match o with
  | OpNewStorage | OpNewCircuit _ | OpClone _ | OpRegister _ _ | OpSub _ | OpPut _ _ => true
  | OpInput l | OpOutput l _ | OpConst l _ => uncalled_b h l
  | OpNot l a | OpIdentity l a => uncalled_b h l && has_gate_b h l a
  | OpXor l a b | OpAnd l a b | OpOr l a b | OpEquivalent l a b => uncalled_b h l && has_gate_b h l a && has_gate_b h l b
  | OpModule l mid ids => uncalled_b h l && forallb (has_gate_b h l) ids &&
      match r_get_module l mid h with
      | (Ok l', _) => match h_circ h !! l' with
                      | Some m => (N.of_nat (length ids) =? input_len m) && (0 <? output_len m) | None => true end
      | _ => true end
  end.
Fixpoint disciplined_b (md : mode) (h : heap) (ops : list op) : bool :=
  match ops with [] => true | o :: ops => dop_b h o && disciplined_b md (step md h o) ops end.

Lemma uncalled_b_sound h l : uncalled_b h l = true -> uncalled h l.
Proof.
  unfold uncalled_b. intros Hb l1 c1 E1 (g & il & ol & ids & oi & mid & x & G & S & M).
  rewrite forallb_forall in Hb. specialize (Hb c1). rewrite <- elem_of_list_In in Hb.
  specialize (Hb ltac:(by eapply elem_of_list_lookup_2)). rewrite forallb_forall in Hb.
  specialize (Hb (g, GModule il ol ids oi mid)). rewrite <- elem_of_list_In, elem_of_map_to_list in Hb. specialize (Hb G).
  simpl in Hb. rewrite S, M, Nat.eqb_refl in Hb. done.
Qed.
Lemma has_gate_b_sound h l g : has_gate_b h l g = true -> has_gate h l g.
Proof.
  unfold has_gate_b, has_gate. destruct (h_circ h !! l) as [c|]; [|done]. destruct (gate_map c !! g) eqn:G; [|done]. eauto.
Qed.
Lemma dop_b_sound h o : dop_b h o = true -> dop h o.
Proof.
  destruct o; cbn [dop_b dop]; try done; rewrite ?andb_true_iff; intros Hb;
  try (destruct_and?; repeat split; by auto using uncalled_b_sound, has_gate_b_sound).
  destruct Hb as [ [H1 H2] H3]. split; [by apply uncalled_b_sound|]. split.
  - intros a Ha. rewrite forallb_forall in H2. apply has_gate_b_sound, H2. by apply elem_of_list_In.
  - intros l' h' m Er Em. rewrite Er, Em in H3. apply andb_true_iff in H3 as [H3 H4]. apply N.eqb_eq in H3. apply N.ltb_lt in H4. done.
Qed.
Lemma disciplined_b_sound md h ops : disciplined_b md h ops = true -> disciplined md h ops.
Proof.
  revert h. induction ops as [|o ops IH]; intros h; simpl; [done|]. intros [H1 H2]%andb_true_iff. split; [by apply dop_b_sound|auto].
Qed.
