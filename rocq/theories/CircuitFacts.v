(** Elementary facts about the circuit-building functions. *)
From Verif Require Export Circuit.

Notation deps := c_get_depended_gates.
Definition occ (g : N) (ids : list N) : nat := count_occ N.eq_dec ids g.

(** Operands of a gate, with multiplicity. *)
Definition operands (gt : gate) : list N :=
  match gt with
  | GInput _ | GConst _ => []
  | GNot a => [a]
  | GXor a b | GAnd a b | GOr a b => [a; b]
  | GModule _ _ ids _ _ => ids
  end.

Definition gate_oi (gt : gate) : N := match gt with GModule _ _ _ oi _ => oi | _ => 0 end.

Lemma deps_add_dependence c i s g :
  deps (add_dependence c i s) g = deps c g ++ (if decide (i = g) then [s] else []).
Proof.
  unfold c_get_depended_gates, add_dependence. simpl. destruct (decide (i = g)) as [->|].
  - rewrite lookup_insert. reflexivity.
  - rewrite lookup_insert_ne by done. rewrite app_nil_r. reflexivity.
Qed.

(** Everything but the dependence map. *)
Definition same_but_deps (c c' : circuit) : Prop :=
  input_map c' = input_map c /\ output_map c' = output_map c /\ gate_map c' = gate_map c /\ c_storage c' = c_storage c /\
  const_gates c' = const_gates c /\ input_len c' = input_len c /\ output_len c' = output_len c /\ num_wire c' = num_wire c /\
  num_gate c' = num_gate c /\ num_const c' = num_const c /\ gate_index c' = gate_index c.

Lemma same_but_deps_refl c : same_but_deps c c.
Proof. repeat split. Qed.
Lemma same_but_deps_trans a b c : same_but_deps a b -> same_but_deps b c -> same_but_deps a c.
Proof. unfold same_but_deps. intuition congruence. Qed.

Lemma inner_deps_spec c i outs :
  same_but_deps c (fold_left (fun c o => add_dependence c i o) outs c) /\
  forall g, deps (fold_left (fun c o => add_dependence c i o) outs c) g = deps c g ++ (if decide (i = g) then outs else []).
Proof.
  revert c. induction outs as [|o outs IH]; intros c; simpl.
  - split; [apply same_but_deps_refl|]. intros g. destruct decide; by rewrite app_nil_r.
  - destruct (IH (add_dependence c i o)) as [H1 H2]. split.
    + eapply same_but_deps_trans; [|exact H1]. repeat split.
    + intros g. rewrite H2, deps_add_dependence. destruct decide; [|by rewrite !app_nil_r].
      by rewrite <- app_assoc.
Qed.

Lemma module_deps_spec c ids outs :
  same_but_deps c (add_module_deps c ids outs) /\
  forall g, deps (add_module_deps c ids outs) g = deps c g ++ concat (replicate (occ g ids) outs).
Proof.
  unfold add_module_deps. revert c. induction ids as [|i ids IH]; intros c; simpl.
  - split; [apply same_but_deps_refl|]. intros g. by rewrite app_nil_r.
  - destruct (inner_deps_spec c i outs) as [H1 H2].
    destruct (IH (fold_left (fun c o => add_dependence c i o) outs c)) as [H3 H4]. split.
    + by eapply same_but_deps_trans.
    + intros g. rewrite H4, H2. unfold occ. simpl.
      destruct (N.eq_dec i g), (decide (i = g)); try done; simpl; by rewrite <- ?app_assoc, ?app_nil_r.
Qed.

(** [add_module_gates] appends [k] module gates with consecutive ids and consecutive output indices. *)
Lemma add_module_gates_spec k c il ol ids mid i outs c' :
  add_module_gates c il ol ids mid i k = (outs, c') ->
  outs = map (fun j => gate_index c + j) (nrange (N.of_nat k)) /\
  gate_index c' = gate_index c + N.of_nat k /\ num_wire c' = (num_wire c + Z.of_nat k)%Z /\
  (forall g, gate_map c' !! g =
     if decide (gate_index c <= g < gate_index c + N.of_nat k) then Some (GModule il ol ids (i + (g - gate_index c)) mid)
     else gate_map c !! g) /\
  input_map c' = input_map c /\ output_map c' = output_map c /\ c_storage c' = c_storage c /\ dep_map c' = dep_map c /\
  const_gates c' = const_gates c /\ input_len c' = input_len c /\ output_len c' = output_len c /\
  num_gate c' = num_gate c /\ num_const c' = num_const c.
Proof.
  revert c i outs c'. induction k as [|k IH]; intros c i outs c' H.
  - simpl in H. injection H as <- <-. cbn.
    split; [done|]. split; [lia|]. split; [lia|]. split; [|by repeat split].
    intros g. destruct decide; [lia|done].
  - cbn [add_module_gates] in H.
    destruct (add_gate c _) as [g0 c1] eqn:Hg. destruct (add_module_gates c1 _ _ _ _ _ k) as [gs c2] eqn:Hr.
    injection H as <- <-. unfold add_gate in Hg. injection Hg as <- <-.
    apply IH in Hr as (-> & Hgi & Hnw & Hgm & Hrest). cbn [gate_index num_wire gate_map] in *.
    split.
    { rewrite nrange_S_l. simpl. f_equal; [lia|]. rewrite map_map. apply map_ext. intros. lia. }
    split; [lia|]. split; [lia|]. split; [|exact Hrest].
    intros g. rewrite Hgm. repeat destruct decide; try lia.
    + do 2 f_equal. lia.
    + replace g with (gate_index c) by lia. rewrite lookup_insert. do 2 f_equal. lia.
    + rewrite lookup_insert_ne by lia. done.
Qed.

(** What a successful [module] call does to the caller. *)
Lemma c_module_spec md c m mid ids outs c' :
  c_module md c m mid ids = Some (outs, c') ->
  (md = Debug -> (Z.of_N (input_len m) + Z.of_N (output_len m) <= num_wire m)%Z) /\
  outs = map (fun j => gate_index c + j) (nrange (output_len m)) /\
  gate_index c' = gate_index c + output_len m /\
  num_wire c' = (num_wire c + (num_wire m - Z.of_N (input_len m)))%Z /\
  (forall g, gate_map c' !! g =
     if decide (gate_index c <= g < gate_index c + output_len m)
     then Some (GModule (input_len m) (output_len m) ids (g - gate_index c) mid) else gate_map c !! g) /\
  (forall g, deps c' g = deps c g ++ concat (replicate (occ g ids) outs)) /\
  input_map c' = input_map c /\ output_map c' = output_map c /\ c_storage c' = c_storage c /\
  const_gates c' = const_gates c /\ input_len c' = input_len c /\ output_len c' = output_len c /\
  num_gate c' = num_gate c + num_gate m /\ num_const c' = num_const c + num_const m.
Proof.
  unfold c_module. intros H.
  set (d := (num_wire m - Z.of_N (input_len m) - Z.of_N (output_len m))%Z) in *.
  assert (Hd : md = Debug -> (0 <= d)%Z).
  { intros ->. destruct (d <? 0)%Z eqn:E; [done|]. lia. }
  set (c1 := Circuit _ _ _ _ _ _ _ _ _ _ _ _) in *.
  assert (H' : (let (outs, c2) := add_module_gates c1 (input_len m) (output_len m) ids mid 0 (N.to_nat (output_len m)) in
            Some (outs, add_module_deps c2 ids outs)) = Some (outs, c')).
  { destruct md; [|done]. destruct (d <? 0)%Z; done. }
  clear H. destruct (add_module_gates _ _ _ _ _ _ _) as [os c2] eqn:Ha. injection H' as <- <-.
  apply add_module_gates_spec in Ha as (-> & H1 & H2 & H3 & H4 & H5 & H6 & H7 & H8 & H9 & H10 & H11 & H12).
  rewrite N2Nat.id in *.
  destruct (module_deps_spec c2 ids (map (fun j => gate_index c1 + j) (nrange (output_len m)))) as [Hs Hdeps].
  destruct Hs as (S1 & S2 & S3 & S4 & S5 & S6 & S7 & S8 & S9 & S10 & S11).
  rewrite S1, S2, S4, S5, S6, S7, S8, S9, S10, S11. cbn [c1 gate_index num_wire gate_map input_map output_map c_storage dep_map
    const_gates input_len output_len num_gate num_const] in *.
  split; [intros E; specialize (Hd E); lia|].
  split; [done|]. split; [lia|]. split; [lia|]. split.
  { intros g. rewrite S3, H3. destruct decide; done. }
  split.
  { intros g. rewrite Hdeps. f_equal. unfold c_get_depended_gates. rewrite H7. done. }
  repeat split; done.
Qed.

Lemma occ_in g ids : g ∈ ids <-> (0 < occ g ids)%nat.
Proof. unfold occ. rewrite elem_of_list_In. apply (count_occ_In N.eq_dec). Qed.
Lemma occ_not_in g ids : g ∉ ids <-> occ g ids = O.
Proof. unfold occ. rewrite elem_of_list_In. apply (count_occ_not_In N.eq_dec). Qed.
