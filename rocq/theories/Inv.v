(** Invariants of every reachable heap (any history of API calls, dangling ids and failing calls included). *)
From Verif Require Export Effects.

(** Contribution of gate [d] to the list of consumers of [g]: a logic gate names itself once per occurrence of [g] among its
    operands; the first gate of a module block names the whole block once per occurrence. *)
Definition contrib (gm : gmap N gate) (g d : N) : list N :=
  match gm !! d with
  | Some (GModule il ol ids oi mid) =>
    if oi =? 0 then concat (replicate (occ g ids) (map (fun j => d + j) (nrange ol))) else []
  | Some gt => replicate (occ g (operands gt)) d
  | None => []
  end.
Definition const_at (gm : gmap N gate) (d : N) : bool :=
  match gm !! d with Some gt => is_const gt | None => false end.

Record cwf (c : circuit) : Prop := {
  wf_gates : forall g, is_Some (gate_map c !! g) <-> g < gate_index c;
  wf_inputs : forall w, w < input_len c -> exists g, input_map c !! w = Some (Some g) /\ gate_map c !! g = Some (GInput w);
  wf_inputs_none : forall w, input_len c <= w -> input_map c !! w = None;
  wf_input_gates : forall g w, gate_map c !! g = Some (GInput w) -> input_map c !! w = Some (Some g);
  wf_outputs : forall w, w < output_len c -> exists g, output_map c !! w = Some g /\ is_Some (gate_map c !! g);
  wf_outputs_none : forall w, output_len c <= w -> output_map c !! w = None;
  wf_consts : const_gates c = List.filter (const_at (gate_map c)) (nrange (gate_index c));
  wf_deps : forall g, deps c g = flat_map (contrib (gate_map c) g) (nrange (gate_index c));
  wf_blocks : forall g il ol ids oi mid, gate_map c !! g = Some (GModule il ol ids oi mid) ->
    oi < ol /\ oi <= g /\ forall j, j < ol -> gate_map c !! (g - oi + j) = Some (GModule il ol ids j mid);
  wf_wires : num_wire c = Z.of_N (input_len c + num_const c + num_gate c);
}.

Lemma cwf_new s : cwf (circuit_new s).
Proof.
  split; simpl; intros; try done; try lia.
  rewrite lookup_empty. split; [intros [? ?]; done|lia].
Qed.

Lemma flat_map_ext_in {A B} (f g : A -> list B) xs : (forall x, x ∈ xs -> f x = g x) -> flat_map f xs = flat_map g xs.
Proof.
  induction xs as [|x xs IH]; intros H; simpl; [done|]. f_equal; [apply H; left|]. apply IH. intros. apply H. by right.
Qed.
Lemma filter_ext_in' {A} (f g : A -> bool) xs : (forall x, x ∈ xs -> f x = g x) -> List.filter f xs = List.filter g xs.
Proof. intros H. apply List.filter_ext_in. intros. apply H. by apply elem_of_list_In. Qed.

Lemma nrange_add n k : nrange (n + k) = nrange n ++ map (fun j => n + j) (nrange k).
Proof.
  unfold nrange. rewrite N2Nat.inj_add, seq_app, map_app. f_equal. simpl.
  rewrite map_map. rewrite <- (Nat.add_0_r (N.to_nat n)) at 1.
  generalize 0%nat as a. generalize (N.to_nat k) as m.
  induction m as [|m IH]; intros a; simpl; [done|]. f_equal; [lia|].
  rewrite <- IH. do 2 f_equal. lia.
Qed.

Lemma gm_none_ge c g : cwf c -> gate_map c !! g = None <-> gate_index c <= g.
Proof.
  intros H. pose proof (wf_gates c H g) as Hg. destruct (gate_map c !! g) eqn:E.
  - split; [done|]. intros. assert (g < gate_index c) by (apply Hg; eauto). lia.
  - split; [|done]. intros _. destruct (decide (g < gate_index c)) as [Hlt|]; [|lia].
    apply Hg in Hlt as [? ?]. done.
Qed.
Lemma gm_lt c g gt : cwf c -> gate_map c !! g = Some gt -> g < gate_index c.
Proof. intros H E. apply (wf_gates c H). eauto. Qed.

Lemma push_lookup c gt c' g : push c gt c' ->
  gate_map c' !! g = if decide (g = gate_index c) then Some gt else gate_map c !! g.
Proof.
  intros H. rewrite (p_gm _ _ _ H). destruct decide as [->|].
  - apply lookup_insert. - by apply lookup_insert_ne.
Qed.

Lemma push_mono c gt c' g x : cwf c -> push c gt c' -> gate_map c !! g = Some x -> gate_map c' !! g = Some x.
Proof.
  intros Hw Hp E. rewrite (push_lookup _ _ _ _ Hp). destruct decide as [->|]; [|done].
  apply gm_lt in E; [lia|done].
Qed.

Lemma cwf_push c gt c' : cwf c -> push c gt c' -> cwf c'.
Proof.
  intros H Hp. pose proof (fun g => push_lookup c gt c' g Hp) as Hlk.
  pose proof Hp as [K1 K2 K3 K4 K5 K6 K7 K8 K9 K10 K11 K12 K13 K14].
  assert (Hlt : forall x, x < gate_index c -> gate_map c' !! x = gate_map c !! x).
  { intros x Hx. rewrite Hlk. destruct decide; [lia|done]. }
  split.
  - intros g. rewrite Hlk, K3. destruct decide as [->|]; [split; [lia|eauto]|].
    rewrite (wf_gates c H). lia.
  - intros w Hw. rewrite K7, K8 in *. destruct (is_input gt) eqn:Ei.
    + destruct gt; try done. subst w0. destruct (decide (w = input_len c)) as [->|].
      * exists (gate_index c). rewrite lookup_insert. split; [done|]. rewrite Hlk. by rewrite decide_True.
      * destruct (wf_inputs c H w) as (g & E1 & E2); [lia|]. exists g. rewrite lookup_insert_ne by done.
        split; [done|]. eapply push_mono; eauto.
    + destruct (wf_inputs c H w) as (g & E1 & E2); [lia|]. exists g. split; [done|]. eapply push_mono; eauto.
  - intros w Hw. rewrite K7, K8 in *. destruct (is_input gt).
    + rewrite lookup_insert_ne by lia. apply (wf_inputs_none c H). lia.
    + apply (wf_inputs_none c H). lia.
  - intros g w. rewrite Hlk, K7. destruct decide as [->|].
    + intros [= ->]. simpl. subst w. by rewrite lookup_insert.
    + intros E. pose proof (wf_input_gates c H _ _ E) as E'. destruct (is_input gt); [|done].
      rewrite lookup_insert_ne; [done|]. intros <-. rewrite (wf_inputs_none c H) in E'; [done|lia].
  - intros w Hw. rewrite K9, K10 in *. destruct (wf_outputs c H w Hw) as (g & E & x & E2).
    exists g. split; [done|]. exists x. eapply push_mono; eauto.
  - intros w Hw. rewrite K9, K10 in *. by apply (wf_outputs_none c H).
  - rewrite K5, K3, nrange_succ, List.filter_app, (wf_consts c H). f_equal.
    + apply filter_ext_in'. intros x Hx%elem_of_nrange. unfold const_at. by rewrite Hlt.
    + simpl. unfold const_at. rewrite Hlk, decide_True by done. done.
  - intros g. rewrite K4, K3, nrange_succ, flat_map_app, (wf_deps c H). f_equal.
    + apply flat_map_ext_in. intros x Hx%elem_of_nrange. unfold contrib. by rewrite Hlt.
    + simpl. rewrite app_nil_r. unfold contrib. rewrite Hlk, decide_True by done. destruct gt; done.
  - intros g il ol ids oi mid. rewrite Hlk. destruct decide as [->|].
    + intros [= ->]. done.
    + intros E. destruct (wf_blocks c H _ _ _ _ _ _ E) as (B1 & B2 & B3). split; [done|]. split; [done|].
      intros j Hj. eapply push_mono; eauto.
  - rewrite K12, K8, K13, K14, (wf_wires c H). destruct gt; simpl; lia || done.
Qed.

Lemma cwf_push_out c g c' : cwf c -> push_out c g c' -> cwf c'.
Proof.
  intros H [[gt Hg] ->]. split; simpl; try apply H.
  - intros w Hw. destruct (decide (w = output_len c)) as [->|].
    + exists g. rewrite lookup_insert. eauto.
    + rewrite lookup_insert_ne by done. apply (wf_outputs c H). lia.
  - intros w Hw. rewrite lookup_insert_ne by lia. apply (wf_outputs_none c H). lia.
Qed.

Lemma push_mod_mono c m mid ids outs c' g x :
  cwf c -> push_mod c m mid ids outs c' -> gate_map c !! g = Some x -> gate_map c' !! g = Some x.
Proof.
  intros Hw Hp E. rewrite (pm_gm _ _ _ _ _ _ Hp). apply gm_lt in E as E'; [|done]. destruct decide; [lia|done].
Qed.

Lemma cwf_push_mod c m mid ids outs c' : cwf c -> cwf m -> push_mod c m mid ids outs c' -> cwf c'.
Proof.
  intros H Hm Hp. pose proof (pm_gm _ _ _ _ _ _ Hp) as Hlk.
  pose proof Hp as [K1 K2 K3 _ K5 K6 K7 K8 K9 K10 K11 K12 K13].
  assert (Hlt : forall x, x < gate_index c -> gate_map c' !! x = gate_map c !! x).
  { intros x Hx. rewrite Hlk. destruct decide; [lia|done]. }
  split.
  - intros g. rewrite Hlk, K2. destruct decide; [split; [lia|eauto]|]. rewrite (wf_gates c H). lia.
  - intros w. rewrite K10, K6. intros Hw. destruct (wf_inputs c H w Hw) as (g & E1 & E2).
    exists g. split; [done|]. by eapply (push_mod_mono c).
  - intros w. rewrite K10, K6. apply (wf_inputs_none c H).
  - intros g w. rewrite Hlk, K6. destruct decide; [done|]. apply (wf_input_gates c H).
  - intros w. rewrite K7, K11. intros Hw. destruct (wf_outputs c H w Hw) as (g & E & x & E2).
    exists g. split; [done|]. exists x. by eapply (push_mod_mono c).
  - intros w. rewrite K7, K11. apply (wf_outputs_none c H).
  - rewrite K9, K2, nrange_add, List.filter_app, (wf_consts c H).
    rewrite <- (app_nil_r (List.filter (const_at (gate_map c)) _)). f_equal.
    + apply filter_ext_in'. intros x Hx%elem_of_nrange. unfold const_at. by rewrite Hlt.
    + symmetry. assert (G : forall xs, (forall x, x ∈ xs -> const_at (gate_map c') x = false) ->
        List.filter (const_at (gate_map c')) xs = []).
      { induction xs as [|x xs IH]; intros G; simpl; [done|]. rewrite G by left. apply IH. intros. apply G. by right. }
      apply G. intros x (j & -> & Hj%elem_of_nrange)%elem_of_list_fmap. unfold const_at. rewrite Hlk.
      destruct decide; [done|lia].
  - intros g. rewrite K5, K2, nrange_add, flat_map_app, (wf_deps c H). f_equal.
    + apply flat_map_ext_in. intros x Hx%elem_of_nrange. unfold contrib. by rewrite Hlt.
    + subst outs. destruct (decide (output_len m = 0)) as [E0|].
      { rewrite E0. simpl. induction (occ g ids); done. }
      assert (Hfst : contrib (gate_map c') g (gate_index c) =
        concat (replicate (occ g ids) (map (fun j => gate_index c + j) (nrange (output_len m))))).
      { unfold contrib. rewrite Hlk. destruct decide; [|lia]. by rewrite N.sub_diag. }
      assert (Hrest : forall j, j < output_len m -> j <> 0 -> contrib (gate_map c') g (gate_index c + j) = []).
      { intros j Hj Hj0. unfold contrib. rewrite Hlk. destruct decide; [|lia].
        replace (_ =? 0) with false; [done|]. symmetry. apply N.eqb_neq. lia. }
      replace (output_len m) with (N.of_nat (S (N.to_nat (output_len m - 1)))) at 2 by lia.
      rewrite nrange_S_l. cbn [map flat_map]. rewrite N.add_0_r, Hfst.
      rewrite <- (app_nil_r (concat _)) at 1. f_equal.
      assert (G : forall xs, (forall x, x ∈ xs -> contrib (gate_map c') g x = []) -> flat_map (contrib (gate_map c') g) xs = []).
      { induction xs as [|x xs IH]; intros G; simpl; [done|]. rewrite G by left. apply IH. intros. apply G. by right. }
      symmetry. apply G. intros x (y & -> & (j & -> & Hj%elem_of_nrange)%elem_of_list_fmap)%elem_of_list_fmap.
      apply Hrest; lia.
  - intros g il ol ids' oi mid'. rewrite Hlk. destruct decide.
    + intros [= <- <- <- <- <-]. split; [lia|]. split; [lia|]. intros j Hj. rewrite Hlk. destruct decide; [|lia].
      do 2 f_equal. lia.
    + intros E. destruct (wf_blocks c H _ _ _ _ _ _ E) as (B1 & B2 & B3). split; [done|]. split; [done|].
      intros j Hj. by eapply (push_mod_mono c), B3.
  - rewrite K3, K10, K12, K13, (wf_wires c H), (wf_wires m Hm). lia.
Qed.

(** * Heap level *)
Record hinv (h : heap) : Prop := {
  hi_circ : forall l c, h_circ h !! l = Some c -> cwf c;
  hi_stor : forall l c, h_circ h !! l = Some c -> is_Some (h_stor h !! c_storage c);
  hi_mods : forall s x, h_stor h !! s = Some x -> forall mid,
    (mid < num_module x -> exists l' c', module_map x !! mid = Some l' /\ h_circ h !! l' = Some c') /\
    (num_module x <= mid -> module_map x !! mid = None);
  hi_calls : forall l c g il ol ids oi mid, h_circ h !! l = Some c -> gate_map c !! g = Some (GModule il ol ids oi mid) ->
    exists x l' m, h_stor h !! c_storage c = Some x /\ module_map x !! mid = Some l' /\ h_circ h !! l' = Some m /\
      il <= input_len m /\ ol <= output_len m;
}.

(** Growth of a circuit and of the heap. *)
Record cle (c c' : circuit) : Prop := {
  cle_gates : gate_map c ⊆ gate_map c';
  cle_outs : output_map c ⊆ output_map c';
  cle_ins : input_map c ⊆ input_map c';
  cle_st : c_storage c' = c_storage c;
  cle_il : input_len c <= input_len c';
  cle_ol : output_len c <= output_len c';
  cle_gi : gate_index c <= gate_index c';
  cle_consts : const_gates c `prefix_of` const_gates c';
}.
Record hle (h h' : heap) : Prop := {
  hle_circ : forall l c, h_circ h !! l = Some c -> exists c', h_circ h' !! l = Some c' /\ cle c c';
  hle_stor : forall s x, h_stor h !! s = Some x -> exists x', h_stor h' !! s = Some x' /\ module_map x ⊆ module_map x' /\
    num_module x <= num_module x';
}.
Lemma cle_refl c : cle c c.
Proof. split; done. Qed.
Lemma cle_trans a b c : cle a b -> cle b c -> cle a c.
Proof. intros [] []. split; etrans; eauto. Qed.
Lemma hle_refl h : hle h h.
Proof. split; intros; eexists; eauto using cle_refl. Qed.
Lemma hle_trans a b c : hle a b -> hle b c -> hle a c.
Proof.
  intros [A1 A2] [B1 B2]. split.
  - intros l x E. destruct (A1 _ _ E) as (y & E1 & L1). destruct (B1 _ _ E1) as (z & E2 & L2).
    exists z. split; [done|]. by eapply cle_trans.
  - intros s x E. destruct (A2 _ _ E) as (y & E1 & L1 & N1). destruct (B2 _ _ E1) as (z & E2 & L2 & N2).
    exists z. split; [done|]. split; [by etrans|lia].
Qed.

Lemma cle_push c gt c' : cwf c -> push c gt c' -> cle c c'.
Proof.
  intros H Hp. split; try (rewrite ?(p_om _ _ _ Hp), ?(p_il _ _ _ Hp), ?(p_ol _ _ _ Hp), ?(p_gi _ _ _ Hp); done || lia).
  - apply map_subseteq_spec. intros. eapply push_mono; eauto.
  - rewrite (p_im _ _ _ Hp). destruct (is_input gt); [|done]. apply insert_subseteq. apply (wf_inputs_none c H). lia.
  - apply (p_st _ _ _ Hp).
  - rewrite (p_const _ _ _ Hp). by eexists.
Qed.
Lemma cle_push_out c g c' : cwf c -> push_out c g c' -> cle c c'.
Proof.
  intros H [_ ->]. split; simpl; try done; try lia. apply insert_subseteq. apply (wf_outputs_none c H). lia.
Qed.
Lemma cle_push_mod c m mid ids outs c' : cwf c -> push_mod c m mid ids outs c' -> cle c c'.
Proof.
  intros H Hp. pose proof Hp as [K1 K2 K3 _ K5 K6 K7 K8 K9 K10 K11 K12 K13].
  split; rewrite ?K2, ?K6, ?K7, ?K8, ?K9, ?K10, ?K11; try done; try lia.
  apply map_subseteq_spec. intros. by eapply (push_mod_mono c).
Qed.

Lemma hle_upd h l c c' : h_circ h !! l = Some c -> cle c c' -> hle h (upd h l c').
Proof.
  intros H L. split.
  - intros l' x E. destruct (decide (l' = l)) as [->|].
    + exists c'. split; [by eapply upd_lookup|]. congruence.
    + exists x. rewrite upd_lookup_ne by done. split; [done|]. apply cle_refl.
  - intros s x E. exists x. split; [done|]. split; [done|lia].
Qed.
Lemma add_circ_old h c l x : h_circ h !! l = Some x -> h_circ (add_circ h c) !! l = Some x.
Proof. intros E. simpl. by apply lookup_app_l_Some. Qed.
Lemma add_circ_inv h c l x : h_circ (add_circ h c) !! l = Some x -> h_circ h !! l = Some x \/ (l = length (h_circ h) /\ x = c).
Proof.
  simpl. rewrite lookup_app. destruct (h_circ h !! l) as [y|] eqn:E; [by left|].
  intros [E1 ->]%list_lookup_singleton_Some. right. split; [|done]. apply lookup_ge_None in E. lia.
Qed.
Lemma hle_add_circ h c : hle h (add_circ h c).
Proof.
  split.
  - intros l x E. exists x. split; [by apply add_circ_old|apply cle_refl].
  - intros s x E. exists x. split; [done|]. split; [done|lia].
Qed.

Lemma hle_eff md h h' : hinv h -> eff md h h' -> hle h h'.
Proof.
  intros H He. destruct He as [l c gt c' E Hp|l c g c' E Hp|l c s x l' m mid ids outs c' E Es Ex Em Hne Em' Hw Hp|
    |s x E|l c E|s x l' c' E E'].
  - eapply hle_upd; [done|]. eapply cle_push; [|done]. by eapply hi_circ.
  - eapply hle_upd; [done|]. eapply cle_push_out; [|done]. by eapply hi_circ.
  - eapply hle_upd; [done|]. eapply cle_push_mod; [|done]. by eapply hi_circ.
  - split; simpl.
    + intros l c E. exists c. split; [done|apply cle_refl].
    + intros s x E. exists x. split; [by apply lookup_app_l_Some|]. split; [done|lia].
  - apply hle_add_circ.
  - apply hle_add_circ.
  - split; simpl.
    + intros l c E1. exists c. split; [done|apply cle_refl].
    + intros s' x' E1. destruct (decide (s' = s)) as [->|].
      * replace x' with x in * by congruence. eexists. rewrite list_lookup_insert by (by eapply lookup_lt_Some).
        split; [done|]. simpl. split; [|lia]. apply insert_subseteq.
        apply (hi_mods h H s x E). lia.
      * exists x'. rewrite list_lookup_insert_ne by done. split; [done|]. split; [done|lia].
Qed.

Lemma hi_calls_mono h h' c c' g il ol ids oi mid : hle h h' -> c_storage c' = c_storage c ->
  (exists x l' m, h_stor h !! c_storage c = Some x /\ module_map x !! mid = Some l' /\ h_circ h !! l' = Some m /\
      il <= input_len m /\ ol <= output_len m) ->
  gate_map c' !! g = Some (GModule il ol ids oi mid) ->
  exists x l' m, h_stor h' !! c_storage c' = Some x /\ module_map x !! mid = Some l' /\ h_circ h' !! l' = Some m /\
      il <= input_len m /\ ol <= output_len m.
Proof.
  intros L -> (x & l' & m & E1 & E2 & E3 & ? & ?) _.
  destruct (hle_stor _ _ L _ _ E1) as (x' & E1' & Hsub & _). destruct (hle_circ _ _ L _ _ E3) as (m' & E3' & Lm).
  exists x', l', m'. split; [done|]. split; [by eapply lookup_weaken|]. split; [done|].
  destruct Lm. split; lia.
Qed.

Lemma hinv_upd h l c c' : hinv h -> h_circ h !! l = Some c -> cwf c' -> cle c c' ->
  (forall g il ol ids oi mid, gate_map c' !! g = Some (GModule il ol ids oi mid) -> gate_map c !! g <> Some (GModule il ol ids oi mid) ->
    exists x l' m, h_stor h !! c_storage c = Some x /\ module_map x !! mid = Some l' /\ h_circ h !! l' = Some m /\
      il <= input_len m /\ ol <= output_len m) ->
  hinv (upd h l c').
Proof.
  intros H E Hw L Hnew. pose proof (hle_upd h l c c' E L) as HL. split.
  - intros l2 c2 E2. destruct (decide (l2 = l)) as [->|].
    + erewrite upd_lookup in E2 by done. congruence.
    + rewrite upd_lookup_ne in E2 by done. by eapply hi_circ.
  - intros l2 c2 E2. simpl. destruct (decide (l2 = l)) as [->|].
    + erewrite upd_lookup in E2 by done. injection E2 as <-. rewrite (cle_st _ _ L). by eapply hi_stor.
    + rewrite upd_lookup_ne in E2 by done. by eapply hi_stor.
  - intros s x Ex mid. destruct (hi_mods h H s x Ex mid) as [M1 M2]. split; [|done]. intros Hm.
    destruct (M1 Hm) as (l' & m & Em & El'). destruct (hle_circ _ _ HL _ _ El') as (m' & ? & _). eauto.
  - intros l2 c2 g il ol ids oi mid E2 G. destruct (decide (l2 = l)) as [->|].
    + erewrite upd_lookup in E2 by done. injection E2 as <-.
      eapply (hi_calls_mono h); [done|by apply (cle_st _ _ L)| |done].
      destruct (decide (gate_map c !! g = Some (GModule il ol ids oi mid))) as [G'|G'].
      * by eapply hi_calls.
      * by eapply Hnew.
    + rewrite upd_lookup_ne in E2 by done. eapply (hi_calls_mono h); [done|done| |done]. by eapply hi_calls.
Qed.

Lemma hinv_add_circ h c : hinv h -> cwf c -> is_Some (h_stor h !! c_storage c) ->
  (forall g il ol ids oi mid, gate_map c !! g = Some (GModule il ol ids oi mid) ->
    exists x l' m, h_stor h !! c_storage c = Some x /\ module_map x !! mid = Some l' /\ h_circ h !! l' = Some m /\
      il <= input_len m /\ ol <= output_len m) ->
  hinv (add_circ h c).
Proof.
  intros H Hw Hs Hc. split.
  - intros l2 c2 [E2|[_ ->]]%add_circ_inv; [by eapply hi_circ|done].
  - intros l2 c2 [E2|[_ ->]]%add_circ_inv; [by eapply (hi_stor h)|done].
  - intros s x Ex mid. destruct (hi_mods h H s x Ex mid) as [M1 M2]. split; [|done]. intros Hm.
    destruct (M1 Hm) as (l' & m & Em & El'). exists l', m. split; [done|]. by apply add_circ_old.
  - intros l2 c2 g il ol ids oi mid E2 G. apply add_circ_inv in E2.
    eapply (hi_calls_mono h _ c2 c2); [apply hle_add_circ|done| |done].
    destruct E2 as [E2|[_ ->]]; [by eapply hi_calls|by eapply Hc].
Qed.

Lemma hinv_eff md h h' : hinv h -> eff md h h' -> hinv h'.
Proof.
  intros H He. pose proof (hle_eff md h h' H He) as L.
  destruct He as [l c gt c' E Hp|l c g c' E Hp|l c s x l' m mid ids outs c' E Es Ex Em Hne Em' Hw Hp|
    |s x E|l c E|s x l' c' E E'].
  - assert (Hc : cwf c) by (by eapply hi_circ). eapply hinv_upd; [done|done|by eapply cwf_push|by eapply cle_push|].
    intros g il ol ids oi mid G G'. rewrite (push_lookup _ _ _ _ Hp) in G. destruct decide; [|done].
    injection G as ->. pose proof (p_kind _ _ _ Hp). done.
  - assert (Hc : cwf c) by (by eapply hi_circ). eapply hinv_upd; [done|done|by eapply cwf_push_out|by eapply cle_push_out|].
    intros g' il ol ids oi mid G G'. destruct Hp as [_ ->]. done.
  - assert (Hc : cwf c) by (by eapply hi_circ). assert (Hcm : cwf m) by (by eapply (hi_circ h)).
    eapply hinv_upd; [done|done|by eapply (cwf_push_mod c m)|by eapply (cle_push_mod c m)|].
    intros g' il ol ids' oi mid' G G'. rewrite (pm_gm _ _ _ _ _ _ Hp) in G. destruct decide; [|done].
    injection G as <- <- <- <- <-. exists x, l', m. subst s. done.
  - split; simpl.
    + apply H.
    + intros l c E. destruct (hi_stor h H l c E) as [x Ex]. exists x. by apply lookup_app_l_Some.
    + intros s x Ex mid. rewrite lookup_app in Ex. destruct (h_stor h !! s) as [y|] eqn:Ey.
      * injection Ex as <-. by apply (hi_mods h H s).
      * apply list_lookup_singleton_Some in Ex as [_ <-]. simpl. split; [lia|]. intros. apply lookup_empty.
    + intros l c g il ol ids oi mid E G. eapply (hi_calls_mono h _ c c) in L; [exact L|done| |done]. by eapply (hi_calls h).
  - apply hinv_add_circ; [done|apply cwf_new|by eexists|]. simpl. intros g il ol ids oi mid G. by rewrite lookup_empty in G.
  - apply hinv_add_circ; [done|by eapply hi_circ|by eapply hi_stor|]. intros. by eapply hi_calls.
  - assert (Hs : (s < length (h_stor h))%nat) by (by eapply lookup_lt_Some).
    split; simpl.
    + apply H.
    + intros l c E1. destruct (hi_stor h H l c E1) as [y Ey]. destruct (hle_stor _ _ L _ _ Ey) as (y' & ? & _). by eexists.
    + intros s' x' Ex mid. destruct (decide (s' = s)) as [->|].
      * rewrite list_lookup_insert in Ex by done. injection Ex as <-. simpl.
        destruct (hi_mods h H s x E mid) as [M1 M2]. split.
        -- intros Hm. destruct (decide (mid = num_module x)) as [->|].
           ++ rewrite lookup_insert. eauto.
           ++ rewrite lookup_insert_ne by done. apply M1. lia.
        -- intros Hm. rewrite lookup_insert_ne by lia. apply M2. lia.
      * rewrite list_lookup_insert_ne in Ex by done. by apply (hi_mods h H s').
    + intros l c g il ol ids oi mid E1 G. eapply (hi_calls_mono h _ c c) in L; [exact L|done| |done]. by eapply (hi_calls h).
Qed.

Lemma hinv_empty : hinv heap_empty.
Proof. split; simpl; intros; done. Qed.

Theorem run_hinv md ops : hinv (run md ops).
Proof. apply run_ind; [apply hinv_empty|]. apply hinv_eff. Qed.

Lemma rtc_eff_hinv md h h' : hinv h -> rtc (eff md) h h' -> hinv h' /\ hle h h'.
Proof.
  intros H Hr. induction Hr as [|a b c Hab _ IH]; [split; [done|apply hle_refl]|].
  destruct IH as [I1 I2]; [by eapply hinv_eff|]. split; [done|]. eapply hle_trans; [|done]. by eapply hle_eff.
Qed.
