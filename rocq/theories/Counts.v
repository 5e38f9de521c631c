(** The counters of a disciplined circuit count the gates of its expansion. *)
From Verif Require Export Disc OpFacts.

Definition callee (h : heap) (c : circuit) (mid : N) : option circuit :=
  match h_stor h !! c_storage c with
  | Some x => match module_map x !! mid with Some l' => h_circ h !! l' | None => None end
  | None => None
  end.
(** What gate [g] adds to a counter: [own] for its own kind, [f] of the callee for the first gate of a module call. *)
Definition weight (own : gate -> bool) (f : circuit -> N) (h : heap) (c : circuit) (g : N) : N :=
  match gate_map c !! g with
  | Some (GModule _ _ _ oi mid) => if oi =? 0 then match callee h c mid with Some m => f m | None => 0 end else 0
  | Some gt => if own gt then 1 else 0
  | None => 0
  end.
Definition nsum (xs : list N) : N := foldr N.add 0 xs.
Definition counted (h : heap) (c : circuit) : Prop :=
  num_gate c = nsum (map (weight is_logic num_gate h c) (nrange (gate_index c))) /\
  num_const c = nsum (map (weight is_const num_const h c) (nrange (gate_index c))).
Definition cinv (h : heap) : Prop := forall l c, h_circ h !! l = Some c -> counted h c.

Lemma nsum_app xs ys : nsum (xs ++ ys) = nsum xs + nsum ys.
Proof. induction xs as [|x xs IH]; simpl; [lia|]. rewrite IH. lia. Qed.
Lemma nsum_ext (f f' : N -> N) xs : (forall x, x ∈ xs -> f x = f' x) -> nsum (map f xs) = nsum (map f' xs).
Proof. induction xs as [|x xs IH]; intros H; simpl; [done|]. rewrite (H x) by left. rewrite IH; [done|]. intros. apply H. by right. Qed.
Lemma nsum_zero (f : N -> N) xs : (forall x, x ∈ xs -> f x = 0) -> nsum (map f xs) = 0.
Proof. induction xs as [|x xs IH]; intros H; simpl; [done|]. rewrite (H x) by left. rewrite IH; [done|]. intros. apply H. by right. Qed.

Lemma weight_same own f h h' c c' g gt : gate_map c !! g = Some gt -> gate_map c' !! g = Some gt ->
  (forall mid, is_module gt -> callee h' c' mid = callee h c mid \/ forall il ol ids oi, gt <> GModule il ol ids oi mid) ->
  weight own f h' c' g = weight own f h c g.
Proof.
  intros G G' H. unfold weight. rewrite G, G'. destruct gt; try done. destruct (_ =? 0); [|done].
  destruct (H mid) as [-> | Hn]; [done|done|]. by edestruct Hn.
Qed.

Lemma counted_frame h h' c : cwf c -> counted h c ->
  (forall g il ol ids oi mid, gate_map c !! g = Some (GModule il ol ids oi mid) -> callee h' c mid = callee h c mid) -> counted h' c.
Proof.
  intros W [C1 C2] H. split; [rewrite C1|rewrite C2]; apply nsum_ext; intros g Hg; unfold weight;
  destruct (gate_map c !! g) as [gt|] eqn:G; try done; destruct gt; try done; destruct (_ =? 0); try done; by erewrite H.
Qed.

(** Calls of existing circuits keep their callee as long as that circuit is unchanged. *)
Lemma callee_keep h h' l c g il ol ids oi mid : hinv h -> hle h h' -> h_circ h !! l = Some c ->
  gate_map c !! g = Some (GModule il ol ids oi mid) ->
  (forall l', calls h c l' -> h_circ h' !! l' = h_circ h !! l') -> callee h' c mid = callee h c mid.
Proof.
  intros H L E G K. destruct (hi_calls h H _ _ _ _ _ _ _ _ E G) as (x & l' & m & S & M & Em & _).
  destruct (hle_stor _ _ L _ _ S) as (x' & S' & Hm & _). unfold callee. rewrite S, S', M.
  rewrite (lookup_weaken _ _ _ _ M Hm). apply K. exists g, il, ol, ids, oi, mid, x. done.
Qed.

Lemma cinv_deff md h h' : dinv h -> cinv h -> deff md h h' -> cinv h'.
Proof.
  intros D C He. pose proof (deff_eff _ _ _ He) as He'. pose proof (di_inv h D) as H.
  pose proof (hle_eff _ _ _ H He') as L. pose proof (hinv_eff _ _ _ H He') as H'. clear He'.
  assert (Hupd : forall l c c', h' = upd h l c' -> h_circ h !! l = Some c -> uncalled h l -> counted h' c' -> cinv h').
  { intros l c c' -> E U Cc l1 c1 E1. destruct (decide (l1 = l)) as [-> |].
    - erewrite upd_lookup in E1 by done. injection E1 as <-. done.
    - rewrite upd_lookup_ne in E1 by done. eapply (counted_frame h); [by eapply (hi_circ h)|by eapply C|].
      intros g il ol ids oi mid G. eapply (callee_keep h _ l1); eauto.
      intros l' Hc. apply upd_lookup_ne. intros ->. by eapply (U l1 c1). }
  destruct He as [l c gt c' E P O U|l c g c' E P U|l c s x l' m mid ids outs c' E Es Ex Em Hne Em' Hw P O A Hpos U|
    |s x E|l c E|s x l' c' E E'].
  - eapply Hupd; eauto. pose proof (hi_circ h H l c E) as W. destruct (C l c E) as [C1 C2].
    assert (Hold : forall own f g, g < gate_index c -> weight own f (upd h l c') c' g = weight own f h c g).
    { intros own f g Hg. apply (wf_gates c W) in Hg as [gt' G]. eapply weight_same; eauto using push_mono.
      intros mid _. destruct gt'; try (right; done).
      destruct (decide (mid0 = mid)) as [-> |Hn]; [left|right; by intros ???? [=]].
      transitivity (callee (upd h l c') c mid).
      { unfold callee. by rewrite (p_st _ _ _ P). }
      eapply (callee_keep h _ l); eauto. intros l' Hc. apply upd_lookup_ne. intros ->. by eapply (U l c). }
    assert (Hnew : forall own f, weight own f (upd h l c') c' (gate_index c) = if own gt then 1 else 0).
    { intros own f. unfold weight. rewrite (push_lookup _ _ _ _ P), decide_True by done. pose proof (p_kind _ _ _ P). by destruct gt. }
    split.
    + rewrite (p_ng _ _ _ P), (p_gi _ _ _ P), nrange_succ, map_app, nsum_app, C1. simpl. rewrite Hnew, N.add_0_r. f_equal.
      apply nsum_ext. intros g Hg%elem_of_nrange. by rewrite Hold.
    + rewrite (p_nc _ _ _ P), (p_gi _ _ _ P), nrange_succ, map_app, nsum_app, C2. simpl. rewrite Hnew, N.add_0_r. f_equal.
      apply nsum_ext. intros g Hg%elem_of_nrange. by rewrite Hold.
  - eapply Hupd; eauto. pose proof (hi_circ h H l c E) as W.
    assert (counted (upd h l c') c) as Cc; [|destruct P as [_ ->]; exact Cc].
    eapply (counted_frame h); [done|exact (C l c E)|]. intros g' il ol ids oi mid G.
    eapply (callee_keep h _ l); eauto. intros l' Hc. apply upd_lookup_ne. intros ->. by eapply U.
  - eapply Hupd; eauto. pose proof (hi_circ h H l c E) as W. destruct (C l c E) as [C1 C2].
    assert (Hold : forall own f g, g < gate_index c -> weight own f (upd h l c') c' g = weight own f h c g).
    { intros own f g Hg. apply (wf_gates c W) in Hg as [gt' G]. eapply weight_same; [done|by eapply (push_mod_mono c)|].
      intros mid' _. destruct gt'; try (right; done).
      destruct (decide (mid0 = mid')) as [-> |Hn]; [left|right; by intros ???? [=]].
      transitivity (callee (upd h l c') c mid').
      { unfold callee. by rewrite (pm_st _ _ _ _ _ _ P). }
      eapply (callee_keep h _ l); eauto. intros l2 Hc. apply upd_lookup_ne. intros ->. by eapply (U l c). }
    assert (Hcal : callee (upd h l c') c' mid = Some m).
    { unfold callee. rewrite (pm_st _ _ _ _ _ _ P). simpl. rewrite Es, Ex, Em. rewrite list_lookup_insert_ne by done. done. }
    assert (Hnew : forall own f, nsum (map (weight own f (upd h l c') c') (map (fun j => gate_index c + j) (nrange (output_len m)))) = f m).
    { intros own f. replace (output_len m) with (1 + (output_len m - 1)) by lia. rewrite nrange_add, map_app, map_app, nsum_app.
      replace (nsum _) with (f m).
      - rewrite map_map, map_map. rewrite nsum_zero; [lia|]. intros j Hj%elem_of_nrange. unfold weight.
        rewrite (pm_gm _ _ _ _ _ _ P). rewrite decide_True by lia.
        destruct (N.eqb_spec (gate_index c + (1 + j) - gate_index c) 0); [lia|done].
      - simpl. unfold weight. rewrite (pm_gm _ _ _ _ _ _ P). rewrite decide_True by lia.
        destruct (N.eqb_spec (gate_index c + 0 - gate_index c) 0); [|lia]. rewrite Hcal. lia. }
    split.
    + rewrite (pm_ng _ _ _ _ _ _ P), (pm_gi _ _ _ _ _ _ P), nrange_add, map_app, nsum_app, C1, Hnew. f_equal.
      apply nsum_ext. intros g Hg%elem_of_nrange. by rewrite Hold.
    + rewrite (pm_nc _ _ _ _ _ _ P), (pm_gi _ _ _ _ _ _ P), nrange_add, map_app, nsum_app, C2, Hnew. f_equal.
      apply nsum_ext. intros g Hg%elem_of_nrange. by rewrite Hold.
  - intros l c E. eapply (counted_frame h); [by eapply (hi_circ h)|by eapply C|].
    intros. by eapply (callee_keep h _ l).
  - intros l1 c1 [E1|[-> ->]]%add_circ_inv; [|split; done].
    eapply (counted_frame h); [by eapply (hi_circ h)|by eapply C|].
    intros g il ol ids oi mid G. eapply (callee_keep h _ l1); eauto. intros l' Hc.
    destruct (calls_valid _ _ _ _ H E1 Hc) as [m Em]. rewrite Em. by apply add_circ_old.
  - intros l1 c1 E1.
    assert (exists l0, h_circ h !! l0 = Some c1) as [l0 E0]. { apply add_circ_inv in E1 as [E1|[-> ->]]; eauto. }
    eapply (counted_frame h); [by eapply (hi_circ h)|by eapply C|].
    intros g il ol ids oi mid G. eapply (callee_keep h _ l0); eauto. intros l' Hc.
    destruct (calls_valid _ _ _ _ H E0 Hc) as [m Em]. rewrite Em. by apply add_circ_old.
  - intros l1 c1 E1. eapply (counted_frame h); [by eapply (hi_circ h)|by eapply C|].
    intros. by eapply (callee_keep h _ l1).
Qed.

Lemma cinv_run_from md h ops : dinv h -> cinv h -> disciplined md h ops -> cinv (fold_left (step md) ops h).
Proof.
  revert h. induction ops as [|o ops IH]; intros h D C; simpl; [done|]. intros [Ho Hops].
  pose proof (dop_deffs md h o D Ho) as Hr.
  assert (dinv (step md h o) /\ cinv (step md h o)) as [D' C']; [|by apply IH].
  clear IH Hops Ho. revert D C Hr. generalize (step md h o). intros h' D C Hr.
  induction Hr; eauto using dinv_deff, cinv_deff.
Qed.
Lemma cinv_run md ops : disciplined md heap_empty ops -> cinv (run md ops).
Proof. apply cinv_run_from; [apply dinv_empty|]. intros l c E. done. Qed.
