(** C81, C82: ownership of circuits and storages — what is freed and what leaks — and the derived [Debug]. *)
From Verif Require Export Own.

Local Open Scope nat_scope.

(** * Specification *)
(** How often [x] occurs. *)
Fixpoint times (x : obj) (xs : list obj) : nat :=
  match xs with [] => 0 | y :: r => (if decide (x = y) then 1 else 0) + times x r end.
(** The handles of [x] inside live cells. *)
Definition refs (h : heap) (n : counts) (x : obj) : nat := sum_list_with (fun y => times x (children h y)) (elements (dom (D:=gset obj) n)).
(** [x] holds a handle of [y]. *)
Definition edge (h : heap) (x y : obj) : Prop := y ∈ children h x.
(** [y] can be reached from [x] through handles. *)
Definition reaches (h : heap) : obj -> obj -> Prop := rtc (edge h).
(** [x] keeps itself alive. *)
Definition cyclic (h : heap) (x : obj) : Prop := tc (edge h) x x.

(** * Counting *)
Lemma times_app x xs ys : times x (xs ++ ys) = times x xs + times x ys.
Proof. induction xs; simpl; lia. Qed.
Lemma times_perm x xs ys : xs ≡ₚ ys -> times x xs = times x ys.
Proof. induction 1; simpl; lia. Qed.
Lemma times_pos x xs : x ∈ xs <-> 0 < times x xs.
Proof.
  induction xs as [|y r IH]; simpl.
  { split; [intros H; by apply elem_of_nil in H|lia]. }
  rewrite elem_of_cons, IH. case_decide as E; (split; [intros [?|?]|intros]); auto; try lia; try done.
Qed.
Lemma take_out_perm x xs : x ∈ xs -> xs ≡ₚ x :: take_out x xs.
Proof.
  induction xs as [|y r IH]; [intros H; by apply elem_of_nil in H|]. simpl. intros H. case_decide; [by subst|].
  rewrite elem_of_cons in H. destruct H as [|H]; [done|]. rewrite (IH H) at 1. apply perm_swap.
Qed.
Lemma sum_perm {A} (f : A -> nat) xs ys : xs ≡ₚ ys -> sum_list_with f xs = sum_list_with f ys.
Proof. induction 1; simpl; lia. Qed.
Lemma sum_ext {A} (f g : A -> nat) xs : (forall x, x ∈ xs -> f x = g x) -> sum_list_with f xs = sum_list_with g xs.
Proof.
  induction xs as [|y r IH]; simpl; [done|]. intros H. rewrite IH, H; [done|left|]. intros z Hz. apply H. by right.
Qed.

Lemma refs_in h n x k y : is_Some (n !! x) -> refs h (<[x := k]> n) y = refs h n y.
Proof. intros H. unfold refs. by rewrite dom_insert_lookup_L. Qed.
Lemma refs_out h n x k y : n !! x = None -> refs h (<[x := k]> n) y = times y (children h x) + refs h n y.
Proof.
  intros H. unfold refs. rewrite dom_insert_L.
  rewrite (sum_perm _ _ (x :: elements (dom (D:=gset obj) n))); [done|]. apply elements_union_singleton. by apply not_elem_of_dom.
Qed.
Lemma refs_delete h n x y : is_Some (n !! x) -> refs h n y = times y (children h x) + refs h (delete x n) y.
Proof.
  intros [k H]. rewrite <- (insert_delete n x k H) at 1. apply refs_out. apply lookup_delete.
Qed.
Lemma refs_ext h h' n x : (forall y, is_Some (n !! y) -> times x (children h' y) = times x (children h y)) -> refs h' n x = refs h n x.
Proof. intros H. apply sum_ext. intros y Hy. apply H. by rewrite elem_of_elements, elem_of_dom in Hy. Qed.
Lemma refs_pos h n x : 0 < refs h n x -> exists y, is_Some (n !! y) /\ edge h y x.
Proof.
  unfold refs. intros H. assert (exists y, y ∈ elements (dom (D:=gset obj) n) /\ 0 < times x (children h y)) as (y & Hy & Ht).
  { revert H. generalize (elements (dom (D:=gset obj) n)). induction l as [|y r IH]; simpl; [lia|]. intros H.
    destruct (decide (0 < times x (children h y))); [exists y; split; [left|done]|].
    destruct IH as (z & ? & ?); [lia|]. exists z. split; [by right|done]. }
  exists y. rewrite elem_of_elements, elem_of_dom in Hy. split; [done|]. by apply times_pos.
Qed.
Lemma refs_edge h n x y : is_Some (n !! y) -> edge h y x -> 0 < refs h n x.
Proof. intros Hy He. rewrite (refs_delete h n y x Hy). apply times_pos in He. lia. Qed.

Lemma total_insert n x k : n !! x = None -> total (<[x := k]> n) = k + total n.
Proof. intros H. unfold total. rewrite map_fold_insert_L; [done|intros; lia|done]. Qed.
Lemma total_delete n x k : n !! x = Some k -> total n = k + total (delete x n).
Proof. intros H. rewrite <- (insert_delete n x k H) at 1. apply total_insert, lookup_delete. Qed.
Lemma total_lower n x k k' : n !! x = Some k -> k' < k -> total (<[x := k']> n) < total n.
Proof.
  intros H Hk. rewrite (total_delete _ _ _ H). rewrite (total_delete (<[x := k']> n) x k') by apply lookup_insert.
  rewrite delete_insert_delete. lia.
Qed.

(** * The invariant *)
Definition valid (h : heap) (x : obj) : Prop :=
  match x with inl l => is_Some (h_circ h !! l) | inr s => is_Some (h_stor h !! s) end.

(** Handles [hs] are in the hands of the caller (or about to be dropped). *)
Record oinv (h : heap) (n : counts) (hs : list obj) : Prop := {
  oi_valid : forall x, is_Some (n !! x) -> valid h x;
  oi_cnt : forall x, default 0 (n !! x) = times x hs + refs h n x;
  oi_pos : forall x k, n !! x = Some k -> 0 < k;
}.

Lemma oinv_perm h n hs hs' : hs ≡ₚ hs' -> oinv h n hs -> oinv h n hs'.
Proof. intros P [A B C]. split; [done| |done]. intros x. rewrite B. by rewrite (times_perm x _ _ P). Qed.
Lemma oinv_live h n hs x : oinv h n hs -> (is_Some (n !! x) <-> 0 < times x hs + refs h n x).
Proof.
  intros [A B C]. rewrite <- B. destruct (n !! x) as [k|] eqn:E; simpl.
  - pose proof (C x k E). split; [lia|eauto].
  - split; [by intros [? ?]|lia].
Qed.
Lemma oinv_held h n hs x : oinv h n hs -> x ∈ hs -> is_Some (n !! x).
Proof. intros I H%times_pos. apply (oinv_live _ _ _ x I). lia. Qed.
Lemma oinv_edge h n hs x y : oinv h n hs -> is_Some (n !! x) -> edge h x y -> is_Some (n !! y).
Proof. intros I H He. apply (oinv_live _ _ _ y I). pose proof (refs_edge h n y x H He). lia. Qed.
Lemma oinv_reaches h n hs x y : oinv h n hs -> is_Some (n !! x) -> reaches h x y -> is_Some (n !! y).
Proof. intros I H R. induction R; [done|]. apply IHR. by eapply oinv_edge. Qed.
Lemma oinv_pred h n hs x : oinv h n hs -> is_Some (n !! x) -> x ∈ hs \/ exists y, is_Some (n !! y) /\ edge h y x.
Proof.
  intros I H%(oinv_live _ _ _ x I). destruct (decide (0 < times x hs)) as [Ht|]; [left; by apply times_pos|].
  right. apply refs_pos. lia.
Qed.

(** Another handle of a live cell. *)
Lemma oinv_dup h n hs x : oinv h n hs -> is_Some (n !! x) -> oinv h (inc x n) (x :: hs).
Proof.
  intros [A B C] H. unfold inc. split.
  - intros y Hy. destruct (decide (x = y)) as [->|]; [by apply A|]. rewrite lookup_insert_ne in Hy by done. by apply A.
  - intros y. rewrite refs_in by done. simpl. specialize (B y). case_decide.
    + subst. rewrite lookup_insert. simpl. lia.
    + rewrite lookup_insert_ne by done. lia.
  - intros y k. destruct (decide (x = y)) as [->|]; [rewrite lookup_insert; intros [= <-]; lia|].
    rewrite lookup_insert_ne by done. apply C.
Qed.
Lemma oinv_dups h n hs xs : oinv h n hs -> Forall (fun x => is_Some (n !! x)) xs -> oinv h (foldr inc n xs) (xs ++ hs).
Proof.
  intros I. induction 1 as [|x r Hx _ IH]; [done|]. simpl. apply oinv_dup; [done|].
  assert (forall ys, is_Some (foldr inc n ys !! x)) as Q; [|apply Q].
  induction ys as [|y ys IHys]; [done|]. simpl. unfold inc. destruct (decide (y = x)) as [->|]; [rewrite lookup_insert; eauto|].
  by rewrite lookup_insert_ne.
Qed.

(** Drops: they succeed, and what supports itself stays. *)
Definition supported (h : heap) (n : counts) (P : obj -> Prop) : Prop :=
  forall x, P x -> is_Some (n !! x) /\ exists y, P y /\ edge h y x.

Lemma drain_ok h held fuel : forall todo n, total n <= fuel -> oinv h n (todo ++ held) ->
  exists n', drain fuel h todo n = Some n' /\ oinv h n' held /\ (forall x, is_Some (n' !! x) -> is_Some (n !! x)) /\
    forall P, supported h n P -> supported h n' P.
Proof.
  induction fuel as [|f IH]; intros todo n Hf I.
  - destruct todo as [|x r]; [exists n; done|]. exfalso.
    destruct (oinv_held h n _ x I) as [k Hk]; [left|]. pose proof (oi_pos _ _ _ I x k Hk).
    rewrite (total_delete _ _ _ Hk) in Hf. lia.
  - destruct todo as [|x r]; [exists n; done|]. simpl.
    destruct (oinv_held h n _ x I) as [k Hk]; [left|]. rewrite Hk. pose proof (oi_pos _ _ _ I x k Hk) as Hp.
    pose proof (oi_cnt _ _ _ I x) as Hc. rewrite Hk in Hc. simpl in Hc. rewrite decide_True in Hc by done.
    destruct k as [|[|k] ]; [lia| |].
    + edestruct (IH (children h x ++ r) (delete x n)) as (n' & E & I' & Hs & HP).
      * rewrite (total_delete _ _ _ Hk) in Hf. lia.
      * split.
        -- intros y Hy. apply (oi_valid _ _ _ I). destruct (decide (x = y)) as [->|]; [rewrite lookup_delete in Hy; by destruct Hy|].
           by rewrite lookup_delete_ne in Hy.
        -- intros y. pose proof (oi_cnt _ _ _ I y) as Hy. rewrite (refs_delete h n x y) in Hy by eauto. simpl in Hy.
           rewrite !times_app in *. case_decide.
           ++ subst y. rewrite lookup_delete. simpl. rewrite Hk in Hy. simpl in Hy. lia.
           ++ rewrite lookup_delete_ne by done. lia.
        -- intros y k'. destruct (decide (x = y)) as [->|]; [by rewrite lookup_delete|].
           rewrite lookup_delete_ne by done. apply (oi_pos _ _ _ I).
      * exists n'. split; [done|]. split; [done|]. split.
        -- intros y Hy. apply Hs in Hy. destruct (decide (x = y)) as [->|]; [rewrite lookup_delete in Hy; by destruct Hy|].
           by rewrite lookup_delete_ne in Hy.
        -- intros P HPn. apply HP. intros y Py. destruct (HPn y Py) as [Hy (z & Pz & Hz)]. split; [|eauto].
           destruct (decide (x = y)) as [->|]; [|by rewrite lookup_delete_ne].
           pose proof (refs_edge h n y z (proj1 (HPn z Pz)) Hz). lia.
    + edestruct (IH r (<[x := S k]> n)) as (n' & E & I' & Hs & HP).
      * pose proof (total_lower n x (S (S k)) (S k) Hk). lia.
      * split.
        -- intros y Hy. apply (oi_valid _ _ _ I). destruct (decide (x = y)) as [->|]; [eauto|]. by rewrite lookup_insert_ne in Hy.
        -- intros y. rewrite refs_in by eauto. pose proof (oi_cnt _ _ _ I y) as Hy. simpl in Hy. case_decide.
           ++ subst y. rewrite lookup_insert. simpl. rewrite Hk in Hy. simpl in Hy. lia.
           ++ rewrite lookup_insert_ne by done. lia.
        -- intros y k'. destruct (decide (x = y)) as [->|]; [rewrite lookup_insert; intros [= <-]; lia|].
           rewrite lookup_insert_ne by done. apply (oi_pos _ _ _ I).
      * exists n'. split; [done|]. split; [done|]. split.
        -- intros y Hy. apply Hs in Hy. destruct (decide (x = y)) as [->|]; [eauto|]. by rewrite lookup_insert_ne in Hy.
        -- intros P HPn. apply HP. intros y Py. destruct (HPn y Py) as [Hy Hz]. split; [|done].
           destruct (decide (x = y)) as [->|]; [rewrite lookup_insert; eauto|]. by rewrite lookup_insert_ne.
Qed.

(** * Calls *)
Lemma valid_hle h h' x : hle h h' -> valid h x -> valid h' x.
Proof.
  intros L. destruct x as [l|s]; intros [y Hy]; simpl in *.
  - destruct (hle_circ _ _ L _ _ Hy) as (? & -> & _). eauto.
  - destruct (hle_stor _ _ L _ _ Hy) as (? & -> & _). eauto.
Qed.
Lemma edge_hle h h' x y : hle h h' -> edge h x y -> edge h' x y.
Proof.
  intros L. unfold edge. destruct x as [l|s]; simpl.
  - destruct (h_circ h !! l) as [c|] eqn:E; [|intros H; by apply elem_of_nil in H].
    destruct (hle_circ _ _ L _ _ E) as (c' & -> & Hc). by rewrite (cle_st _ _ Hc).
  - destruct (h_stor h !! s) as [a|] eqn:E; [|intros H; by apply elem_of_nil in H].
    destruct (hle_stor _ _ L _ _ E) as (a' & -> & Hm & _). rewrite !elem_of_list_fmap.
    intros ([i l] & -> & Hp). exists (i, l). split; [done|]. apply elem_of_map_to_list in Hp. apply elem_of_map_to_list.
    by eapply lookup_weaken.
Qed.

Lemma children_upd h l c c' x : h_circ h !! l = Some c -> c_storage c' = c_storage c -> children (upd h l c') x = children h x.
Proof.
  intros Hl Hs. destruct x as [i|s]; [|done]. simpl. destruct (decide (l = i)) as [->|].
  - rewrite list_lookup_insert by (by eapply lookup_lt_Some). by rewrite Hl, Hs.
  - by rewrite list_lookup_insert_ne.
Qed.
Lemma children_add_circ h c x : valid h x -> children (add_circ h c) x = children h x.
Proof.
  destruct x as [l|s]; [|done]. intros [y Hy]. simpl. rewrite lookup_app_l by (by eapply lookup_lt_Some). done.
Qed.
Lemma children_add_circ_new h c : children (add_circ h c) (inl (length (h_circ h))) = [inr (c_storage c)].
Proof. simpl. by rewrite list_lookup_middle. Qed.
Lemma children_reg_ne h s a l x : x <> inr s -> children (reg h s a l) x = children h x.
Proof.
  destruct x as [i|s']; [done|]. intros H. simpl. rewrite list_lookup_insert_ne; [done|]. by intros ->.
Qed.
Lemma children_reg h s a l x : h_stor h !! s = Some a -> module_map a !! num_module a = None ->
  times x (children (reg h s a l) (inr s)) = times x [inl l] + times x (children h (inr s)).
Proof.
  intros Hs Hn. simpl. rewrite list_lookup_insert by (by eapply lookup_lt_Some). rewrite Hs. simpl.
  rewrite (times_perm x _ (inl l :: ((fun p : N * nat => inl p.2) <$> map_to_list (module_map a)))); [simpl; lia|].
  by rewrite map_to_list_insert.
Qed.

Lemma oinv_neutral h h' n hs : oinv h n hs -> hle h h' -> (forall x, valid h x -> children h' x = children h x) -> oinv h' n hs.
Proof.
  intros [A B C] L H. split; [intros x Hx; by eapply valid_hle, A| |done].
  intros x. rewrite (refs_ext h h' n x); [done|]. intros y Hy. by rewrite H by auto.
Qed.
(** A new circuit around a handle of its storage. *)
Lemma oinv_new_circ h n hs c : oinv h n (inr (c_storage c) :: hs) -> oinv (add_circ h c) (inc (inl (length (h_circ h))) n) (inl (length (h_circ h)) :: hs).
Proof.
  intros [A B C]. set (x := inl (length (h_circ h))).
  assert (Hx : n !! x = None).
  { destruct (n !! x) eqn:E; [|done]. destruct (A x) as [y Hy]; [eauto|]. apply lookup_lt_Some in Hy. lia. }
  unfold inc. rewrite Hx. simpl. split.
  - intros y. destruct (decide (x = y)) as [<-|Hne].
    + intros _. simpl. rewrite list_lookup_middle; eauto.
    + rewrite lookup_insert_ne by done. intros Hy. specialize (A y Hy). destruct y as [l|s]; [|done]. simpl in *.
      destruct A as [z Hz]. rewrite (lookup_app_l_Some _ _ _ _ Hz). eauto.
  - intros y. rewrite refs_out by done. unfold x at 3. rewrite children_add_circ_new.
    rewrite (refs_ext h _ n y); [|intros z Hz; by rewrite children_add_circ by auto].
    specialize (B y). simpl in *. destruct (decide (x = y)) as [<-|Hne].
    + rewrite lookup_insert. rewrite Hx in B. simpl in *. rewrite (decide_True (P := x = x)) by done. lia.
    + rewrite lookup_insert_ne by done. rewrite (decide_False (P := y = x)) by congruence. lia.
  - intros y k. destruct (decide (x = y)) as [<-|]; [rewrite lookup_insert; intros [= <-]; lia|].
    rewrite lookup_insert_ne by done. apply C.
Qed.
(** A handle put into a storage. *)
Lemma oinv_reg h n hs s a l : oinv h n (inl l :: hs) -> is_Some (n !! (inr s)) -> h_stor h !! s = Some a ->
  module_map a !! num_module a = None -> oinv (reg h s a l) n hs.
Proof.
  intros [A B C] Hl Hs Hn. split; [|intros x|done].
  - intros x Hx. specialize (A x Hx). destruct x as [i|i]; [done|]. simpl in *. destruct (decide (s = i)) as [->|].
    + rewrite list_lookup_insert by (by eapply lookup_lt_Some). eauto.
    + by rewrite list_lookup_insert_ne.
  - rewrite B. rewrite (refs_delete h n (inr s) x Hl), (refs_delete (reg h s a l) n (inr s) x Hl).
    rewrite children_reg by done. rewrite (refs_ext h (reg h s a l)); [simpl; lia|].
    intros y Hy. rewrite children_reg_ne; [done|]. intros ->. rewrite lookup_delete in Hy. by destruct Hy.
Qed.

Record winv (σ : owner) : Prop := {
  wi_heap : hinv (o_heap σ);
  wi_own : oinv (o_heap σ) (o_cnt σ) (o_held σ);
}.
Lemma inc_live x n y : is_Some (n !! y) -> is_Some (inc x n !! y).
Proof. intros H. unfold inc. destruct (decide (x = y)) as [->|]; [rewrite lookup_insert; eauto|]. by rewrite lookup_insert_ne. Qed.
Lemma incs_live xs n y : is_Some (n !! y) -> is_Some (foldr inc n xs !! y).
Proof. induction xs; simpl; auto using inc_live. Qed.
Lemma inc_self x n : is_Some (inc x n !! x).
Proof. unfold inc. rewrite lookup_insert. eauto. Qed.

Lemma hinv_fresh h s a : hinv h -> h_stor h !! s = Some a -> module_map a !! num_module a = None.
Proof. intros H E. by apply (hi_mods h H s a E (num_module a)). Qed.

Lemma call_ok md o σ : winv σ -> Forall (fun x => x ∈ o_held σ) (uses (ACall o)) ->
  winv (call md o σ) /\ o_heap (call md o σ) = step md (o_heap σ) o /\ hle (o_heap σ) (o_heap (call md o σ)) /\
  forall x, is_Some (o_cnt σ !! x) -> is_Some (o_cnt (call md o σ) !! x).
Proof.
  destruct σ as [h n held]. intros [H I] U. simpl in H, I, U. unfold call, step. simpl. destruct (run_op md o h) as [r h'] eqn:E.
  destruct (run_op_hinv md h o r h' H E) as [H' L].
  destruct (is_ok r) eqn:Er.
  2: { pose proof (run_op_fail md h o r h' E Er) as ->.
       destruct r; [done|..]; destruct o; simpl; (split; [by split|]); (split; [done|]); (split; [done|]); done. }
  destruct r as [r|e|p|]; try done. pose proof (run_op_ok md h o r h' E) as Ef.
  assert (Neutral : forall l c c', h_circ h !! l = Some c -> c_storage c' = c_storage c -> h' = upd h l c' ->
    winv (Owner h' n held) /\ h' = h' /\ hle h h' /\ forall x, is_Some (n !! x) -> is_Some (n !! x)).
  { intros l c c' Hl Hs ->. split; [|done]. split; simpl; [done|]. eapply oinv_neutral; [done|done|].
    intros x _. by eapply children_upd. }
  destruct o as [|s|l|l|l g|l b|l a|l a b|l a b|l a b|l a b|l a|l l'|l|l mid ids|s l']; simpl in Ef.
  - destruct Ef as [-> ->]. split; [|split; [done|split; [done|intros x; apply inc_live]]]. split; simpl; [done|].
    set (x := inr (length (h_stor h))).
    assert (Hx : n !! x = None).
    { destruct (n !! x) eqn:Ex; [|done]. destruct (oi_valid _ _ _ I x) as [y Hy]; [eauto|]. apply lookup_lt_Some in Hy. lia. }
    assert (Hch : forall y, valid h y -> children (Heap (h_circ h) (h_stor h ++ [storage_new])) y = children h y).
    { intros [i|i]; [done|]. intros [y Hy]. simpl. by rewrite (lookup_app_l_Some _ _ _ _ Hy), Hy. }
    destruct (oinv_neutral _ _ _ _ I L Hch) as [A B C]. unfold inc. rewrite Hx. simpl. split.
    + intros y. destruct (decide (x = y)) as [<-|]; [intros _; simpl; rewrite list_lookup_middle; eauto|].
      rewrite lookup_insert_ne by done. apply A.
    + intros y. rewrite refs_out by done. unfold x at 3. simpl. rewrite list_lookup_middle by done. simpl. rewrite map_to_list_empty. simpl. specialize (B y).
      destruct (decide (x = y)) as [<-|Hne].
      * rewrite lookup_insert. rewrite Hx in B. simpl in *. rewrite decide_True by done. lia.
      * rewrite lookup_insert_ne by done. rewrite decide_False by congruence. simpl. lia.
    + intros y k. destruct (decide (x = y)) as [<-|]; [rewrite lookup_insert; intros [= <-]; lia|].
      rewrite lookup_insert_ne by done. apply C.
  - destruct Ef as (Hs & -> & ->). split; [|split; [done|split; [done|intros x; apply inc_live]]]. split; simpl; [done|].
    apply (oinv_new_circ h n _ (circuit_new s)). simpl. eapply oinv_perm; [|exact I]. apply take_out_perm.
    by inversion U.
  - destruct Ef as (c & Hl & -> & ->). rewrite Hl. split; [|split; [done|split; [done|intros x Hx; by apply inc_live, inc_live]]].
    split; [done|]. cbn [o_heap o_cnt o_held foldr]. apply (oinv_new_circ h _ _ c). apply oinv_dup; [done|].
    eapply oinv_edge; [exact I|eapply oinv_held; [exact I|by inversion U]|]. unfold edge. simpl. rewrite Hl. left.
  - destruct Ef as (c & c' & Hl & -> & -> & P). eapply Neutral; [done| |done]. apply (p_st _ _ _ P).
  - destruct Ef as (c & c' & Hl & -> & -> & P). eapply Neutral; [done| |done]. by rewrite (po_eq _ _ _ P).
  - destruct Ef as (c & c' & Hl & -> & -> & P). eapply Neutral; [done| |done]. apply (p_st _ _ _ P).
  - destruct Ef as (c & c' & Hl & -> & -> & P). eapply Neutral; [done| |done]. apply (p_st _ _ _ P).
  - destruct Ef as (c & c' & Hl & -> & -> & P). eapply Neutral; [done| |done]. apply (p_st _ _ _ P).
  - destruct Ef as (c & c' & Hl & -> & -> & P). eapply Neutral; [done| |done]. apply (p_st _ _ _ P).
  - destruct Ef as (c & c' & Hl & -> & -> & P). eapply Neutral; [done| |done]. apply (p_st _ _ _ P).
  - destruct Ef as (c & c1 & c2 & Hl & -> & -> & P1 & P2). eapply Neutral; [done| |done]. rewrite (p_st _ _ _ P2). apply (p_st _ _ _ P1).
  - destruct Ef as (c & c1 & c2 & Hl & -> & -> & P1 & P2). eapply Neutral; [done| |done]. rewrite (p_st _ _ _ P2). apply (p_st _ _ _ P1).
  - destruct Ef as (c & c' & x & Hl & Hl' & Hx & -> & ->). split; [|split; [done|split; [done|intros y; apply inc_live]]].
    split; simpl; [done|]. apply Forall_cons in U as [U1 U2]. apply Forall_cons in U2 as [U2 _].
    apply oinv_reg; [apply oinv_dup; [done|eapply oinv_held; [exact I|exact U2]]| |done|apply (hinv_fresh h _ _ H Hx)].
    apply inc_live. eapply oinv_edge; [exact I|eapply oinv_held; [exact I|exact U1]|]. unfold edge. simpl. rewrite Hl. left.
  - destruct Ef as (c & x & Hl & Hx & -> & ->). rewrite Hl.
    split; [|split; [done|split; [done|intros y Hy; by apply inc_live, inc_live, inc_live]]].
    split; [done|]. cbn [o_heap o_cnt o_held foldr]. inversion U as [|? ? U1 U2]; subst.
    assert (Hs : is_Some (n !! (inr (c_storage c)))).
    { eapply oinv_edge; [exact I|eapply oinv_held; [exact I|exact U1]|]. unfold edge. simpl. rewrite Hl. left. }
    apply oinv_reg; [|by apply inc_live, inc_live, inc_live|done|apply (hinv_fresh h _ _ H Hx)].
    apply oinv_dup; [|apply inc_self]. apply (oinv_new_circ h _ _ (circuit_new (c_storage c))). by apply oinv_dup.
  - destruct Ef as (c & x & l' & m & outs & c' & Hl & Hx & Hm & Hne & Hl' & Hw & -> & -> & P).
    eapply (Neutral l c c' Hl); [|done]. apply (pm_st _ _ _ _ _ _ P).
  - destruct Ef as (c' & x & Hl' & Hx & -> & ->). split; [|split; [done|split; [done|intros y; apply inc_live]]].
    split; simpl; [done|]. apply Forall_cons in U as [U1 U2]. apply Forall_cons in U2 as [U2 _].
    apply oinv_reg; [apply oinv_dup; [done|eapply oinv_held; [exact I|exact U2]]| |done|apply (hinv_fresh h _ _ H Hx)].
    apply inc_live. eapply oinv_held; [exact I|exact U1].
Qed.

(** * Actions *)
Lemma supported_grow h h' n n' P : hle h h' -> (forall x, is_Some (n !! x) -> is_Some (n' !! x)) -> supported h n P -> supported h' n' P.
Proof.
  intros L Hn HP x Px. destruct (HP x Px) as [Hx (y & Py & Hy)]. split; [auto|]. exists y. split; [done|]. by eapply edge_hle.
Qed.
Lemma got_edge h l mid x : x ∈ got h l mid -> reaches h (inl l) x.
Proof.
  unfold got. destruct (h_circ h !! l) as [c|] eqn:E; [|intros H; by apply elem_of_nil in H].
  destruct (h_stor h !! c_storage c) as [y|] eqn:Ey; [|intros H; by apply elem_of_nil in H].
  destruct (module_map y !! mid) as [l'|] eqn:Em; intros H; [|by apply elem_of_nil in H].
  apply elem_of_list_singleton in H as ->. eapply rtc_l; [|apply rtc_once].
  - unfold edge. simpl. rewrite E. left.
  - unfold edge. simpl. rewrite Ey. apply elem_of_list_fmap. exists (mid, l'). split; [done|]. by apply elem_of_map_to_list.
Qed.

Lemma act_ok md a σ : winv σ -> Forall (fun x => x ∈ o_held σ) (uses a) ->
  exists σ', act md a σ = Some σ' /\ winv σ' /\ hle (o_heap σ) (o_heap σ') /\
    forall P, supported (o_heap σ) (o_cnt σ) P -> supported (o_heap σ') (o_cnt σ') P.
Proof.
  intros W U. destruct a as [o|x|l mid|l|x].
  - destruct (call_ok md o σ W U) as (W' & _ & L & M). exists (call md o σ). split; [by destruct σ|].
    split; [done|]. split; [done|]. intros P. by apply supported_grow.
  - destruct σ as [h n held]. destruct W as [H I]. simpl in *. apply Forall_cons in U as [U _]. eexists. split; [done|].
    split; [split; simpl; [done|]|split; [apply hle_refl|intros P; apply supported_grow; [apply hle_refl|intros; by apply inc_live]]].
    apply oinv_dup; [done|]. by eapply oinv_held.
  - destruct σ as [h n held]. destruct W as [H I]. simpl in *. apply Forall_cons in U as [U _]. eexists. split; [done|].
    split; [split; simpl; [done|]|split; [apply hle_refl|intros P; apply supported_grow; [apply hle_refl|intros; by apply incs_live]]].
    apply oinv_dups; [done|]. apply Forall_forall. intros x Hx. eapply oinv_reaches; [exact I|by eapply oinv_held|].
    by eapply got_edge.
  - destruct σ as [h n held]. destruct W as [H I]. cbn [act uses o_heap o_cnt o_held] in *. apply Forall_cons in U as [U _]. eexists. split; [done|].
    split; [split; cbn [o_heap o_cnt o_held]; [done|]|
      split; [apply hle_refl|intros P; apply supported_grow; [apply hle_refl|intros; by apply incs_live]]].
    apply oinv_dups; [done|]. apply Forall_forall. intros x Hx. eapply oinv_edge; [exact I|by eapply oinv_held|done].
  - destruct σ as [h n held]. destruct W as [H I]. simpl in *. apply Forall_cons in U as [U _].
    destruct (drain_ok h (take_out x held) (total n) [x] n) as (n' & E & I' & Hs & HP).
    + done.
    + eapply oinv_perm; [|exact I]. by apply take_out_perm.
    + rewrite E. simpl. eexists. split; [done|]. split; [by split|]. split; [apply hle_refl|done].
Qed.

Lemma winv_empty : winv owner_empty.
Proof.
  split; simpl; [apply hinv_empty|]. split; simpl; [intros x [y Hy]; by rewrite lookup_empty in Hy| |intros x k Hy; by rewrite lookup_empty in Hy].
  intros x. rewrite lookup_empty. unfold refs. by rewrite dom_empty_L, elements_empty.
Qed.
Lemma owned_winv md σ : owned md σ -> winv σ.
Proof.
  induction 1 as [|a σ σ' _ W U E]; [apply winv_empty|]. destruct (act_ok md a σ W U) as (σ2 & E2 & W2 & _). congruence.
Qed.
Lemma onwards_winv md σ σ' : onwards md σ σ' -> winv σ -> winv σ' /\ hle (o_heap σ) (o_heap σ') /\
  forall P, supported (o_heap σ) (o_cnt σ) P -> supported (o_heap σ') (o_cnt σ') P.
Proof.
  intros O W. induction O as [|a σ1 σ2 _ IH U E]; [split; [done|split; [apply hle_refl|done]]|]. destruct IH as (W1 & L1 & P1).
  destruct (act_ok md a σ1 W1 U) as (σ3 & E3 & W3 & L3 & P3). simplify_eq. split; [done|]. split; [by eapply hle_trans|auto].
Qed.
Lemma onwards_owned md σ σ' : onwards md σ σ' -> owned md σ -> owned md σ'.
Proof. intros O H. induction O; [done|]. by econstructor. Qed.

(** * Paths *)
Fixpoint path (h : heap) (x : obj) (xs : list obj) : Prop :=
  match xs with [] => True | y :: r => edge h x y /\ path h y r end.
Lemma path_reach h x xs y : path h x xs -> y ∈ xs -> tc (edge h) x y.
Proof.
  revert x. induction xs as [|z r IH]; intros x; [intros _ H; by apply elem_of_nil in H|]. intros [He Hp] H.
  apply elem_of_cons in H as [->|H]; [by apply tc_once|]. eapply tc_l; [done|]. by apply IH.
Qed.
Lemma path_cycle h x xs : path h x xs -> ~ NoDup (x :: xs) -> exists y, y ∈ x :: xs /\ cyclic h y.
Proof.
  revert x. induction xs as [|z r IH]; intros x Hp Hd.
  - exfalso. apply Hd. apply NoDup_singleton.
  - destruct (decide (x ∈ z :: r)) as [Hx|Hx].
    + exists x. split; [left|]. by eapply path_reach.
    + destruct Hp as [He Hp]. destruct (IH z Hp) as (y & Hy & Hc).
      * intros Hn. apply Hd. by constructor.
      * exists y. split; [by right|done].
Qed.
Lemma path_long h x xs L : path h x xs -> (forall y, y ∈ x :: xs -> y ∈ L) -> length L <= length xs ->
  exists y, y ∈ x :: xs /\ cyclic h y.
Proof.
  intros Hp Hin Hlen. apply path_cycle; [done|]. intros Hn.
  assert (length (x :: xs) <= length L); [|simpl in *; lia].
  apply submseteq_length. by apply NoDup_submseteq.
Qed.

(** A cell that keeps itself alive, with the cells on its cycle. *)
Lemma cyclic_supported h n hs x : oinv h n hs -> is_Some (n !! x) -> cyclic h x ->
  exists P, P x /\ supported h n P.
Proof.
  intros I Hx Hc. assert (exists y, edge h x y /\ reaches h y x) as (y & He & Hr).
  { unfold cyclic in Hc. inversion Hc; subst; [by exists x; split; [|apply rtc_refl]|]. eexists. split; [done|]. by apply tc_rtc. }
  exists (fun z => reaches h y z /\ reaches h z x). split; [split; [done|apply rtc_refl]|].
  intros z [H1 H2]. split.
  - eapply oinv_reaches; [exact I|exact Hx|]. eapply rtc_l; [exact He|exact H1].
  - apply rtc_inv_r in H1 as [<-|(w & H1 & Hw)].
    + exists x. split; [split; [done|apply rtc_refl]|done].
    + exists w. split; [split; [done|]|done]. by eapply rtc_l.
Qed.

Lemma live_source h n hs x : oinv h n hs -> is_Some (n !! x) ->
  exists y, is_Some (n !! y) /\ reaches h y x /\ (y ∈ hs \/ cyclic h y).
Proof.
  intros I Hx.
  assert (forall k, (exists y, y ∈ hs /\ reaches h y x) \/
    exists y ys, length ys = k /\ path h y ys /\ forall z, z ∈ y :: ys -> is_Some (n !! z) /\ reaches h z x) as Q.
  { induction k as [|k [IH|(y & ys & Hl & Hp & Hz)]]; [|by left|].
    - right. exists x, []. split; [done|]. split; [done|]. intros z ->%elem_of_list_singleton. split; [done|apply rtc_refl].
    - destruct (Hz y) as [Hy Hr]; [left|]. destruct (oinv_pred h n hs y I Hy) as [Hh|(w & Hw & He)]; [left; eauto|].
      right. exists w, (y :: ys). split; [simpl; lia|]. split; [done|]. intros z Hin. apply elem_of_cons in Hin as [->|Hin]; [|by apply Hz].
      split; [done|]. by eapply rtc_l. }
  destruct (Q (length (elements (dom (D:=gset obj) n)))) as [(y & Hy & Hr)|(y & ys & Hl & Hp & Hz)].
  - exists y. split; [by eapply oinv_held|]. auto.
  - destruct (path_long h y ys (elements (dom (D:=gset obj) n))) as (z & Hin & Hc); [done| |lia|].
    + intros z Hin. rewrite elem_of_elements, elem_of_dom. by apply Hz.
    + exists z. destruct (Hz z Hin). auto.
Qed.

(** * C81: ownership *)
(** The strong count of a cell is the number of its handles: those of the caller and those inside live cells. *)
Theorem C81_counts md σ x : owned md σ -> default 0 (o_cnt σ !! x) = times x (o_held σ) + refs (o_heap σ) (o_cnt σ) x.
Proof. intros W%owned_winv. apply (oi_cnt _ _ _ (wi_own _ W)). Qed.

(** No drop goes wrong: there is no handle of a freed cell. *)
Theorem C81_total md σ a : owned md σ -> Forall (fun x => x ∈ o_held σ) (uses a) -> exists σ', act md a σ = Some σ' /\ owned md σ'.
Proof.
  intros O U. destruct (act_ok md a σ (owned_winv md σ O) U) as (σ' & E & _). exists σ'. split; [done|]. by econstructor.
Qed.

(** The heap is that of the calls made, whatever is cloned and dropped. *)
Theorem C81_heap md σ : owned md σ -> exists ops, o_heap σ = run md ops.
Proof.
  induction 1 as [|a σ σ' O [ops IH] U E]; [by exists []|]. destruct a as [o|x|l mid|l|x]; destruct σ as [h n held]; simpl in E.
  - injection E as <-. destruct (call_ok md o _ (owned_winv _ _ O) U) as (_ & Eh & _). exists (ops ++ [o]). rewrite Eh, run_snoc. by rewrite IH.
  - injection E as <-. eauto.
  - injection E as <-. eauto.
  - injection E as <-. eauto.
  - apply bind_Some in E as (n' & _ & [= <-]). eauto.
Qed.

(** What a handle reaches is there. *)
Theorem C81_safe md σ x y : owned md σ -> y ∈ o_held σ -> reaches (o_heap σ) y x -> live σ x /\ valid (o_heap σ) x.
Proof.
  intros [_ I]%owned_winv Hy Hr. assert (is_Some (o_cnt σ !! x)) as H.
  { eapply oinv_reaches; [exact I|by eapply oinv_held|done]. }
  split; [done|]. by apply (oi_valid _ _ _ I).
Qed.

(** Which cells are there: those reached from the caller's handles or from a live cell that keeps itself alive. *)
Theorem C81_live md σ x : owned md σ ->
  live σ x <-> exists y, live σ y /\ reaches (o_heap σ) y x /\ (y ∈ o_held σ \/ cyclic (o_heap σ) y).
Proof.
  intros [_ I]%owned_winv. split.
  - intros H. by apply (live_source _ _ _ _ I).
  - intros (y & Hy & Hr & _). by eapply oinv_reaches.
Qed.

(** Without cycles, a cell is freed exactly when no handle of the caller reaches it. *)
Theorem C81_acyclic md σ : owned md σ -> (forall x, ~ cyclic (o_heap σ) x) ->
  (forall x, live σ x <-> exists y, y ∈ o_held σ /\ reaches (o_heap σ) y x) /\ (o_held σ = [] -> o_cnt σ = ∅).
Proof.
  intros O Hac.
  assert (forall x, live σ x <-> exists y, y ∈ o_held σ /\ reaches (o_heap σ) y x) as Q.
  { intros x. split.
    - intros (y & _ & Hr & [Hy|Hy])%(C81_live md σ x O); [eauto|]. by apply Hac in Hy.
    - intros (y & Hy & Hr). by eapply C81_safe. }
  split; [done|]. intros E. apply map_empty. intros x. destruct (o_cnt σ !! x) as [k|] eqn:Ex; [|done].
  destruct (proj1 (Q x)) as (y & Hy & _); [by exists k|]. rewrite E in Hy. by apply elem_of_nil in Hy.
Qed.

(** Circuits whose storages hold no modules are freed with their last handle. *)
Theorem C81_no_modules md σ : owned md σ -> (forall s a, h_stor (o_heap σ) !! s = Some a -> module_map a = ∅) -> o_held σ = [] -> o_cnt σ = ∅.
Proof.
  intros O Hm. apply C81_acyclic with md; [done|]. intros x Hc.
  assert (forall s y, ~ edge (o_heap σ) (inr s) y) as Hs.
  { intros s y. unfold edge. simpl. destruct (h_stor (o_heap σ) !! s) as [a|] eqn:E; [|apply not_elem_of_nil].
    rewrite (Hm s a E), map_to_list_empty. apply not_elem_of_nil. }
  assert (forall z y, tc (edge (o_heap σ)) (inr z) y -> False) as Ht by (intros z y T; inversion T; subst; by eapply Hs).
  destruct x as [l|s]; [|by eapply Ht]. unfold cyclic in Hc.
  assert (forall y, edge (o_heap σ) (inl l) y -> exists s, y = inr s) as Hl.
  { intros y. unfold edge. simpl. destruct (h_circ (o_heap σ) !! l); [|intros H; by apply elem_of_nil in H].
    intros ->%elem_of_list_singleton. eauto. }
  inversion Hc as [? ? He|? w ? He T]; subst; apply Hl in He as [s Es]; [done|]. subst. by eapply Ht.
Qed.

(** The leak: a live cell that keeps itself alive is never freed, nor is anything it reaches, whatever the caller does. *)
Theorem C81_leak md σ σ' x y : owned md σ -> live σ x -> cyclic (o_heap σ) x -> onwards md σ σ' -> reaches (o_heap σ') x y -> live σ' y.
Proof.
  intros O Hx Hc On Hr. pose proof (owned_winv _ _ O) as W. destruct (onwards_winv _ _ _ On W) as (W' & L & HP).
  destruct (cyclic_supported _ _ _ _ (wi_own _ W) Hx Hc) as (P & Px & HS). destruct (HP P HS x Px) as [H _].
  eapply oinv_reaches; [apply (wi_own _ W')|done|done].
Qed.

Lemma edge_storage h l c : h_circ h !! l = Some c -> edge h (inl l) (inr (c_storage c)).
Proof. intros H. unfold edge. simpl. rewrite H. left. Qed.
Lemma edge_module h s a mid l : h_stor h !! s = Some a -> module_map a !! mid = Some l -> edge h (inr s) (inl l).
Proof.
  intros H Hm. unfold edge. simpl. rewrite H. apply elem_of_list_fmap. exists (mid, l). split; [done|]. by apply elem_of_map_to_list.
Qed.
(** A circuit registered in its own storage: both keep themselves alive. *)
Lemma own_cyclic h l c a mid : h_circ h !! l = Some c -> h_stor h !! c_storage c = Some a -> module_map a !! mid = Some l ->
  cyclic h (inl l) /\ cyclic h (inr (c_storage c)).
Proof.
  intros Hl Ha Hm. pose proof (edge_storage _ _ _ Hl). pose proof (edge_module _ _ _ _ _ Ha Hm).
  split; (eapply tc_l; [done|]); by apply tc_once.
Qed.

(** [sub_circuit] leaks: the storage and the new circuit are never freed again, and neither is any module the storage has at any
    later time. *)
Theorem C81_sub_circuit md σ l c σ' : owned md σ -> inl l ∈ o_held σ -> h_circ (o_heap σ) !! l = Some c ->
  onwards md (call md (OpSub l) σ) σ' ->
  live σ' (inl (length (h_circ (o_heap σ)))) /\ live σ' (inr (c_storage c)) /\
  forall a mid l', h_stor (o_heap σ') !! c_storage c = Some a -> module_map a !! mid = Some l' -> live σ' (inl l').
Proof.
  intros O Hh Hl On. set (l1 := length (h_circ (o_heap σ))).
  assert (U : Forall (fun x => x ∈ o_held σ) (uses (ACall (OpSub l)))) by (simpl; by repeat constructor).
  assert (O1 : owned md (call md (OpSub l) σ)) by (eapply (owned_act md (ACall (OpSub l)) σ); [done|done|by destruct σ]).
  pose proof (owned_winv _ _ O) as W. pose proof (owned_winv _ _ O1) as W1.
  destruct (hi_stor _ (wi_heap _ W) l c Hl) as [a Ha].
  destruct (call_ok md (OpSub l) σ W U) as (_ & Eh & L & Hlive).
  assert (Er : run_op md (OpSub l) (o_heap σ) = (Ok (RSub (num_module a) l1), reg (add_circ (o_heap σ) (circuit_new (c_storage c))) (c_storage c) a l1)).
  { simpl. unfold as_ret, r_sub_circuit, st_bind, get_circ, get_stor. rewrite Hl, Ha. unfold alloc_circ. simpl.
    unfold s_register, st_bind, get_stor. simpl. rewrite Ha. done. }
  assert (Hnew : h_circ (o_heap (call md (OpSub l) σ)) !! l1 = Some (circuit_new (c_storage c))).
  { rewrite Eh. unfold step. rewrite Er. simpl. by apply list_lookup_middle. }
  assert (Hst : h_stor (o_heap (call md (OpSub l) σ)) !! c_storage c = Some (Storage (<[num_module a := l1]> (module_map a)) (num_module a + 1))).
  { rewrite Eh. unfold step. rewrite Er. simpl. apply list_lookup_insert. by eapply lookup_lt_Some. }
  destruct (own_cyclic _ l1 _ _ (num_module a) Hnew Hst) as [C1 C2]; [simpl; apply lookup_insert|].
  assert (V1 : live (call md (OpSub l) σ) (inl l1)).
  { unfold live, call. rewrite Er. cbn [o_cnt foldr]. apply inc_self. }
  assert (V2 : live (call md (OpSub l) σ) (inr (c_storage c))).
  { eapply oinv_edge; [apply (wi_own _ W1)|exact V1|]. apply (edge_storage _ _ _ Hnew). }
  split; [|split].
  - eapply (C81_leak md _ σ' (inl l1)); [done|done|done|done|apply rtc_refl].
  - eapply (C81_leak md _ σ' (inr (c_storage c))); [done|done|done|done|apply rtc_refl].
  - intros a' mid l' Ha' Hm. eapply (C81_leak md _ σ' (inr (c_storage c))); [done|done|done|done|]. apply rtc_once. by eapply edge_module.
Qed.

(** So does the registration of a circuit in its own storage. *)
Theorem C81_register md σ l l' c c' σ' : owned md σ -> inl l ∈ o_held σ -> inl l' ∈ o_held σ ->
  h_circ (o_heap σ) !! l = Some c -> h_circ (o_heap σ) !! l' = Some c' -> c_storage c = c_storage c' ->
  onwards md (call md (OpRegister l l') σ) σ' -> live σ' (inl l') /\ live σ' (inr (c_storage c)).
Proof.
  intros O Hh Hh' Hl Hl' Es On.
  assert (U : Forall (fun x => x ∈ o_held σ) (uses (ACall (OpRegister l l')))) by (simpl; by repeat constructor).
  assert (O1 : owned md (call md (OpRegister l l') σ)) by (eapply (owned_act md (ACall (OpRegister l l')) σ); [done|done|by destruct σ]).
  pose proof (owned_winv _ _ O) as W. pose proof (owned_winv _ _ O1) as W1.
  destruct (hi_stor _ (wi_heap _ W) l c Hl) as [a Ha].
  destruct (call_ok md (OpRegister l l') σ W U) as (_ & Eh & L & Hlive).
  assert (Er : run_op md (OpRegister l l') (o_heap σ) = (Ok (RModule (num_module a)), reg (o_heap σ) (c_storage c) a l')).
  { simpl. unfold as_ret, r_register, st_bind, get_circ. rewrite Hl, Hl'. unfold s_register, st_bind, get_stor. rewrite Ha. done. }
  assert (Hnew : h_circ (o_heap (call md (OpRegister l l') σ)) !! l' = Some c').
  { rewrite Eh. unfold step. by rewrite Er. }
  assert (Hst : h_stor (o_heap (call md (OpRegister l l') σ)) !! c_storage c' = Some (Storage (<[num_module a := l']> (module_map a)) (num_module a + 1))).
  { rewrite Eh. unfold step. rewrite Er. simpl. rewrite Es. rewrite <- Es. apply list_lookup_insert. by eapply lookup_lt_Some. }
  destruct (own_cyclic _ l' _ _ (num_module a) Hnew Hst) as [C1 C2]; [simpl; apply lookup_insert|].
  assert (V1 : live (call md (OpRegister l l') σ) (inl l')).
  { apply Hlive. eapply oinv_held; [apply (wi_own _ W)|done]. }
  assert (V2 : live (call md (OpRegister l l') σ) (inr (c_storage c'))).
  { eapply oinv_edge; [apply (wi_own _ W1)|exact V1|]. apply (edge_storage _ _ _ Hnew). }
  rewrite Es. split.
  - eapply (C81_leak md _ σ' (inl l')); [done|done|done|done|apply rtc_refl].
  - eapply (C81_leak md _ σ' (inr (c_storage c'))); [done|done|done|done|apply rtc_refl].
Qed.

(** The same when the call is made on the storage itself. *)
Theorem C81_put md σ l' c' σ' : owned md σ -> inr (c_storage c') ∈ o_held σ -> inl l' ∈ o_held σ ->
  h_circ (o_heap σ) !! l' = Some c' ->
  onwards md (call md (OpPut (c_storage c') l') σ) σ' -> live σ' (inl l') /\ live σ' (inr (c_storage c')).
Proof.
  intros O Hh Hh' Hl' On.
  assert (U : Forall (fun x => x ∈ o_held σ) (uses (ACall (OpPut (c_storage c') l')))) by (simpl; by repeat constructor).
  assert (O1 : owned md (call md (OpPut (c_storage c') l') σ)) by (eapply (owned_act md (ACall (OpPut (c_storage c') l')) σ); [done|done|by destruct σ]).
  pose proof (owned_winv _ _ O) as W. pose proof (owned_winv _ _ O1) as W1.
  destruct (hi_stor _ (wi_heap _ W) l' c' Hl') as [a Ha].
  destruct (call_ok md (OpPut (c_storage c') l') σ W U) as (_ & Eh & L & Hlive).
  assert (Er : run_op md (OpPut (c_storage c') l') (o_heap σ) = (Ok (RModule (num_module a)), reg (o_heap σ) (c_storage c') a l')).
  { simpl. unfold as_ret, st_bind, get_circ. rewrite Hl'. unfold s_register, st_bind, get_stor. rewrite Ha. done. }
  assert (Hnew : h_circ (o_heap (call md (OpPut (c_storage c') l') σ)) !! l' = Some c').
  { rewrite Eh. unfold step. by rewrite Er. }
  assert (Hst : h_stor (o_heap (call md (OpPut (c_storage c') l') σ)) !! c_storage c' = Some (Storage (<[num_module a := l']> (module_map a)) (num_module a + 1))).
  { rewrite Eh. unfold step. rewrite Er. simpl. apply list_lookup_insert. by eapply lookup_lt_Some. }
  destruct (own_cyclic _ l' _ _ (num_module a) Hnew Hst) as [C1 C2]; [simpl; apply lookup_insert|].
  assert (V1 : live (call md (OpPut (c_storage c') l') σ) (inl l')).
  { apply Hlive. eapply oinv_held; [apply (wi_own _ W)|done]. }
  assert (V2 : live (call md (OpPut (c_storage c') l') σ) (inr (c_storage c'))).
  { eapply oinv_edge; [apply (wi_own _ W1)|exact V1|]. apply (edge_storage _ _ _ Hnew). }
  split.
  - eapply (C81_leak md _ σ' (inl l')); [done|done|done|done|apply rtc_refl].
  - eapply (C81_leak md _ σ' (inr (c_storage c'))); [done|done|done|done|apply rtc_refl].
Qed.

(** A circuit that is no module of a live storage lives exactly as long as the caller has a handle of it. *)
Theorem C81_main md σ l : owned md σ ->
  (forall s a mid, live σ (inr s) -> h_stor (o_heap σ) !! s = Some a -> module_map a !! mid <> Some l) ->
  live σ (inl l) <-> inl l ∈ o_held σ.
Proof.
  intros O Hm. pose proof (wi_own _ (owned_winv _ _ O)) as I. split; [|by eapply oinv_held].
  intros H. destruct (oinv_pred _ _ _ _ I H) as [|(y & Hy & He)]; [done|]. exfalso.
  unfold edge in He. destruct y as [i|s]; simpl in He.
  - destruct (h_circ (o_heap σ) !! i); [|by apply elem_of_nil in He]. by apply elem_of_list_singleton in He.
  - destruct (h_stor (o_heap σ) !! s) as [a|] eqn:E; [|by apply elem_of_nil in He].
    apply elem_of_list_fmap in He as ([mid l'] & [= ->] & Hp). apply elem_of_map_to_list in Hp. by eapply Hm.
Qed.

(** * C82: the derived [Debug] *)
Lemma formats_edge f h x y : formats f h x = true -> edge h x y -> exists f', f' < f /\ formats f' h y = true.
Proof.
  destruct f as [|f]; [done|]. simpl. intros H He. exists f. split; [lia|].
  apply (proj1 (forallb_forall _ _) H). by apply elem_of_list_In.
Qed.
Lemma formats_tc f h x y : formats f h x = true -> tc (edge h) x y -> exists f', f' < f /\ formats f' h y = true.
Proof.
  intros H T. revert f H. induction T as [x y He|x y z He _ IH]; intros f H; [by eapply formats_edge|].
  destruct (formats_edge f h x y H He) as (f1 & ? & H1). destruct (IH f1 H1) as (f2 & ? & H2). exists f2. split; [lia|done].
Qed.
Lemma formats_acyclic f h x : formats f h x = true -> ~ cyclic h x.
Proof.
  revert x. induction (lt_wf f) as [f _ IH]. intros x H Hc. destruct (formats_tc f h x x H Hc) as (f' & Hf & H').
  by apply (IH f' Hf x H').
Qed.
Lemma formats_path f h : forall x, formats (S f) h x = false -> exists xs, length xs = f /\ path h x xs.
Proof.
  induction f as [|f IH]; intros x H; [exists []; done|].
  assert (exists y, y ∈ children h x /\ formats (S f) h y = false) as (y & Hy & Hf).
  { change (forallb (formats (S f) h) (children h x) = false) in H. revert H. generalize (children h x).
    induction l as [|y r IHr]; [done|]. cbn [forallb]. destruct (formats (S f) h y) eqn:E; intros H.
    - destruct IHr as (z & Hz & Hf); [done|]. exists z. split; [by right|done].
    - exists y. split; [left|done]. }
  destruct (IH y Hf) as (xs & Hl & Hp). exists (y :: xs). split; [simpl; lia|]. done.
Qed.

(** All cells of the heap. *)
Definition cells (h : heap) : list obj := (inl <$> seq 0 (length (h_circ h))) ++ (inr <$> seq 0 (length (h_stor h))).
Lemma cells_valid h x : x ∈ cells h <-> valid h x.
Proof.
  unfold cells. rewrite elem_of_app, !elem_of_list_fmap. destruct x as [l|s]; simpl.
  - split; [intros [(y & [= ->] & Hy)|(y & ? & _)]; [|done]|intros Hy; left; exists l; split; [done|]].
    + apply elem_of_seq in Hy. apply lookup_lt_is_Some. lia.
    + apply lookup_lt_is_Some in Hy. apply elem_of_seq. lia.
  - split; [intros [(y & ? & _)|(y & [= ->] & Hy)]; [done|]|intros Hy; right; exists s; split; [done|]].
    + apply elem_of_seq in Hy. apply lookup_lt_is_Some. lia.
    + apply lookup_lt_is_Some in Hy. apply elem_of_seq. lia.
Qed.
Lemma edge_valid h x y : hinv h -> edge h x y -> valid h y.
Proof.
  intros H. unfold edge. destruct x as [l|s]; simpl.
  - destruct (h_circ h !! l) as [c|] eqn:E; [|intros Hy; by apply elem_of_nil in Hy]. intros ->%elem_of_list_singleton.
    by apply (hi_stor h H l).
  - destruct (h_stor h !! s) as [a|] eqn:E; [|intros Hy; by apply elem_of_nil in Hy].
    intros ([mid l] & -> & Hp)%elem_of_list_fmap. apply elem_of_map_to_list in Hp. simpl.
    destruct (hi_mods h H s a E mid) as [H1 H2]. destruct (decide (mid < num_module a)%N) as [Hlt|].
    + destruct (H1 Hlt) as (l' & c' & Hm & Hc). rewrite Hm in Hp. injection Hp as ->. eauto.
    + rewrite H2 in Hp by lia. done.
Qed.
Lemma tc_valid h x y : hinv h -> tc (edge h) x y -> valid h y.
Proof. intros H T. induction T; [by eapply edge_valid|done]. Qed.

(** Formatting a cell ends exactly if the cell reaches no cell that keeps itself alive; then the nesting is at most the number of
    cells there are. *)
Theorem C82_ends md ops x : valid (run md ops) x ->
  ((exists fuel, formats fuel (run md ops) x = true) <-> forall y, reaches (run md ops) x y -> ~ cyclic (run md ops) y) /\
  ((exists fuel, formats fuel (run md ops) x = true) -> formats (S (length (cells (run md ops)))) (run md ops) x = true).
Proof.
  set (h := run md ops). pose proof (run_hinv md ops) as H. fold h in H. intros V.
  assert (A : (exists fuel, formats fuel h x = true) -> forall y, reaches h x y -> ~ cyclic h y).
  { intros [f Hf] y Hr Hc. apply rtc_tc in Hr as [->|T]; [by eapply formats_acyclic|].
    destruct (formats_tc f h x y Hf T) as (f' & _ & Hf'). by eapply formats_acyclic. }
  assert (B : (forall y, reaches h x y -> ~ cyclic h y) -> formats (S (length (cells h))) h x = true).
  { intros Hac. destruct (formats (S (length (cells h))) h x) eqn:E; [done|]. exfalso.
    destruct (formats_path _ _ _ E) as (xs & Hl & Hp).
    assert (R : forall y, y ∈ x :: xs -> y = x \/ tc (edge h) x y).
    { intros y [->|Hy]%elem_of_cons; [by left|]. right. by eapply path_reach. }
    destruct (path_long h x xs (cells h) Hp) as (y & Hy & Hc).
    - intros y [->|T]%R; apply cells_valid; [done|]. by eapply tc_valid.
    - lia.
    - apply (Hac y); [|done]. destruct (R y Hy) as [->|T]; [apply rtc_refl|by apply tc_rtc]. }
  split; [split; [done|]|]; eauto.
Qed.

(** Once a circuit is registered in its own storage — every [sub_circuit] does it — formatting any circuit of that storage, or
    the storage, never ends: the stack overflows. *)
Theorem C82_overflow md ops ops' l c l1 c1 s a mid fuel : h_circ (run md ops) !! l1 = Some c1 -> c_storage c1 = s ->
  h_stor (run md ops) !! s = Some a -> module_map a !! mid = Some l1 ->
  (h_circ (run md (ops ++ ops')) !! l = Some c -> c_storage c = s -> formats fuel (run md (ops ++ ops')) (inl l) = false) /\
  formats fuel (run md (ops ++ ops')) (inr s) = false.
Proof.
  intros H1 <- Ha Hm. pose proof (run_app_hle md ops ops') as L. set (h := run md (ops ++ ops')) in *.
  destruct (hle_circ _ _ L _ _ H1) as (c1' & H1' & Hc1). destruct (hle_stor _ _ L _ _ Ha) as (a' & Ha' & Hm' & _).
  destruct (own_cyclic h l1 c1' a' mid H1') as [_ C2]; [by rewrite (cle_st _ _ Hc1)|by eapply lookup_weaken|].
  rewrite (cle_st _ _ Hc1) in C2.
  assert (Q : formats fuel h (inr (c_storage c1)) = false).
  { destruct (formats fuel h (inr (c_storage c1))) eqn:E; [|done]. by apply formats_acyclic in E. }
  split; [|done]. intros Hl Es. destruct (formats fuel h (inl l)) eqn:E; [|done]. exfalso.
  destruct (formats_edge fuel h (inl l) (inr (c_storage c1)) E) as (f' & _ & E').
  { rewrite <- Es. by apply edge_storage. }
  by apply formats_acyclic in E'.
Qed.
Theorem C82_sub_circuit md ops ops' l c fuel : h_circ (run md ops) !! l = Some c ->
  formats fuel (run md (ops ++ OpSub l :: ops')) (inl l) = false /\
  formats fuel (run md (ops ++ OpSub l :: ops')) (inl (length (h_circ (run md ops)))) = false.
Proof.
  intros Hl. pose proof (run_hinv md ops) as H. destruct (hi_stor _ H l c Hl) as [a Ha].
  set (l1 := length (h_circ (run md ops))).
  assert (Er : run md (ops ++ [OpSub l]) = reg (add_circ (run md ops) (circuit_new (c_storage c))) (c_storage c) a l1).
  { rewrite run_snoc. unfold step. simpl. unfold as_ret, r_sub_circuit, st_bind, get_circ, get_stor. rewrite Hl, Ha. unfold alloc_circ. simpl.
    unfold s_register, st_bind, get_stor. simpl. by rewrite Ha. }
  assert (Hnew : h_circ (run md (ops ++ [OpSub l])) !! l1 = Some (circuit_new (c_storage c))).
  { rewrite Er. simpl. by apply list_lookup_middle. }
  assert (Hst : h_stor (run md (ops ++ [OpSub l])) !! c_storage c = Some (Storage (<[num_module a := l1]> (module_map a)) (num_module a + 1))).
  { rewrite Er. simpl. apply list_lookup_insert. by eapply lookup_lt_Some. }
  replace (ops ++ OpSub l :: ops') with ((ops ++ [OpSub l]) ++ ops') by (by rewrite <- app_assoc).
  pose proof (run_app_hle md (ops ++ [OpSub l]) ops') as L. pose proof (run_app_hle md ops [OpSub l]) as L0.
  destruct (hle_circ _ _ L _ _ Hnew) as (cn & Hn & Hcn). destruct (hle_circ _ _ L0 _ _ Hl) as (c0 & H0 & Hc0).
  destruct (hle_circ _ _ L _ _ H0) as (c2 & H2 & Hc2).
  split.
  - destruct (C82_overflow md (ops ++ [OpSub l]) ops' l c2 l1 (circuit_new (c_storage c)) (c_storage c) _ (num_module a) fuel Hnew eq_refl Hst) as [Q _];
      [simpl; apply lookup_insert|]. apply Q; [done|]. by rewrite (cle_st _ _ Hc2), (cle_st _ _ Hc0).
  - destruct (C82_overflow md (ops ++ [OpSub l]) ops' l1 cn l1 (circuit_new (c_storage c)) (c_storage c) _ (num_module a) fuel Hnew eq_refl Hst) as [Q _];
      [simpl; apply lookup_insert|]. apply Q; [done|]. by rewrite (cle_st _ _ Hcn).
Qed.

(** * Examples *)
(** The actions one after the other. *)
Fixpoint acts (md : mode) (xs : list action) (σ : owner) : option owner :=
  match xs with
  | [] => Some σ
  | a :: r => if decide (Forall (fun x => x ∈ o_held σ) (uses a)) then σ' ← act md a σ; acts md r σ' else None
  end.
Lemma acts_owned md xs : forall σ σ', owned md σ -> acts md xs σ = Some σ' -> owned md σ'.
Proof.
  induction xs as [|a r IH]; intros σ σ' O; simpl; [by intros [= <-]|]. case_decide; [|done].
  intros (σ1 & E & E')%bind_Some. eapply IH; [|done]. by econstructor.
Qed.

(** A circuit with a sub-circuit, all handles dropped: the circuit is freed, the sub-circuit and the storage stay, with counts 1 and 1. *)
Definition leak_actions : list action :=
  [ACall OpNewStorage; ACall (OpNewCircuit 0); ACall (OpSub 0); ACall (OpInput 0); ACall (OpInput 1); ADup (inl 1); AGet 0 0; AField 0;
   ADrop (inr 0); ADrop (inl 1); ADrop (inl 0); ADrop (inl 1); ADrop (inl 1)].
Example C81_example_leak :
  (σ ← acts Debug leak_actions owner_empty; Some (o_held σ, o_cnt σ !! inl 0, o_cnt σ !! inl 1, o_cnt σ !! inr 0)) =
  Some ([], None, Some 1, Some 1).
Proof. vm_compute. reflexivity. Qed.
(** A module registered in another storage: everything is freed. *)
Definition free_actions : list action :=
  [ACall OpNewStorage; ACall OpNewStorage; ACall (OpNewCircuit 0); ACall (OpNewCircuit 1); ACall (OpRegister 0 1); ACall (OpClone 0);
   ADrop (inl 1); ADrop (inl 0); ADrop (inl 2)].
Example C81_example_free :
  (σ ← acts Debug (take 8 free_actions) owner_empty; Some (o_held σ, size (o_cnt σ))) = Some ([inl 2], 4) /\
  (σ ← acts Debug free_actions owner_empty; Some (o_held σ, size (o_cnt σ))) = Some ([], 0).
Proof. split; vm_compute; reflexivity. Qed.
Example C82_example :
  formats 4 (run Debug [OpNewStorage; OpNewStorage; OpNewCircuit 0; OpNewCircuit 1; OpRegister 0 1]) (inl 0) = true /\
  formats 3 (run Debug [OpNewStorage; OpNewStorage; OpNewCircuit 0; OpNewCircuit 1; OpRegister 0 1]) (inl 0) = false.
Proof. split; vm_compute; reflexivity. Qed.
