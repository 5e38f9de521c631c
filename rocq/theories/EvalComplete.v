(** On disciplined circuits whose outputs are not consumed too early the evaluator terminates with Ok (property C13). *)
From Verif Require Export EvalSound Disc DepsFacts.

(** Gates evaluated on behalf of [g]: its block and everything its operands need. *)
Inductive touch (c : circuit) : N -> N -> Prop :=
| touch_self g x : x ∈ blk c g -> touch c g x
| touch_oper g gt a x : gate_map c !! g = Some gt -> a ∈ operands gt -> touch c a x -> touch c g x.

(** Each output has no consumer, or one that the earlier outputs do not need, or it is an argument of a module call with several outputs: the
    evaluator counts such a call once, while each output of the call is a consumer, so that the argument is never removed. *)
Definition output_fine (c : circuit) (k o : N) : Prop :=
  deps c o = [] \/ exists d, d ∈ deps c o /\
    ((exists gt, gate_map c !! d = Some gt /\ gate_oi gt <> 0) \/ forall k' o', k' < k -> output_map c !! k' = Some o' -> ~ touch c o' d).
Definition outputs_ok (c : circuit) : Prop := forall k o, output_map c !! k = Some o -> output_fine c k o.

(** The outputs of the circuit and of all circuits it calls, directly or not, are fine. *)
Inductive evaluable (h : heap) : nat -> Prop :=
| evaluable_intro l c : h_circ h !! l = Some c -> outputs_ok c -> (forall l', calls h c l' -> evaluable h l') -> evaluable h l.

Section one.
Context (md : mode) (h : heap) (l : nat) (c : circuit).
Context (Hinv : hinv h) (E : h_circ h !! l = Some c) (D : cdisc h c).
Let W : cwf c := hi_circ h Hinv l c E.

Definition head (d : N) : bool := match gate_map c !! d with Some gt => gate_oi gt =? 0 | None => false end.
Definition consumed (S : gset N) (g : N) : nat := length (List.filter (fun d => bool_decide (d ∈ S) && head d) (deps c g)).

Lemma filter_le {A} (f : A -> bool) xs : (length (List.filter f xs) <= length xs)%nat.
Proof. induction xs as [|x xs IH]; simpl; [lia|]. destruct (f x); simpl; lia. Qed.
Lemma filter_lt {A} (f : A -> bool) xs x : x ∈ xs -> f x = false -> (length (List.filter f xs) < length xs)%nat.
Proof.
  induction xs as [|y xs IH]; intros Hx Hf; [by apply elem_of_nil in Hx|]. simpl.
  apply elem_of_cons in Hx as [->|Hx].
  - rewrite Hf. pose proof (filter_le f xs). lia.
  - specialize (IH Hx Hf). destruct (f y); simpl; lia.
Qed.
Lemma filter_all {A} (f : A -> bool) xs : (forall x, x ∈ xs -> f x = true) -> List.filter f xs = xs.
Proof.
  induction xs as [|x xs IH]; intros H; [done|]. simpl. rewrite (H x) by left. f_equal. apply IH. intros. apply H. by right.
Qed.
Lemma filter_split (f g : N -> bool) hd xs : (forall x, x ∈ xs -> g x = f x || (x =? hd)) -> f hd = false ->
  length (List.filter g xs) = (length (List.filter f xs) + cnt xs hd)%nat.
Proof.
  intros H Hf. induction xs as [|x xs IH]; simpl; [done|].
  rewrite (H x) by left. specialize (IH ltac:(intros; apply H; by right)).
  destruct (N.eqb_spec x hd) as [->|Hne].
  - rewrite Hf. simpl. destruct N.eq_dec; [|done]. lia.
  - rewrite orb_false_r. destruct N.eq_dec; [done|]. destruct (f x); simpl; lia.
Qed.

(** Reference counts with [off g] additional decrements already done. *)
Record J (S : gset N) (off : N -> nat) (s : estate) : Prop := {
  J_ev : forall g, is_Some (evaled s !! g) <-> g ∈ S /\ (deps c g = [] \/ (consumed S g + off g < length (deps c g))%nat);
  J_nd : forall g, is_Some (evaled s !! g) -> ndep s !! g = Some (N.of_nat (length (deps c g) - (consumed S g + off g)));
}.
(** [S]: the gates evaluated so far. *)
Record I (S : gset N) (s : estate) : Prop := {
  I_J : J S (fun _ => O) s;
  I_op : forall g gt a, g ∈ S -> gate_map c !! g = Some gt -> a ∈ operands gt -> a ∈ S;
  I_blk : forall g x, g ∈ S -> x ∈ blk c g -> x ∈ S;
  I_in : forall g w, gate_map c !! g = Some (GInput w) -> g ∈ S;
  I_dom : forall g, g ∈ S -> is_Some (gate_map c !! g);
}.

Lemma avail S s g gt a : I S s -> gate_map c !! g = Some gt -> g ∉ S -> a ∈ operands gt -> a ∈ S -> is_Some (evaled s !! a).
Proof.
  intros HI G Hg Ha HaS. apply (J_ev _ _ _ (I_J _ _ HI)). split; [done|]. right.
  rewrite Nat.add_0_r. apply filter_lt with (x := g).
  - apply (deps_in c W). eauto.
  - rewrite bool_decide_false by done. done.
Qed.

Lemma start_lt g gt : gate_map c !! g = Some gt -> start c g <= g.
Proof. intros G. unfold start. rewrite G. lia. Qed.
Lemma operand_lt_start g gt a : gate_map c !! g = Some gt -> a ∈ operands gt -> a < start c g.
Proof. intros G A. pose proof (d_ops h c D _ _ _ G A). unfold start. by rewrite G. Qed.
Lemma operand_exists g gt a : gate_map c !! g = Some gt -> a ∈ operands gt -> is_Some (gate_map c !! a).
Proof.
  intros G A. apply (wf_gates c W). pose proof (operand_lt_start _ _ _ G A). pose proof (start_lt _ _ G).
  pose proof (gm_lt c g gt W G). lia.
Qed.

Lemma touch_below n a x : touch c a x -> is_Some (gate_map c !! n) -> (forall gt', gate_map c !! n = Some gt' -> gate_oi gt' = 0) ->
  is_Some (gate_map c !! a) -> a < n -> x < n.
Proof.
  intros T Hn Hn0. induction T as [g x Hx|g gt a x G A T IH]; intros [ga Ga] Hlt.
  - by eapply (blk_below c W n g ga x).
  - apply IH; [exact (operand_exists _ _ _ G A)|]. pose proof (operand_lt_start _ _ _ G A). pose proof (start_lt _ _ G). lia.
Qed.

Lemma start_boundary g gt : gate_map c !! g = Some gt ->
  is_Some (gate_map c !! start c g) /\ (forall gt', gate_map c !! start c g = Some gt' -> gate_oi gt' = 0).
Proof.
  intros G. destruct (start_gate c W g gt G) as (gt' & G' & H0 & _). split; [eauto|]. intros. congruence.
Qed.

(** What an operand needs never includes the block of its consumer. *)
Lemma touch_not_blk g gt a x : gate_map c !! g = Some gt -> a ∈ operands gt -> touch c a x -> x ∉ blk c g.
Proof.
  intros G A T Hx. destruct (start_boundary g gt G) as [B1 B2].
  assert (x < start c g).
  { eapply touch_below; eauto using operand_exists, operand_lt_start. }
  destruct (blk_member c W g gt x G Hx) as (gt' & _ & _ & _ & _ & Hx' & _). lia.
Qed.

(** * Single steps *)
Lemma e_get_ok s a : is_Some (evaled s !! a) -> exists b, e_get a s = (Ok b, s).
Proof. intros [b Hb]. exists b. unfold e_get. by rewrite Hb. Qed.

Lemma e_decr_ok S off s a : J S off s -> a ∈ S -> (consumed S a + off a < length (deps c a))%nat ->
  exists s', e_decr md a s = (Ok tt, s') /\ J S (fun x => if decide (x = a) then Datatypes.S (off x) else off x) s'.
Proof.
  intros HJ HaS Hlt.
  assert (Hev : is_Some (evaled s !! a)) by (apply (J_ev _ _ _ HJ); auto).
  unfold e_decr. rewrite (J_nd _ _ _ HJ a Hev). unfold usize_sub.
  destruct (N.leb_spec 1 (N.of_nat (length (deps c a) - (consumed S a + off a)))) as [Hle|]; [|lia].
  destruct (N.eqb_spec (N.of_nat (length (deps c a) - (consumed S a + off a)) - 1) 0) as [Hz|Hnz].
  - eexists. split; [done|]. split; simpl.
    + intros g. destruct (decide (g = a)) as [->|Hne].
      * rewrite lookup_delete. split; [intros [? ?]; done|]. intros [_ [Hd|Hd]]; [rewrite Hd in Hlt; simpl in Hlt; lia|lia].
      * rewrite lookup_delete_ne by done. apply (J_ev _ _ _ HJ).
    + intros g. destruct (decide (g = a)) as [->|Hne].
      * rewrite lookup_delete. intros [? ?]. done.
      * rewrite !lookup_delete_ne by done. apply (J_nd _ _ _ HJ).
  - eexists. split; [done|]. split; simpl.
    + intros g. destruct (decide (g = a)) as [->|Hne].
      * split; [|done]. intros _. split; [done|]. right. lia.
      * apply (J_ev _ _ _ HJ).
    + intros g Hg. destruct (decide (g = a)) as [->|Hne].
      * rewrite lookup_insert. f_equal. lia.
      * rewrite lookup_insert_ne by done. by apply (J_nd _ _ _ HJ).
Qed.

Lemma J_ext S off off' s : (forall x, off x = off' x) -> J S off s -> J S off' s.
Proof. intros Hx [H1 H2]. split; intros g; rewrite <- Hx; auto. Qed.

Lemma consumed_bound S g gt a : gate_map c !! g = Some gt -> start c g ∉ S ->
  (consumed S a + occ a (operands gt) <= length (deps c a))%nat.
Proof.
  intros G Hs. destruct (start_gate c W g gt G) as (gt' & G' & H0 & Hin).
  destruct (blk_member c W g gt _ G Hin) as (gt2 & G2 & Ho & _). rewrite G' in G2. injection G2 as <-.
  assert (cnt (deps c a) (start c g) = occ a (operands gt)) as <-.
  { rewrite (deps_count c W), G', Ho. done. }
  unfold consumed.
  rewrite <- (filter_split (fun d => bool_decide (d ∈ S) && head d) (fun d => (bool_decide (d ∈ S) && head d) || (d =? start c g))).
  - apply filter_le.
  - done.
  - rewrite bool_decide_false by done. done.
Qed.

Lemma e_decrs_ok S off s g gt ids pre : J S off s -> gate_map c !! g = Some gt -> operands gt = pre ++ ids ->
  (forall x, off x = occ x pre) -> start c g ∉ S -> (forall a, a ∈ ids -> a ∈ S) ->
  exists s', st_iterM (e_decr md) ids s = (Ok tt, s') /\ J S (fun x => occ x (operands gt)) s'.
Proof.
  revert S off s pre. induction ids as [|a ids IH]; intros S off s pre HJ G Ho Hoff Hst Hin; simpl.
  - exists s. split; [done|]. rewrite Ho, app_nil_r. by eapply J_ext.
  - destruct (e_decr_ok S off s a HJ) as (s1 & E1 & HJ1).
    + apply Hin. left.
    + pose proof (consumed_bound S g gt a G Hst). rewrite Hoff. rewrite Ho in H. unfold occ in *. rewrite count_occ_app in H.
      simpl in H. destruct (N.eq_dec a a); [lia|done].
    + edestruct (IH S (fun x => if decide (x = a) then Datatypes.S (off x) else off x) s1 (pre ++ [a])) as (s2 & E2 & HJ2); eauto.
      * by rewrite <- app_assoc.
      * intros x. unfold occ. rewrite count_occ_app. simpl. fold (occ x pre). rewrite Hoff.
        destruct (N.eq_dec a x), (decide (x = a)); subst; try done; lia.
      * intros. apply Hin. by right.
      * exists s2. split; [|done]. unfold st_bind. rewrite E1. exact E2.
Qed.

(** After the decrements, storing the whole block of [g] gives the next invariant. *)
Lemma finish S s s' g gt : I S s -> gate_map c !! g = Some gt -> g ∉ S -> (forall a, a ∈ operands gt -> a ∈ S) ->
  forall s1, J S (fun x => occ x (operands gt)) s1 ->
  (forall x, x ∈ blk c g -> is_Some (evaled s' !! x) /\ ndep s' !! x = Some (num_deps c x)) ->
  (forall x, x ∉ blk c g -> evaled s' !! x = evaled s1 !! x /\ ndep s' !! x = ndep s1 !! x) ->
  I (S ∪ list_to_set (blk c g)) s' /\ forall d, d ∈ deps c g -> d ∉ S ∪ list_to_set (blk c g).
Proof.
  intros HI G Hg Hops s1 HJ Hin Hout.
  set (S' := S ∪ list_to_set (blk c g)).
  destruct (start_gate c W g gt G) as (gt0 & G0 & H0 & Hst).
  assert (Hdis : forall x, x ∈ blk c g -> x ∉ S).
  { intros x Hx HxS. apply Hg. eapply (I_blk _ _ HI x); [done|].
    destruct (blk_member c W g gt x G Hx) as (gt' & _ & _ & _ & -> & _). by eapply blk_self. }
  (* consumers of a block member are neither in S nor in the block *)
  assert (Hfresh : forall x d, x ∈ blk c g -> d ∈ deps c x -> d ∉ S').
  { intros x d Hx Hd HdS. apply (deps_in c W) in Hd as (gd & Gd & Ax).
    apply elem_of_union in HdS as [HdS|HdB%elem_of_list_to_set].
    - apply (Hdis x Hx). by eapply (I_op _ _ HI d).
    - destruct (blk_member c W g gt d G HdB) as (gd' & Gd' & Ho & Hs & _). rewrite Gd in Gd'. injection Gd' as <-.
      pose proof (operand_lt_start d gd x Gd Ax). rewrite Hs in H.
      destruct (blk_member c W g gt x G Hx) as (gx & _ & _ & _ & _ & Hx' & _). lia. }
  assert (Hcons_in : forall x, x ∈ blk c g -> consumed S' x = O).
  { intros x Hx. unfold consumed. destruct (List.filter _ _) as [|d ds] eqn:Ef; [done|].
    assert (In d (d :: ds)) as Hd by (by left). rewrite <- Ef in Hd. apply filter_In in Hd as [Hd Hb].
    apply andb_true_iff in Hb as [Hb _]. apply bool_decide_eq_true in Hb. apply elem_of_list_In in Hd.
    by destruct (Hfresh x d Hx Hd). }
  assert (Hcons_out : forall x, consumed S' x = (consumed S x + occ x (operands gt))%nat).
  { intros x. destruct (blk_member c W g gt _ G Hst) as (gt2 & G2 & Ho & _). rewrite G0 in G2. injection G2 as <-.
    assert (cnt (deps c x) (start c g) = occ x (operands gt)) as <-. { rewrite (deps_count c W), G0, Ho. done. }
    unfold consumed. apply filter_split.
    - intros d Hd. destruct (N.eqb_spec d (start c g)) as [->|Hne].
      + rewrite orb_true_r. rewrite bool_decide_true by (apply elem_of_union; right; by apply elem_of_list_to_set).
        unfold head. rewrite G0, H0. done.
      + rewrite orb_false_r. destruct (decide (d ∈ S)) as [HdS|HdS].
        * rewrite !bool_decide_true; [done| done|]. apply elem_of_union. by left.
        * rewrite (bool_decide_false (d ∈ S)) by done. simpl.
          destruct (decide (d ∈ blk c g)) as [HdB|HdB].
          -- destruct (blk_member c W g gt d G HdB) as (gd & Gd & _ & _ & _ & Hd' & _).
             unfold head. rewrite Gd. destruct (N.eqb_spec (gate_oi gd) 0); [lia|]. by rewrite andb_false_r.
          -- rewrite bool_decide_false; [done|]. intros [?|?%elem_of_list_to_set]%elem_of_union; done.
    - rewrite bool_decide_false by (by apply Hdis). done. }
  split; [split|].
  - split.
    + intros x. destruct (decide (x ∈ blk c g)) as [Hx|Hx].
      * split; [|intros _; by apply Hin]. intros _. split; [apply elem_of_union; right; by apply elem_of_list_to_set|].
        rewrite Hcons_in by done. destruct (deps c x); [by left|right; simpl; lia].
      * destruct (Hout x Hx) as [-> _]. rewrite (J_ev _ _ _ HJ x), Hcons_out, Nat.add_0_r. split.
        -- intros [? ?]. split; [apply elem_of_union; by left|done].
        -- intros [[?|?%elem_of_list_to_set]%elem_of_union ?]; done.
    + intros x Hev. destruct (decide (x ∈ blk c g)) as [Hx|Hx].
      * destruct (Hin x Hx) as [_ ->]. rewrite Hcons_in by done. unfold num_deps. do 2 f_equal. lia.
      * destruct (Hout x Hx) as [He ->]. rewrite He in Hev. rewrite (J_nd _ _ _ HJ x Hev), Hcons_out. do 2 f_equal. lia.
  - intros d gd a [Hd|Hd%elem_of_list_to_set]%elem_of_union Gd Ha; apply elem_of_union; left.
    + by eapply (I_op _ _ HI d).
    + destruct (blk_member c W g gt d G Hd) as (gd' & Gd' & Ho & _). rewrite Gd in Gd'. injection Gd' as <-.
      apply Hops. by rewrite <- Ho.
  - intros d x [Hd|Hd%elem_of_list_to_set]%elem_of_union Hx; apply elem_of_union.
    + left. by eapply (I_blk _ _ HI d).
    + right. apply elem_of_list_to_set. destruct (blk_member c W g gt d G Hd) as (gd' & _ & _ & _ & <- & _). done.
  - intros x w Gx. apply elem_of_union. left. by eapply (I_in _ _ HI).
  - intros x [Hx|Hx%elem_of_list_to_set]%elem_of_union; [by eapply (I_dom _ _ HI)|].
    destruct (blk_member c W g gt x G Hx) as (gx & -> & _). eauto.
  - intros d Hd. apply (Hfresh g d); [|done]. by eapply blk_self.
Qed.

(** * Gates *)
Context (K : nat).
Context (Hcallee : forall l', calls h c l' -> forall m fuel bits, h_circ h !! l' = Some m ->
  (K <= fuel)%nat -> N.of_nat (length bits) = input_len m -> exists outs, eval_output md h fuel l' bits = Ok outs).

Definition claim (fuel : nat) (g : N) : Prop := forall S s, I S s -> g ∉ S -> is_Some (gate_map c !! g) ->
  exists S' s', eval_gate md h fuel l g s = (Ok tt, s') /\ I S' s' /\ S ⊆ S' /\ g ∈ S' /\
    (forall x, x ∈ S' -> x ∉ S -> touch c g x) /\ (forall d, d ∈ deps c g -> d ∉ S').

Lemma e_need_ok fuel S s g gt a : (forall a, a < start c g -> claim fuel a) -> I S s -> gate_map c !! g = Some gt -> g ∉ S ->
  a ∈ operands gt ->
  exists S' s', e_need (eval_gate md h fuel l) a s = (Ok tt, s') /\ I S' s' /\ S ⊆ S' /\ a ∈ S' /\ g ∉ S' /\
    (forall x, x ∈ S' -> x ∉ S -> touch c a x).
Proof.
  intros HC HI G Hg Ha. unfold e_need. destruct (evaled s !! a) as [b|] eqn:Ev.
  - exists S, s. split; [done|]. split; [done|]. split; [done|]. split; [|split; [done|by intros]].
    apply (J_ev _ _ _ (I_J _ _ HI)). eauto.
  - assert (HaS : a ∉ S). { intros HaS. destruct (avail S s g gt a) as [? ?]; try done. congruence. }
    destruct (HC a ltac:(by eapply operand_lt_start) S s HI HaS) as (S' & s' & Ee & HI' & Hsub & HaS' & Ht & _).
    { by eapply operand_exists. }
    exists S', s'. split; [done|]. split; [done|]. split; [done|]. split; [done|]. split; [|done].
    intros HgS. apply (touch_not_blk g gt a g G Ha (Ht g HgS Hg)). by eapply blk_self.
Qed.

Lemma e_needs_ok fuel S s g gt ids : (forall a, a < start c g -> claim fuel a) -> I S s -> gate_map c !! g = Some gt -> g ∉ S ->
  (forall a, a ∈ ids -> a ∈ operands gt) ->
  exists S' s' bits, st_mapM (fun id => e_need (eval_gate md h fuel l) id ;; e_get id) ids s = (Ok bits, s') /\
    length bits = length ids /\ I S' s' /\ S ⊆ S' /\ (forall a, a ∈ ids -> a ∈ S') /\ g ∉ S' /\
    (forall x, x ∈ S' -> x ∉ S -> exists a, a ∈ ids /\ touch c a x).
Proof.
  intros HC. revert S s. induction ids as [|a ids IH]; intros S s HI G Hg Hids; simpl.
  - exists S, s, []. split; [done|]. split; [done|]. split; [done|]. split; [done|].
    split; [intros a []%elem_of_nil|]. split; [done|]. by intros.
  - destruct (e_need_ok fuel S s g gt a HC HI G Hg) as (S1 & s1 & E1 & HI1 & Hs1 & Ha1 & Hg1 & Ht1).
    { apply Hids. left. }
    destruct (e_get_ok s1 a) as (b & Eb). { eapply avail; eauto. apply Hids. left. }
    destruct (IH S1 s1 HI1 G Hg1) as (S2 & s2 & bits & E2 & Hl & HI2 & Hs2 & Ha2 & Hg2 & Ht2).
    { intros. apply Hids. by right. }
    exists S2, s2, (b :: bits). split.
    { rewrite (st_bind_ok _ _ _ b s1); [by rewrite (st_bind_ok _ _ _ _ _ E2)|]. by rewrite (st_bind_ok _ _ _ _ _ E1). }
    split; [simpl; lia|]. split; [done|]. split; [set_solver|]. split.
    { intros x [->|Hx]%elem_of_cons; [set_solver|auto]. }
    split; [done|]. intros x Hx Hx'. destruct (decide (x ∈ S1)).
    + exists a. split; [left|auto].
    + destruct (Ht2 x Hx) as (a' & ? & ?); [done|]. exists a'. split; [by right|done].
Qed.

Lemma e_binary_eq eg f g a b s : e_binary md c eg f g a b s =
  (e_need eg a ;; e_need eg b ;; x <- e_get a ;; y <- e_get b ;; st_iterM (e_decr md) [a; b] ;; e_insert c g (f x y)) s.
Proof.
  unfold e_binary, st_bind, st_iterM, st_ret, st_bind.
  destruct (e_need eg a s) as [[]]; try done. destruct (e_need eg b _) as [[]]; try done.
  destruct (e_get a _) as [[]]; try done. destruct (e_get b _) as [[]]; try done.
  destruct (e_decr md a _) as [[]]; try done. destruct (e_decr md b _) as [[]]; try done.
Qed.

Lemma binary_claim fuel f g gt a b S s : (forall a, a < start c g -> claim fuel a) -> I S s ->
  gate_map c !! g = Some gt -> g ∉ S -> operands gt = [a; b] -> is_module gt = false ->
  exists S' s', e_binary md c (eval_gate md h fuel l) f g a b s = (Ok tt, s') /\ I S' s' /\ S ⊆ S' /\ g ∈ S' /\
    (forall x, x ∈ S' -> x ∉ S -> touch c g x) /\ (forall d, d ∈ deps c g -> d ∉ S').
Proof.
  intros HC HI G Hg Ho Hm.
  assert (Ha : a ∈ operands gt) by (rewrite Ho; left). assert (Hb : b ∈ operands gt) by (rewrite Ho; right; left).
  destruct (e_need_ok fuel S s g gt a HC HI G Hg Ha) as (S1 & s1 & E1 & HI1 & Hs1 & Ha1 & Hg1 & Ht1).
  destruct (e_need_ok fuel S1 s1 g gt b HC HI1 G Hg1 Hb) as (S2 & s2 & E2 & HI2 & Hs2 & Hb2 & Hg2 & Ht2).
  assert (Ha2 : a ∈ S2) by set_solver.
  destruct (e_get_ok s2 a) as (x & Ex). { by eapply avail. }
  destruct (e_get_ok s2 b) as (y & Ey). { by eapply avail. }
  assert (Hblk : blk c g = [g]). { unfold blk. rewrite G. by destruct gt. }
  assert (Hst : start c g = g). { unfold start. rewrite G. destruct gt; try done; simpl; lia. }
  destruct (e_decrs_ok S2 (fun _ => O) s2 g gt [a; b] []) as (s3 & E3 & HJ3); try done.
  { apply HI2. } { by rewrite Hst. }
  { intros z [->|[->|[]%elem_of_nil]%elem_of_cons]%elem_of_cons; done. }
  set (s4 := EState (<[g := f x y]> (evaled s3)) (<[g := num_deps c g]> (ndep s3))).
  destruct (finish S2 s2 s4 g gt HI2 G Hg2) with (s1 := s3) as [HI4 Hd4]; try done.
  { intros z. rewrite Ho. intros [->|[->|[]%elem_of_nil]%elem_of_cons]%elem_of_cons; done. }
  { rewrite Hblk. intros z ->%elem_of_list_singleton. simpl. rewrite !lookup_insert. eauto. }
  { rewrite Hblk. intros z Hz%not_elem_of_cons. simpl. rewrite !lookup_insert_ne by naive_solver. done. }
  exists (S2 ∪ list_to_set (blk c g)), s4. split.
  { rewrite e_binary_eq. unfold st_bind at 1. rewrite E1. unfold st_bind at 1. rewrite E2. unfold st_bind at 1. rewrite Ex.
    unfold st_bind at 1. rewrite Ey. unfold st_bind at 1. rewrite E3. done. }
  split; [done|]. split; [set_solver|]. split. { rewrite Hblk. set_solver. }
  split; [|done]. intros z [Hz|Hz%elem_of_list_to_set]%elem_of_union Hz'; [|by apply touch_self].
  destruct (decide (z ∈ S1)).
  - eapply touch_oper; [done|exact Ha|auto].
  - eapply touch_oper; [done|exact Hb|auto].
Qed.

Lemma e_insert_outputs_ok first outs i k s : (N.to_nat i + k <= length outs)%nat ->
  exists s', e_insert_outputs c first outs i k s = (Ok tt, s') /\
   (forall x, first + i <= x < first + i + N.of_nat k -> is_Some (evaled s' !! x) /\ ndep s' !! x = Some (num_deps c x)) /\
   (forall x, ~ (first + i <= x < first + i + N.of_nat k) -> evaled s' !! x = evaled s !! x /\ ndep s' !! x = ndep s !! x).
Proof.
  revert i s. induction k as [|k IH]; intros i s Hlen; cbn [e_insert_outputs].
  - exists s. split; [done|]. split; [lia|done].
  - destruct (lookup_lt_is_Some_2 outs (N.to_nat i)) as [b Hb]; [lia|].
    destruct (IH (i + 1) (EState (<[first + i := b]> (evaled s)) (<[first + i := num_deps c (first + i)]> (ndep s)))) as (s' & E1 & H1 & H2).
    { lia. }
    exists s'. split.
    { unfold st_bind at 1, st_nth. rewrite Hb. exact E1. }
    split.
    + intros x Hx. destruct (decide (x = first + i)) as [->|].
      * destruct (H2 (first + i)) as [-> ->]; [lia|]. simpl. rewrite !lookup_insert. eauto.
      * apply H1. lia.
    + intros x Hx. destruct (H2 x) as [-> ->]; [lia|]. simpl. rewrite !lookup_insert_ne by lia. done.
Qed.

Lemma eval_gate_claim g fuel : (K + N.to_nat g < fuel)%nat -> claim fuel g.
Proof.
  revert fuel. induction (N.lt_wf_0 g) as [g _ IH]. intros [|fuel] Hf; [lia|].
  intros S s HI Hg [gt G].
  assert (HC : forall a, a < start c g -> claim fuel a).
  { intros a Ha. pose proof (start_lt _ _ G). apply IH; lia. }
  cbn [eval_gate]. rewrite E, G. destruct gt as [w|b|a|a b|a b|a b|il ol ids oi mid].
  - destruct Hg. by eapply (I_in _ _ HI).
  - assert (Hblk : blk c g = [g]) by (unfold blk; by rewrite G).
    set (s4 := EState (<[g := b]> (evaled s)) (<[g := num_deps c g]> (ndep s))).
    destruct (finish S s s4 g _ HI G Hg) with (s1 := s) as [HI4 Hd4].
    { intros a []%elem_of_nil. } { apply HI. }
    { rewrite Hblk. intros z ->%elem_of_list_singleton. simpl. rewrite !lookup_insert. eauto. }
    { rewrite Hblk. intros z Hz%not_elem_of_cons. simpl. rewrite !lookup_insert_ne by naive_solver. done. }
    exists (S ∪ list_to_set (blk c g)), s4. split; [done|]. split; [done|]. split; [set_solver|].
    split; [rewrite Hblk; set_solver|]. split; [|done].
    intros z [Hz|Hz%elem_of_list_to_set]%elem_of_union Hz'; [done|by apply touch_self].
  - assert (Hblk : blk c g = [g]) by (unfold blk; by rewrite G).
    assert (Hst : start c g = g) by (unfold start; rewrite G; simpl; lia).
    assert (Ha : a ∈ operands (GNot a)) by left.
    destruct (e_need_ok fuel S s g _ a HC HI G Hg Ha) as (S1 & s1 & E1 & HI1 & Hs1 & Ha1 & Hg1 & Ht1).
    destruct (e_get_ok s1 a) as (x & Ex). { by eapply avail. }
    destruct (e_decrs_ok S1 (fun _ => O) s1 g (GNot a) [a] []) as (s3 & E3 & HJ3); try done.
    { apply HI1. } { by rewrite Hst. } { by intros z ->%elem_of_list_singleton. }
    set (s4 := EState (<[g := negb x]> (evaled s3)) (<[g := num_deps c g]> (ndep s3))).
    destruct (finish S1 s1 s4 g _ HI1 G Hg1) with (s1 := s3) as [HI4 Hd4]; try done.
    { by intros z ->%elem_of_list_singleton. }
    { rewrite Hblk. intros z ->%elem_of_list_singleton. simpl. rewrite !lookup_insert. eauto. }
    { rewrite Hblk. intros z Hz%not_elem_of_cons. simpl. rewrite !lookup_insert_ne by naive_solver. done. }
    exists (S1 ∪ list_to_set (blk c g)), s4. split.
    { unfold st_bind at 1. rewrite E1. unfold st_bind at 1. rewrite Ex. simpl in E3. unfold st_bind in E3. unfold st_bind.
      destruct (e_decr md a s1) as [[] ?]; try done. injection E3 as ->. done. }
    split; [done|]. split; [set_solver|]. split. { rewrite Hblk. set_solver. }
    split; [|done]. intros z [Hz|Hz%elem_of_list_to_set]%elem_of_union Hz'; [|by apply touch_self].
    eapply touch_oper; [done|exact Ha|auto].
  - by eapply binary_claim.
  - by eapply binary_claim.
  - by eapply binary_claim.
  - destruct (e_needs_ok fuel S s g _ ids HC HI G Hg) as (S1 & s1 & bits & E1 & Hlen & HI1 & Hs1 & Ha1 & Hg1 & Ht1); [done|].
    destruct (hi_calls h Hinv _ _ _ _ _ _ _ _ E G) as (x & l' & m & Ex & Em & El' & _ & _).
    destruct (d_arity h c D _ _ _ _ _ _ _ _ _ G Ex Em El') as (-> & -> & Hids).
    assert (Hcl : calls h c l'). { exists g, (input_len m), (output_len m), ids, oi, mid, x. done. }
    destruct (Hcallee l' Hcl m fuel bits El') as (outs & Eo); [lia|by rewrite Hlen|].
    destruct (eval_sound md h Hinv _ _ _ _ Eo) as (m' & El2 & Hol & _). rewrite El' in El2. injection El2 as <-.
    destruct (wf_blocks c W _ _ _ _ _ _ G) as (B1 & B2 & B3).
    assert (Hst : start c g = g - oi) by (unfold start; by rewrite G).
    destruct (e_decrs_ok S1 (fun _ => O) s1 g _ ids [] (I_J _ _ HI1) G) as (s3 & E3 & HJ3); try done.
    { intros Hin. apply Hg1. eapply (I_blk _ _ HI1 (start c g)); [done|].
      destruct (start_gate c W g _ G) as (_ & _ & _ & Hin').
      destruct (blk_member c W g _ _ G Hin') as (gs & _ & _ & _ & -> & _). by eapply blk_self. }
    destruct (e_insert_outputs_ok (g - oi) outs 0 (N.to_nat (output_len m)) s3) as (s4 & E4 & H41 & H42); [lia|].
    assert (Hblk : forall z, z ∈ blk c g <-> g - oi + 0 <= z < g - oi + 0 + N.of_nat (N.to_nat (output_len m))).
    { intros z. unfold blk. rewrite G. rewrite elem_of_list_fmap. setoid_rewrite elem_of_nrange. split.
      - intros (j & -> & Hj). lia.
      - intros Hz. exists (z - (g - oi)). lia. }
    destruct (finish S1 s1 s4 g _ HI1 G Hg1) with (s1 := s3) as [HI4 Hd4]; try done.
    { intros z Hz%Hblk. auto. } { intros z Hz. apply H42. by rewrite <- Hblk. }
    exists (S1 ∪ list_to_set (blk c g)), s4. split.
    { unfold st_bind at 1. rewrite E1, Ex, Em. unfold st_bind at 1, st_lift.
      fold (eval_output md h fuel l' bits). rewrite Eo. unfold st_bind at 1. rewrite E3.
      unfold st_bind at 1, usize_sub. destruct (N.leb_spec oi g); [|lia]. exact E4. }
    split; [done|]. split; [set_solver|]. split. { apply elem_of_union. right. apply elem_of_list_to_set. by eapply blk_self. }
    split; [|done]. intros z [Hz|Hz%elem_of_list_to_set]%elem_of_union Hz'; [|by apply touch_self].
    destruct (Ht1 z Hz Hz') as (a & Ha & Ta). by eapply touch_oper.
Qed.

(** * Whole circuits *)
Lemma e_load_ok k w inputs s : w + N.of_nat (length inputs) = input_len c -> (length inputs <= k)%nat ->
  exists s', e_load c k w inputs s = (Ok tt, s') /\
    (forall g w', gate_map c !! g = Some (GInput w') -> w <= w' -> is_Some (evaled s' !! g) /\ ndep s' !! g = Some (num_deps c g)) /\
    (forall g, (forall w', gate_map c !! g = Some (GInput w') -> w' < w) -> evaled s' !! g = evaled s !! g /\ ndep s' !! g = ndep s !! g).
Proof.
  revert w s k. induction inputs as [|b inputs IH]; intros w s k Hw Hk; destruct k as [|k]; simpl in *; try lia.
  - exists s. split; [done|]. split; [|done]. intros g w' G. apply (wf_input_gates c W) in G.
    destruct (decide (w' < input_len c)); [lia|]. rewrite (wf_inputs_none c W) in G; [done|lia].
  - exists s. split; [done|]. split; [|done]. intros g w' G. apply (wf_input_gates c W) in G.
    destruct (decide (w' < input_len c)); [lia|]. rewrite (wf_inputs_none c W) in G; [done|lia].
  - destruct (wf_inputs c W w) as (g0 & Ei & Eg); [lia|]. rewrite Ei.
    destruct (IH (w + 1) (EState (<[g0 := b]> (evaled s)) (<[g0 := num_deps c g0]> (ndep s))) k) as (s' & E1 & H1 & H2); [lia|lia|].
    exists s'. split; [exact E1|]. split.
    + intros g w' G Hle. destruct (decide (w' = w)) as [->|]; [|apply (H1 g w'); [done|lia]].
      apply (wf_input_gates c W) in G. rewrite G in Ei. injection Ei as ->.
      destruct (H2 g0) as [-> ->].
      * intros w' G'. rewrite Eg in G'. injection G' as <-. lia.
      * simpl. rewrite !lookup_insert. eauto.
    + intros g Hg. destruct (H2 g) as [-> ->].
      * intros w' G'. specialize (Hg w' G'). lia.
      * simpl. assert (g <> g0). { intros ->. specialize (Hg w Eg). lia. } rewrite !lookup_insert_ne by done. done.
Qed.

Definition is_input_gate (g : N) : bool := match gate_map c !! g with Some (GInput _) => true | _ => false end.
Definition input_set : gset N := list_to_set (List.filter is_input_gate (nrange (gate_index c))).
Lemma elem_of_input_set g : g ∈ input_set <-> exists w, gate_map c !! g = Some (GInput w).
Proof.
  unfold input_set. rewrite elem_of_list_to_set, elem_of_list_In, filter_In, <- elem_of_list_In, elem_of_nrange. unfold is_input_gate.
  split.
  - intros [_ H]. destruct (gate_map c !! g) as [[]|]; try done. eauto.
  - intros [w H]. rewrite H. split; [by eapply gm_lt|done].
Qed.

Lemma init_I inputs k : N.of_nat (length inputs) = input_len c -> (length inputs <= k)%nat ->
  exists s, e_load c k 0 inputs (EState ∅ ∅) = (Ok tt, s) /\ I input_set s.
Proof.
  intros Hlen Hk. destruct (e_load_ok k 0 inputs (EState ∅ ∅)) as (s & E1 & H1 & H2); [lia|done|].
  exists s. split; [done|].
  assert (Hc0 : forall g, consumed input_set g = O).
  { intros x. unfold consumed. destruct (List.filter _ _) as [|d ds] eqn:Ef; [done|].
    assert (In d (d :: ds)) as Hd by (by left). rewrite <- Ef in Hd. apply filter_In in Hd as [Hd Hb].
    apply andb_true_iff in Hb as [Hb _]. apply bool_decide_eq_true in Hb. apply elem_of_list_In in Hd.
    apply elem_of_input_set in Hb as [w Gd]. apply (deps_in c W) in Hd as (gt & Gd' & Hx). rewrite Gd in Gd'. injection Gd' as <-.
    by apply elem_of_nil in Hx. }
  split; [split| | | |].
  - intros g. rewrite Hc0, elem_of_input_set. split.
    + intros Hs. destruct (gate_map c !! g) as [gt|] eqn:G.
      * destruct gt; try (destruct (H2 g) as [He _]; [intros w'; congruence|rewrite He in Hs; simpl in Hs; rewrite lookup_empty in Hs; by destruct Hs]).
        split; [eauto|]. destruct (deps c g); [by left|right; simpl; lia].
      * destruct (H2 g) as [He _]; [intros w'; congruence|]. rewrite He in Hs. simpl in Hs. rewrite lookup_empty in Hs. by destruct Hs.
    + intros [[w G] _]. by destruct (H1 g w G) as [? _]; [lia|].
  - intros g Hs. rewrite Hc0. simpl. rewrite Nat.sub_0_r.
    destruct (gate_map c !! g) as [gt|] eqn:G.
    + destruct gt; try (destruct (H2 g) as [He _]; [intros w'; congruence|rewrite He in Hs; simpl in Hs; rewrite lookup_empty in Hs; by destruct Hs]).
      by destruct (H1 g w G) as [_ ->]; [lia|].
    + destruct (H2 g) as [He _]; [intros w'; congruence|]. rewrite He in Hs. simpl in Hs. rewrite lookup_empty in Hs. by destruct Hs.
  - intros g gt a [w G]%elem_of_input_set G'. rewrite G in G'. injection G' as <-. intros []%elem_of_nil.
  - intros g x [w G]%elem_of_input_set. unfold blk. rewrite G. intros ->%elem_of_list_singleton. apply elem_of_input_set. eauto.
  - intros g w G. apply elem_of_input_set. eauto.
  - intros g [w G]%elem_of_input_set. eauto.
Qed.

Definition output_ok (k : N) : Prop := forall o, output_map c !! k = Some o -> output_fine c k o.

(** Evaluating a stretch of outputs that are all fine succeeds, and afterwards exactly what they need has been evaluated. *)
Lemma outputs_eval fuel inputs ks rest done_ : (forall k, k ∈ ks -> output_ok k) -> N.of_nat (length inputs) = input_len c ->
  (K + N.to_nat (gate_index c) <= fuel)%nat ->
  forall S s, I S s ->
  nrange (output_len c) = done_ ++ ks ++ rest ->
  (forall x, x ∈ S -> x ∈ input_set \/ exists k o, k ∈ done_ /\ output_map c !! k = Some o /\ touch c o x) ->
  (forall k o, k ∈ done_ -> output_map c !! k = Some o -> o ∈ S) ->
  exists outs S' s', st_mapM (e_single_output c (eval_gate md h fuel l) inputs) ks s = (Ok outs, s') /\ I S' s' /\
    (forall x, x ∈ S' -> x ∈ input_set \/ exists k o, k ∈ done_ ++ ks /\ output_map c !! k = Some o /\ touch c o x) /\
    (forall k o, k ∈ done_ ++ ks -> output_map c !! k = Some o -> o ∈ S').
Proof.
  intros HO Hlen Hf. revert done_. induction ks as [|k ks IH]; intros done_ S s HI Hr HS HD; simpl.
  - exists [], S, s. rewrite app_nil_r. done.
  - assert (Hk : k ∈ nrange (output_len c)) by (rewrite Hr; apply elem_of_app; right; left).
    apply elem_of_nrange in Hk. destruct (wf_outputs c W k Hk) as (o & Eo & [go Go]).
    assert (Hkpos : done_ = nrange k).
    { assert (length done_ = N.to_nat k).
      { assert (H : nrange (output_len c) !! length done_ = Some k) by (rewrite Hr, lookup_app_r, Nat.sub_diag by done; done).
        rewrite nrange_lookup in H. destruct decide; [|done]. injection H as <-. lia. }
      assert (H1 : take (length done_) (nrange (output_len c)) = done_) by (rewrite Hr, take_app; done).
      rewrite <- H1, H. replace (output_len c) with (k + (output_len c - k)) by lia. rewrite nrange_add.
      rewrite take_app_alt; [done|]. rewrite nrange_length. done. }
    assert (Hone : exists S' s' b, e_single_output c (eval_gate md h fuel l) inputs k s = (Ok b, s') /\ I S' s' /\
      (forall x, x ∈ S' -> x ∈ S \/ touch c o x) /\ S ⊆ S' /\ o ∈ S').
    { unfold e_single_output. destruct (N.eqb_spec (N.of_nat (length inputs)) (input_len c)); [|done]. simpl.
      destruct (N.leb_spec (output_len c) k); [lia|]. rewrite Eo.
      destruct (evaled s !! o) as [b|] eqn:Ev.
      - exists S, s, b. split; [done|]. split; [done|]. split; [auto|]. split; [done|].
        apply (J_ev _ _ _ (I_J _ _ HI)). eauto.
      - assert (Ho : o ∉ S).
        { intros Ho. assert (is_Some (evaled s !! o)) as [? ?]; [|congruence].
          apply (J_ev _ _ _ (I_J _ _ HI)). split; [done|].
          destruct (HO k ltac:(left) o Eo) as [Hd|(d & Hd & Hnt)]; [by left|].
          right. rewrite Nat.add_0_r. eapply filter_lt; [exact Hd|]. destruct Hnt as [(gt & Gd & Hoi)|Hnt].
          { unfold head. rewrite Gd. rewrite (proj2 (N.eqb_neq _ _) Hoi). apply andb_false_r. }
          rewrite bool_decide_false; [done|].
          intros HdS. destruct (HS d HdS) as [HdI|(k' & o' & Hk' & Eo' & T)].
          - apply elem_of_input_set in HdI as [w Gd]. apply (deps_in c W) in Hd as (gt & Gd' & Hx). rewrite Gd in Gd'.
            injection Gd' as <-. by apply elem_of_nil in Hx.
          - subst done_. apply elem_of_nrange in Hk'. by eapply Hnt. }
        destruct (eval_gate_claim o fuel) with (S := S) (s := s) as (S' & s' & E1 & HI' & Hsub & HoS & Ht & Hd); try done.
        { pose proof (gm_lt c o go W Go). lia. }
        assert (is_Some (evaled s' !! o)) as Hev.
        { apply (J_ev _ _ _ (I_J _ _ HI')). split; [done|]. destruct (deps c o) as [|d ds] eqn:Ed; [by left|]. right.
          rewrite Nat.add_0_r. rewrite <- Ed. eapply filter_lt with (x := d); [rewrite Ed; left|].
          rewrite bool_decide_false; [done|]. apply Hd. left. }
        destruct (e_get_ok s' o Hev) as (b & Eb). exists S', s', b. split.
        { unfold st_bind. rewrite E1. done. }
        split; [done|]. split; [|done]. intros x Hx. destruct (decide (x ∈ S)); [by left|right; auto]. }
    destruct Hone as (S' & s' & b & E1 & HI' & HS' & Hsub & HoS).
    destruct (IH) with (done_ := done_ ++ [k]) (S := S') (s := s') as (outs & S2 & s2 & E2 & HI2 & HS2 & HD2).
    { intros. apply HO. by right. }
    { done. }
    { rewrite <- app_assoc. done. }
    { intros x Hx. destruct (HS' x Hx) as [HxS|T].
      - destruct (HS x HxS) as [?|(k' & o' & Hk' & Eo' & T)]; [by left|]. right. exists k', o'. split; [|done]. apply elem_of_app. by left.
      - right. exists k, o. split; [|done]. apply elem_of_app. right. left. }
    { intros k' o' Hk' Eo'. apply elem_of_app in Hk' as [Hk'|Hk'].
      - eapply Hsub, HD; eauto.
      - apply elem_of_list_singleton in Hk' as ->. congruence. }
    rewrite <- app_assoc in HS2, HD2. exists (b :: outs), S2, s2. unfold st_bind. rewrite E1, E2. done.
Qed.

Lemma eval_output_ok fuel inputs : outputs_ok c -> N.of_nat (length inputs) = input_len c ->
  (K + N.to_nat (gate_index c) <= fuel)%nat -> exists outs, eval_output md h fuel l inputs = Ok outs.
Proof.
  intros HO Hlen Hf. unfold eval_output, eval_output_with. rewrite E.
  destruct (N.eqb_spec (N.of_nat (length inputs)) (input_len c)); [|done]. simpl.
  destruct (init_I inputs (length inputs + size (input_map c) + 1)) as (s & E1 & HI); [done|lia|].
  destruct (outputs_eval fuel inputs (nrange (output_len c)) [] []) with (S := input_set) (s := s) as (outs & S' & s' & E2 & _).
  { intros k _ o Eo. exact (HO k o Eo). } { done. } { done. } { done. } { by rewrite app_nil_r. }
  { intros. by left. } { intros k o Hk. by apply elem_of_nil in Hk. }
  exists outs. unfold st_bind. rewrite E1, E2. done.
Qed.

Lemma touch_closed S s o x : I S s -> o ∈ S -> touch c o x -> x ∈ S.
Proof.
  intros HI Ho T. induction T as [g x Hx|g gt a x G A T IH]; [by eapply (I_blk _ _ HI)|].
  apply IH. by eapply (I_op _ _ HI).
Qed.

Lemma st_mapM_app {S A B} (f : A -> ST S B) xs ys s :
  st_mapM f (xs ++ ys) s = (a <- st_mapM f xs ;; b <- st_mapM f ys ;; st_ret (a ++ b)) s.
Proof.
  revert s. induction xs as [|x xs IH]; intros s; cbn [st_mapM app].
  - unfold st_bind, st_ret. destruct (st_mapM f ys s) as [r ?]; destruct r; reflexivity.
  - unfold st_bind, st_ret in *. destruct (f x s) as [r s1]; destruct r; try reflexivity. rewrite IH.
    destruct (st_mapM f xs s1) as [r s2]; destruct r; try reflexivity. destruct (st_mapM f ys s2) as [r ?]; destruct r; reflexivity.
Qed.

(** An input gate that is an output and all of whose consumers are needed by earlier outputs is gone when its turn comes. *)
Lemma eval_output_gone fuel inputs k o w : N.of_nat (length inputs) = input_len c ->
  (K + N.to_nat (gate_index c) < fuel)%nat -> (forall k', k' < k -> output_ok k') ->
  output_map c !! k = Some o -> k < output_len c -> gate_map c !! o = Some (GInput w) -> deps c o <> [] ->
  (forall d, d ∈ deps c o -> exists k' o', k' < k /\ output_map c !! k' = Some o' /\ touch c o' d) ->
  (forall d gt, d ∈ deps c o -> gate_map c !! d = Some gt -> gate_oi gt = 0) ->
  eval_output md h fuel l inputs = Err (EUnknownEvaledBit o).
Proof.
  intros Hlen Hf HO Eo Hk Go Hne Hall Hoi. unfold eval_output, eval_output_with. rewrite E.
  destruct (N.eqb_spec (N.of_nat (length inputs)) (input_len c)); [|done]. simpl.
  destruct (init_I inputs (length inputs + size (input_map c) + 1)) as (s & E1 & HI); [done|lia|].
  assert (Hsplit : exists rest, nrange (output_len c) = nrange k ++ k :: rest).
  { exists (map (fun x => x + (k + 1)) (nrange (output_len c - k - 1))).
    replace (output_len c) with ((k + 1) + (output_len c - k - 1)) at 1 by lia.
    rewrite nrange_add, nrange_succ, <- app_assoc. simpl. do 2 f_equal. apply map_ext. intros. lia. }
  destruct Hsplit as [rest Hr].
  destruct (outputs_eval fuel inputs (nrange k) (k :: rest) []) with (S := input_set) (s := s) as (outs & S' & s' & E2 & HI' & HS' & HD').
  { intros k' Hk'. apply elem_of_nrange in Hk'. auto. } { done. } { lia. } { done. } { done. }
  { intros. by left. } { intros k' o' Hk'. by apply elem_of_nil in Hk'. }
  assert (Hev : evaled s' !! o = None).
  { destruct (evaled s' !! o) as [b|] eqn:Ev; [|done]. exfalso.
    assert (Hs : is_Some (evaled s' !! o)) by (by rewrite Ev). apply (J_ev _ _ _ (I_J _ _ HI')) in Hs as [HoS [?|Hlt]]; [done|].
    rewrite Nat.add_0_r in Hlt. unfold consumed in Hlt.
    rewrite filter_all in Hlt; [lia|]. intros d Hd. apply andb_true_iff. split.
    - apply bool_decide_eq_true. destruct (Hall d Hd) as (k' & o' & Hk' & Eo' & T).
      eapply touch_closed; [done| |exact T]. eapply HD'; [|exact Eo']. by apply elem_of_nrange.
    - pose proof Hd as Hd'. apply (deps_in c W) in Hd' as (gt & Gd & _). unfold head. rewrite Gd. apply N.eqb_eq. eauto. }
  assert (Hone : e_single_output c (eval_gate md h fuel l) inputs k s' = (Err (EUnknownEvaledBit o), s')).
  { unfold e_single_output. destruct (N.eqb_spec (N.of_nat (length inputs)) (input_len c)); [|done]. simpl.
    destruct (N.leb_spec (output_len c) k); [lia|]. rewrite Eo, Hev. unfold st_bind. destruct fuel as [|fuel]; [lia|].
    simpl. rewrite E, Go. simpl. unfold e_get. by rewrite Hev. }
  rewrite Hr. unfold st_bind at 1. rewrite E1, st_mapM_app. unfold st_bind. simpl in E2. rewrite E2. simpl.
  unfold st_bind. rewrite Hone. done.
Qed.

End one.

(** Finite choice of a bound. *)
Lemma bounded_choice (P : N -> nat -> Prop) n : (forall g k k', P g k -> (k <= k')%nat -> P g k') ->
  (forall g, g < n -> exists k, P g k) -> exists k, forall g, g < n -> P g k.
Proof.
  intros Hup. induction n as [|n IH] using N.peano_ind; intros H.
  - exists O. lia.
  - destruct IH as [k Hk]. { intros. apply H. lia. }
    destruct (H n) as [k' Hk']; [lia|]. exists (Nat.max k k'). intros g Hg. destruct (decide (g = n)) as [->|].
    + eapply Hup; [exact Hk'|lia]. + eapply Hup; [apply Hk; lia|lia].
Qed.

Lemma callee_bound md h l c : dinv h -> h_circ h !! l = Some c ->
  (forall l', calls h c l' -> exists F, forall fuel m bits, h_circ h !! l' = Some m -> (F <= fuel)%nat ->
     N.of_nat (length bits) = input_len m -> exists outs, eval_output md h fuel l' bits = Ok outs) ->
  exists K, forall l', calls h c l' -> forall m fuel bits, h_circ h !! l' = Some m -> (K <= fuel)%nat ->
     N.of_nat (length bits) = input_len m -> exists outs, eval_output md h fuel l' bits = Ok outs.
Proof.
  intros D E IH.
  set (P := fun (g : N) (k : nat) => forall il ol ids oi mid x l', gate_map c !! g = Some (GModule il ol ids oi mid) ->
    h_stor h !! c_storage c = Some x -> module_map x !! mid = Some l' ->
    forall fuel m bits, h_circ h !! l' = Some m -> (k <= fuel)%nat -> N.of_nat (length bits) = input_len m ->
    exists outs, eval_output md h fuel l' bits = Ok outs).
  destruct (bounded_choice P (gate_index c)) as [K HK].
  { intros g k k' HP Hle il ol ids oi mid x l' G S M fuel m bits El' Hf. eapply HP; eauto. lia. }
  { intros g _. destruct (gate_map c !! g) as [gt|] eqn:G; [|exists O; intros ????????; congruence].
    destruct gt as [| | | | | |il ol ids oi mid]; try (exists O; intros ????????; congruence).
    destruct (hi_calls h (di_inv h D) _ _ _ _ _ _ _ _ E G) as (x & l' & m & Ex & Em & El' & _).
    destruct (IH l') as [F HF].
    { exists g, il, ol, ids, oi, mid, x. done. }
    exists F. intros il2 ol2 ids2 oi2 mid2 x2 l2 G2 Ex2 Em2 fuel m2 bits El2 Hf Hl. simplify_eq. by eapply HF. }
  exists K. intros l' (g & il & ol & ids & oi & mid & x & G & Ex & Em) m fu bits El' Hf' Hl'.
  assert (Hlt : g < gate_index c) by (eapply gm_lt; [exact (hi_circ h (di_inv h D) l c E)|exact G]).
  by eapply (HK g Hlt il ol ids oi mid x l' G Ex Em).
Qed.

Theorem eval_complete md h l : dinv h -> evaluable h l ->
  exists F, forall fuel c inputs, h_circ h !! l = Some c -> (F <= fuel)%nat -> N.of_nat (length inputs) = input_len c ->
    exists outs, eval_output md h fuel l inputs = Ok outs.
Proof.
  intros D Hev. induction Hev as [l c E HO Hcalls IH].
  destruct (callee_bound md h l c D E) as [K HK]; [done|].
  exists (K + N.to_nat (gate_index c))%nat. intros fuel c' inputs E' Hf Hl. rewrite E in E'. injection E' as <-.
  eapply (eval_output_ok md h l c (di_inv h D) E (di_disc h D l c E) K); try done.
Qed.

(** The same for some circuit whose callees are fine: an output that is an input gate and is consumed by what the earlier outputs
    need, and by nothing else, makes every evaluation fail. *)
Theorem eval_gone md h l c k o w : dinv h -> h_circ h !! l = Some c -> (forall l', calls h c l' -> evaluable h l') ->
  (forall k', k' < k -> output_ok c k') -> output_map c !! k = Some o -> k < output_len c ->
  gate_map c !! o = Some (GInput w) -> deps c o <> [] ->
  (forall d, d ∈ deps c o -> exists k' o', k' < k /\ output_map c !! k' = Some o' /\ touch c o' d) ->
  (forall d gt, d ∈ deps c o -> gate_map c !! d = Some gt -> gate_oi gt = 0) ->
  exists F, forall fuel inputs, (F <= fuel)%nat -> N.of_nat (length inputs) = input_len c ->
    eval_output md h fuel l inputs = Err (EUnknownEvaledBit o).
Proof.
  intros D E Hcalls HO Eo Hk Go Hne Hall Hoi.
  destruct (callee_bound md h l c D E) as [K HK]; [intros; by apply eval_complete, Hcalls|].
  exists (Datatypes.S (K + N.to_nat (gate_index c)))%nat. intros fuel inputs Hf Hl.
  eapply (eval_output_gone md h l c (di_inv h D) E (di_disc h D l c E) K); eauto; lia.
Qed.
