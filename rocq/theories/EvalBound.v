(** Bounds on the work of an evaluation, whatever its outcome (property C77). *)
From Verif Require Export EvalCost.
From Verif Require Import Counts.

Section bound.
Context (md : mode) (h : heap) (l : nat) (c : circuit).
Context (Hinv : hinv h) (E : h_circ h !! l = Some c) (D : cdisc h c).
Let W : cwf c := hi_circ h Hinv l c E.
(** [w g]: what an evaluation of gate [g] can cost at most, without that of its operands, except that an operand that is an input is paid here. *)
Context (w : N -> N).
Context (Hw : forall g gt, gate_map c !! g = Some gt -> is_module gt = false -> (forall v, gt <> GInput v) -> 1 + N.of_nat (length (operands gt)) <= w g).
Context (Hw0 : forall g gt, gate_map c !! g = Some gt -> gate_oi gt <> 0 -> w g = 0).
Context (Hcallee : forall g il ol ids mid x l', gate_map c !! g = Some (GModule il ol ids 0 mid) -> h_stor h !! c_storage c = Some x ->
  module_map x !! mid = Some l' -> forall fuel bits, 1 + N.of_nat (length ids) + snd (count_output md h fuel l' bits) <= w g).

Definition plain (g : N) : Prop := exists gt, gate_map c !! g = Some gt /\ forall v, gt <> GInput v.

(** [T]: the gates evaluated on behalf of the present output, [off]: additional decrements already done. *)
Record Q (T : gset N) (off : N -> nat) (s : estate) : Prop := {
  Q_ev : forall g, g ∈ T -> (deps c g = [] \/ (consumed c T g + off g < length (deps c g))%nat) -> is_Some (evaled s !! g);
  Q_nd : forall g, g ∈ T -> is_Some (evaled s !! g) -> exists n, ndep s !! g = Some n /\ N.of_nat (length (deps c g)) <= n + N.of_nat (consumed c T g + off g);
}.
Record P (T : gset N) (s : estate) : Prop := {
  P_Q : Q T (fun _ => O) s;
  P_blk : forall g x, g ∈ T -> x ∈ blk c g -> x ∈ T;
  P_plain : forall g, g ∈ T -> plain g;
}.

Lemma Q_ext T off off' s : (forall x, off x = off' x) -> Q T off s -> Q T off' s.
Proof. intros Hx [H1 H2]. split; intros g; rewrite <- Hx; auto. Qed.

Lemma q_decr T off s a s' : Q T off s -> deps c a <> [] -> e_decr md a s = (Ok tt, s') ->
  Q T (fun x => if decide (x = a) then S (off x) else off x) s'.
Proof.
  intros HQ Hne He. unfold e_decr in He. destruct (ndep s !! a) as [n|] eqn:En; [|done].
  destruct (usize_sub md n 1) as [n'| | |] eqn:Eu; try done.
  assert (Hn : n <= n' + 1). { unfold usize_sub in Eu. destruct (N.leb_spec 1 n); [injection Eu as <-; lia|lia]. }
  destruct (N.eqb_spec n' 0) as [->|Hnz]; injection He as <-; split; simpl.
  - intros g Hg Hc. destruct (decide (g = a)) as [->|Hna].
    + exfalso. destruct Hc as [Hc|Hc]; [done|]. destruct (evaled s !! a) as [b|] eqn:Ev.
      * destruct (Q_nd _ _ _ HQ a Hg ltac:(eauto)) as (k & Ek & Hk). rewrite En in Ek. injection Ek as <-. lia.
      * destruct (Q_ev _ _ _ HQ a Hg) as [? ?]; [right; lia|congruence].
    + rewrite lookup_delete_ne by done. by apply (Q_ev _ _ _ HQ).
  - intros g Hg. destruct (decide (g = a)) as [->|Hna]; [rewrite lookup_delete; by intros [? ?]|].
    rewrite !lookup_delete_ne by done. by apply (Q_nd _ _ _ HQ).
  - intros g Hg Hc. apply (Q_ev _ _ _ HQ g Hg). destruct Hc as [?|Hc]; [by left|right]. destruct (decide (g = a)); lia.
  - intros g Hg Hs. destruct (decide (g = a)) as [->|Hna].
    + rewrite lookup_insert. exists n'. split; [done|]. destruct (Q_nd _ _ _ HQ a Hg Hs) as (k & Ek & Hk). rewrite En in Ek. injection Ek as <-. lia.
    + rewrite lookup_insert_ne by done. by apply (Q_nd _ _ _ HQ).
Qed.
Lemma q_decrs T ids : forall off s s', Q T off s -> (forall a, a ∈ ids -> deps c a <> []) -> st_iterM (e_decr md) ids s = (Ok tt, s') ->
  Q T (fun x => (off x + occ x ids)%nat) s'.
Proof.
  induction ids as [|a ids IH]; intros off s s' HQ Hne He; cbn [st_iterM] in He.
  - injection He as <-. eapply Q_ext; [|exact HQ]. intros x. unfold occ. simpl. lia.
  - unfold st_bind in He. destruct (e_decr md a s) as [r s1] eqn:Ea. destruct r as [[]| | |]; try done.
    eapply Q_ext; [|eapply (IH _ s1 s' (q_decr T off s a s1 HQ (Hne a ltac:(left)) Ea)); [intros; apply Hne; by right|done]].
    intros x. unfold occ. simpl. destruct (N.eq_dec a x), (decide (x = a)); subst; try done; lia.
Qed.

(** What a step does to the count and to the evaluated gates. *)
Definition bnd {A} (m : ST (estate * N) A) (T : gset N) (s : estate) (n k : N) (R : N -> Prop) (post : A -> gset N -> estate -> Prop) : Prop :=
  exists T' r s' n', m (s, n) = (r, (s', n')) /\ n' + tot c w T <= n + k + tot c w T' /\ T ⊆ T' /\ (forall x, x ∈ T' -> x ∉ T -> R x) /\
    (forall a, r = Ok a -> post a T' s').
Lemma bnd_bind {A B} (m : ST (estate * N) A) (f : A -> ST (estate * N) B) T s n k1 k2 R post1 post2 : bnd m T s n k1 R post1 ->
  (forall a T' s' n', post1 a T' s' -> T ⊆ T' -> bnd (f a) T' s' n' k2 R post2) -> bnd (st_bind m f) T s n (k1 + k2) R post2.
Proof.
  intros (T1 & r & s1 & n1 & E1 & H1 & Hs & HR & Hp) Hf. unfold bnd, st_bind. rewrite E1. destruct r as [a|e|p|].
  2, 3, 4: (eexists T1, _, s1, n1; split; [done|]; split; [lia|]; split; [done|]; split; [done|]; intros; done).
  destruct (Hf a T1 s1 n1 (Hp a eq_refl) Hs) as (T2 & r2 & s2 & n2 & E2 & H2 & Hs2 & HR2 & Hp2). exists T2, r2, s2, n2.
  split; [done|]. split; [lia|]. split; [set_solver|]. split; [|done]. intros x Hx Hx'. destruct (decide (x ∈ T1)); auto.
Qed.
Lemma bnd_up {A} (m : ST estate A) T s n R : bnd (up m) T s n 0 R (fun a T' s' => T' = T /\ m s = (Ok a, s')).
Proof.
  unfold bnd, up. simpl. destruct (m s) as [r s'] eqn:Em. exists T, r, s', n. split; [done|]. split; [lia|]. split; [done|]. split; [by intros|].
  by intros a ->.
Qed.
Lemma bnd_weaken {A} (m : ST (estate * N) A) T s n k k' R post (post' : A -> gset N -> estate -> Prop) : bnd m T s n k R post -> k <= k' ->
  (forall a T' s', post a T' s' -> post' a T' s') -> bnd m T s n k' R post'.
Proof.
  intros (T1 & r & s1 & n1 & E1 & H1 & Hs & HR & Hp) Hk Hi. exists T1, r, s1, n1. split; [done|]. split; [lia|]. split; [done|]. split; [done|]. auto.
Qed.

Definition bclaim (fuel : nat) (g : N) : Prop := forall T s n, P T s -> g ∉ T -> plain g ->
  bnd (count_gate md h fuel l g) T s n 0 (touch c g) (fun _ T' s' => P T' s').
(** The gates that gate [g] waits for. *)
Definition under (gt : gate) (x : N) : Prop := exists a, a ∈ operands gt /\ touch c a x.
Definition spared (g : N) (T : gset N) : Prop := forall x, x ∈ blk c g -> x ∉ T.

Lemma spared_not g gt T T' : gate_map c !! g = Some gt -> spared g T -> (forall x, x ∈ T' -> x ∉ T -> under gt x) -> spared g T'.
Proof using All.
  intros G Hc HR x Hx Hx'. destruct (HR x Hx' (Hc x Hx)) as (a & Ha & Ht). by apply (touch_not_blk h l c Hinv E D g gt a x G Ha Ht).
Qed.

Lemma need_bnd fuel T s n g gt a : (forall a, a < start c g -> bclaim fuel a) -> P T s -> gate_map c !! g = Some gt -> spared g T -> a ∈ operands gt ->
  bnd (count_need (count_gate md h fuel l) a) T s n 1 (under gt) (fun _ T' s' => P T' s' /\ spared g T').
Proof using All.
  intros HC HP G Hg Ha. unfold bnd, count_need. cbn [fst]. destruct (evaled s !! a) as [b|] eqn:Ev.
  - exists T, (Ok tt), s, n. split; [done|]. split; [lia|]. split; [done|]. split; [by intros|]. done.
  - destruct (operand_exists h l c Hinv E D g gt a G Ha) as [ga Ga].
    assert (Hcase : (exists v, ga = GInput v) \/ forall v, ga <> GInput v) by (destruct ga; eauto). destruct Hcase as [[v ->]|Hni].
    + destruct fuel as [|fuel].
      * exists T, NoFuel, s, n. split; [done|]. split; [lia|]. split; [done|]. split; [by intros|]. done.
      * exists T, (Ok tt), s, (n + 1). split; [cbn; unfold count_tick; cbn; by rewrite E, Ga|]. split; [lia|]. split; [done|]. split; [by intros|]. done.
    + assert (HaT : a ∉ T).
      { intros HaT. destruct (Q_ev _ _ _ (P_Q _ _ HP) a HaT) as [? ?]; [|congruence]. right. rewrite Nat.add_0_r. unfold consumed.
        apply filter_lt with (x := g); [apply (deps_in c W); eauto|]. rewrite bool_decide_false; [done|]. apply Hg. by eapply blk_self. }
      destruct (HC a ltac:(by eapply (operand_lt_start h c D)) T s n HP HaT ltac:(by exists ga)) as (T' & r & s' & n' & E1 & H1 & Hs & HR & Hp).
      assert (HR' : forall x, x ∈ T' -> x ∉ T -> under gt x) by (intros x Hx Hx'; exists a; auto).
      exists T', r, s', n'. split; [done|]. split; [lia|]. split; [done|]. split; [done|]. intros [] Hr. split; [by apply (Hp tt)|].
      by eapply (spared_not g gt T T').
Qed.

(** After the decrements, storing the block of [g]. *)
Lemma finish_P T s s' g gt s1 : P T s -> gate_map c !! g = Some gt -> (forall v, gt <> GInput v) -> spared g T ->
  Q T (fun x => occ x (operands gt)) s1 ->
  (forall x, x ∈ blk c g -> is_Some (evaled s' !! x) /\ ndep s' !! x = Some (num_deps c x)) ->
  (forall x, x ∉ blk c g -> evaled s' !! x = evaled s1 !! x /\ ndep s' !! x = ndep s1 !! x) ->
  P (T ∪ list_to_set (blk c g)) s'.
Proof using All.
  intros HP G Hni Hg HQ Hin Hout.
  destruct (start_gate c W g gt G) as (gt0 & G0 & H0 & Hst).
  assert (Hcons : forall x, consumed c (T ∪ list_to_set (blk c g)) x = (consumed c T x + occ x (operands gt))%nat).
  { intros x. destruct (blk_member c W g gt _ G Hst) as (gt2 & G2 & Ho & _). rewrite G0 in G2. injection G2 as <-.
    assert (cnt (deps c x) (start c g) = occ x (operands gt)) as <-. { rewrite (deps_count c W), G0, Ho. done. }
    unfold consumed. apply filter_split.
    - intros d Hd. destruct (N.eqb_spec d (start c g)) as [->|Hne].
      + rewrite orb_true_r. rewrite bool_decide_true by (apply elem_of_union; right; by apply elem_of_list_to_set).
        unfold EvalComplete.head. rewrite G0, H0. done.
      + rewrite orb_false_r. destruct (decide (d ∈ T)) as [HdS|HdS].
        * rewrite !bool_decide_true; [done| done|]. apply elem_of_union. by left.
        * rewrite (bool_decide_false (d ∈ T)) by done. simpl.
          destruct (decide (d ∈ blk c g)) as [HdB|HdB].
          -- destruct (blk_member c W g gt d G HdB) as (gd & Gd & _ & _ & _ & Hd' & _).
             unfold EvalComplete.head. rewrite Gd. destruct (N.eqb_spec (gate_oi gd) 0); [lia|]. by rewrite andb_false_r.
          -- rewrite bool_decide_false; [done|]. intros [?|?%elem_of_list_to_set]%elem_of_union; done.
    - rewrite bool_decide_false by (by apply Hg). done. }
  split; [split| |].
  - intros x Hx Hc. destruct (decide (x ∈ blk c g)) as [Hb|Hb]; [by apply Hin|]. destruct (Hout x Hb) as [-> _].
    apply elem_of_union in Hx as [Hx|?%elem_of_list_to_set]; [|done]. apply (Q_ev _ _ _ HQ x Hx). rewrite Hcons, Nat.add_0_r in Hc. done.
  - intros x Hx Hs. destruct (decide (x ∈ blk c g)) as [Hb|Hb].
    + destruct (Hin x Hb) as [_ ->]. eexists. split; [done|]. unfold num_deps. lia.
    + destruct (Hout x Hb) as [He ->]. rewrite He in Hs. apply elem_of_union in Hx as [Hx|?%elem_of_list_to_set]; [|done].
      rewrite Hcons, Nat.add_0_r. by apply (Q_nd _ _ _ HQ x Hx).
  - intros d x [Hd|Hd%elem_of_list_to_set]%elem_of_union Hx; apply elem_of_union.
    + left. by eapply (P_blk _ _ HP d).
    + right. apply elem_of_list_to_set. destruct (blk_member c W g gt d G Hd) as (gd' & _ & _ & _ & <- & _). done.
  - intros x [Hx|Hx%elem_of_list_to_set]%elem_of_union; [by apply (P_plain _ _ HP)|].
    destruct (blk_member c W g gt x G Hx) as (gx & Gx & _ & _ & _ & _ & Hm & Hsame). exists gx. split; [done|]. intros v ->.
    apply (Hni v). symmetry. apply Hsame. by rewrite <- Hm.
Qed.

(** Entering a gate: the entry, what its operands cost, and its own block. *)
Lemma enter (body : ST (estate * N) unit) T s n g gt k : gate_map c !! g = Some gt -> spared g T -> 1 + k <= w (start c g) ->
  bnd body T s (n + 1) k (under gt) (fun _ T' s' => P (T' ∪ list_to_set (blk c g)) s') ->
  bnd (count_tick body) T s n 0 (touch c g) (fun _ T' s' => P T' s').
Proof using All.
  intros G Hg Hk (T' & r & s' & n' & E1 & H1 & Hs & HR & Hp). exists (T' ∪ list_to_set (blk c g)), r, s', n'. split; [done|]. split.
  { rewrite (tot_blk_gen h l c Hinv E w Hw0 T' g gt G (spared_not g gt T T' G Hg HR)). lia. }
  split; [set_solver|]. split; [|done]. intros x [Hx|Hx%elem_of_list_to_set]%elem_of_union Hx'; [|by apply touch_self].
  destruct (HR x Hx Hx') as (a & Ha & Ht). by eapply touch_oper.
Qed.

Lemma operand_deps g gt a : gate_map c !! g = Some gt -> a ∈ operands gt -> deps c a <> [].
Proof using All. intros G Ha Hd. assert (g ∈ deps c a) as Hg by (apply (deps_in c W); eauto). rewrite Hd in Hg. by apply elem_of_nil in Hg. Qed.

(** The last steps of an ordinary gate. *)
Lemma store_bnd T s n g gt b : P T s -> gate_map c !! g = Some gt -> is_module gt = false -> (forall v, gt <> GInput v) -> spared g T ->
  bnd (up (st_iterM (e_decr md) (operands gt)) ;; up (e_insert c g b)) T s n 0 (under gt) (fun _ T' s' => P (T' ∪ list_to_set (blk c g)) s').
Proof using All.
  intros HP G Hm Hni Hg. assert (Hblk : blk c g = [g]). { unfold blk. rewrite G. by destruct gt. }
  change 0 with (0 + 0). eapply bnd_bind; [apply bnd_up|]. cbn beta. intros [] T1 s1 n1 [-> E1] _. eapply bnd_weaken; [apply bnd_up|lia|]. cbn beta.
  intros [] T2 s2 [-> E2]. unfold e_insert in E2. injection E2 as <-.
  eapply (finish_P T s _ g gt s1 HP G Hni Hg).
  - eapply Q_ext; [|eapply (q_decrs T _ _ _ _ (P_Q _ _ HP)); [|exact E1]]; [done|]. intros a Ha. by eapply operand_deps.
  - rewrite Hblk. intros z ->%elem_of_list_singleton. simpl. rewrite !lookup_insert. eauto.
  - rewrite Hblk. intros z Hz%not_elem_of_cons. simpl. rewrite !lookup_insert_ne by naive_solver. done.
Qed.
Lemma get_bnd T s n R a (Z : gset N -> estate -> Prop) : Z T s -> bnd (up (e_get a)) T s n 0 R (fun _ T' s' => T' = T /\ s' = s /\ Z T s).
Proof.
  intros HZ. eapply bnd_weaken; [apply bnd_up|lia|]. cbn beta. intros b T' s' [-> Eb]. unfold e_get in Eb. destruct (evaled s !! a); [|done]. by injection Eb as _ <-.
Qed.

Lemma binary_bnd fuel f T s n g gt a b : (forall a, a < start c g -> bclaim fuel a) -> P T s -> gate_map c !! g = Some gt -> spared g T -> operands gt = [a; b] ->
  is_module gt = false -> (forall v, gt <> GInput v) ->
  bnd (count_binary md c (count_gate md h fuel l) f g a b) T s n 2 (under gt) (fun _ T' s' => P (T' ∪ list_to_set (blk c g)) s').
Proof using All.
  intros HC HP G Hg Ho Hm Hni.
  assert (X : bnd (count_need (count_gate md h fuel l) a ;; count_need (count_gate md h fuel l) b ;; x <- up (e_get a) ;; y <- up (e_get b) ;;
    up (st_iterM (e_decr md) (operands gt)) ;; up (e_insert c g (f x y))) T s n 2 (under gt) (fun _ T' s' => P (T' ∪ list_to_set (blk c g)) s')).
  { change 2 with (1 + (1 + (0 + (0 + 0)))). eapply bnd_bind; [eapply (need_bnd fuel T s n g gt a HC HP G Hg); rewrite Ho; left|]. cbn beta.
    intros [] T1 s1 n1 [HP1 Hg1] _. eapply bnd_bind; [eapply (need_bnd fuel T1 s1 n1 g gt b HC HP1 G Hg1); rewrite Ho; right; left|]. cbn beta.
    intros [] T2 s2 n2 [HP2 Hg2] _. eapply bnd_bind; [apply (get_bnd T2 s2 n2 _ a (fun _ _ => True) Logic.I)|]. cbn beta. intros x T3 s3 n3 (-> & -> & _) _.
    eapply bnd_bind; [apply (get_bnd T2 s2 n3 _ b (fun _ _ => True) Logic.I)|]. cbn beta. intros y T4 s4 n4 (-> & -> & _) _.
    by apply store_bnd. }
  destruct X as (T' & r & s' & n' & E1 & HX). exists T', r, s', n'. split; [|done]. rewrite (count_binary_eq md c), <- Ho. exact E1.
Qed.

Lemma needs_bnd fuel g gt ids : (forall a, a < start c g -> bclaim fuel a) -> gate_map c !! g = Some gt -> (forall a, a ∈ ids -> a ∈ operands gt) ->
  forall T s n, P T s -> spared g T ->
  bnd (st_mapM (fun id => count_need (count_gate md h fuel l) id ;; up (e_get id)) ids) T s n (N.of_nat (length ids)) (under gt) (fun _ T' s' => P T' s' /\ spared g T').
Proof using All.
  intros HC G. induction ids as [|a ids IH]; intros Hids T s n HP Hg; cbn [st_mapM].
  - exists T, (Ok []), s, n. split; [done|]. split; [lia|]. split; [done|]. split; [by intros|]. done.
  - replace (N.of_nat (length (a :: ids))) with ((1 + 0) + (N.of_nat (length ids) + 0)) by (simpl; lia).
    eapply (bnd_bind _ _ _ _ _ _ _ _ (fun _ T' s' => P T' s' /\ spared g T')).
    { eapply bnd_bind; [eapply (need_bnd fuel T s n g gt a HC HP G Hg); apply Hids; left|]. cbn beta. intros [] T1 s1 n1 HPg _.
      eapply bnd_weaken; [apply (get_bnd T1 s1 n1 _ a (fun T s => P T s /\ spared g T) HPg)|lia|]. cbn beta. by intros b T' s' (-> & -> & ?). }
    cbn beta. intros b T1 s1 n1 [HP1 Hg1] _. eapply bnd_bind; [eapply (IH ltac:(intros; apply Hids; by right) T1 s1 n1 HP1 Hg1)|]. cbn beta.
    intros bits T2 s2 n2 HPg _. exists T2, (Ok (b :: bits)), s2, n2. split; [done|]. split; [lia|]. split; [done|]. split; [by intros|]. done.
Qed.

Lemma insert_outputs_bnd T s n R first outs ol (post : gset N -> estate -> Prop) :
  (forall s', (forall x, first <= x < first + ol -> is_Some (evaled s' !! x) /\ ndep s' !! x = Some (num_deps c x)) ->
     (forall x, ~ (first <= x < first + ol) -> evaled s' !! x = evaled s !! x /\ ndep s' !! x = ndep s !! x) -> post T s') ->
  bnd (up (e_insert_outputs c first outs 0 (N.to_nat ol))) T s n 0 R (fun _ T' s' => post T' s').
Proof.
  intros H. eapply bnd_weaken; [apply bnd_up|lia|]. cbn beta. intros [] T' s' [-> Es].
  assert (X : forall k i s s', e_insert_outputs c first outs i k s = (Ok tt, s') ->
    (forall x, first + i <= x < first + i + N.of_nat k -> is_Some (evaled s' !! x) /\ ndep s' !! x = Some (num_deps c x)) /\
    (forall x, ~ (first + i <= x < first + i + N.of_nat k) -> evaled s' !! x = evaled s !! x /\ ndep s' !! x = ndep s !! x)).
  { clear. induction k as [|k IH]; intros i s s' He; cbn [e_insert_outputs] in He.
    - injection He as <-. split; [lia|done].
    - unfold st_bind, st_nth in He. destruct (outs !! N.to_nat i) as [b|]; [|done]. cbn in He. destruct (IH _ _ _ He) as [H1 H2]. split.
      + intros x Hx. destruct (decide (x = first + i)) as [->|]; [|apply H1; lia].
        destruct (H2 (first + i)) as [-> ->]; [lia|]. simpl. rewrite !lookup_insert. eauto.
      + intros x Hx. destruct (H2 x) as [-> ->]; [lia|]. simpl. rewrite !lookup_insert_ne by lia. done. }
  destruct (X _ _ _ _ Es) as [H1 H2]. rewrite N.add_0_r, N2Nat.id in H1, H2. by apply H.
Qed.

Lemma count_gate_bclaim fuel : forall g, bclaim fuel g.
Proof using All.
  induction fuel as [|fuel IH]; intros g T s n HP Hg (gt & G & Hni).
  { exists T, NoFuel, s, n. split; [done|]. split; [lia|]. split; [done|]. split; [by intros|]. done. }
  assert (HC : forall a, a < start c g -> bclaim fuel a) by (intros; apply IH).
  assert (Hcl : spared g T).
  { intros x Hx HxT. apply Hg. eapply (P_blk _ _ HP x); [done|]. destruct (blk_member c W g gt x G Hx) as (gt' & _ & _ & _ & -> & _). by eapply blk_self. }
  cbn [count_gate]. rewrite E, G.
  assert (Hst : is_module gt = false -> start c g = g). { intros Hm. unfold start. rewrite G. destruct gt; try done; simpl; lia. }
  destruct gt as [v|b|a|a b|a b|a b|il ol ids oi mid].
  - by destruct (Hni v).
  - eapply (enter _ T s n g _ 0 G Hcl); [rewrite Hst by done; exact (Hw g _ G eq_refl Hni)|].
    assert (X := store_bnd T s (n + 1) g _ b HP G eq_refl Hni Hcl). destruct X as (T' & r & s' & n' & E1 & HX). exists T', r, s', n'. split; [|done]. exact E1.
  - eapply (enter _ T s n g _ 1 G Hcl); [rewrite Hst by done; exact (Hw g _ G eq_refl Hni)|]. change 1 with (1 + (0 + 0)) at 2.
    eapply bnd_bind; [eapply (need_bnd fuel T s (n + 1) g _ a HC HP G Hcl); left|]. cbn beta. intros [] T1 s1 n1 [HP1 Hg1] _.
    eapply bnd_bind; [apply (get_bnd T1 s1 n1 _ a (fun _ _ => True) Logic.I)|]. cbn beta. intros x T3 s3 n3 (-> & -> & _) _.
    assert (X := store_bnd T1 s1 n3 g _ (negb x) HP1 G eq_refl Hni Hg1). destruct X as (T' & r & s' & n' & E1 & HX). exists T', r, s', n'. split; [|done].
    rewrite <- E1. unfold st_bind, up, operands, st_iterM, st_bind, st_ret. cbn [fst snd]. by destruct (e_decr md a s1) as [[] ?].
  - eapply (enter _ T s n g _ 2 G Hcl); [rewrite Hst by done; exact (Hw g _ G eq_refl Hni)|]. by apply (binary_bnd fuel xorb T s (n + 1) g (GXor a b) a b).
  - eapply (enter _ T s n g _ 2 G Hcl); [rewrite Hst by done; exact (Hw g _ G eq_refl Hni)|]. by apply (binary_bnd fuel andb T s (n + 1) g (GAnd a b) a b).
  - eapply (enter _ T s n g _ 2 G Hcl); [rewrite Hst by done; exact (Hw g _ G eq_refl Hni)|]. by apply (binary_bnd fuel orb T s (n + 1) g (GOr a b) a b).
  - destruct (hi_calls h Hinv _ _ _ _ _ _ _ _ E G) as (x & l' & m & Ex & Em & El' & _ & _).
    destruct (wf_blocks c W _ _ _ _ _ _ G) as (B1 & B2 & B3).
    assert (G0 : gate_map c !! (g - oi) = Some (GModule il ol ids 0 mid)) by (rewrite <- (N.add_0_r (g - oi)); apply B3; lia).
    pose proof (Hcallee _ _ _ _ _ x l' G0 Ex Em) as Hc.
    assert (Hs : start c g = g - oi) by (unfold start; by rewrite G).
    eapply (enter _ T s n g _ (w (start c g) - 1) G Hcl).
    { rewrite Hs. pose proof (Hc O []). lia. }
    assert (Hk : exists k, w (start c g) - 1 = N.of_nat (length ids) + (k + (0 + (0 + 0))) /\ forall fuel bits, snd (count_output md h fuel l' bits) <= k).
    { exists (w (start c g) - 1 - N.of_nat (length ids)). rewrite Hs. split; [pose proof (Hc O []); lia|]. intros fu bits. pose proof (Hc fu bits). lia. }
    destruct Hk as (k & -> & Hk).
    eapply bnd_bind; [eapply (needs_bnd fuel g _ ids HC G ltac:(done) T s (n + 1) HP Hcl)|]. cbn beta. intros bits T1 s1 n1 [HP1 Hg1] _. rewrite Ex, Em.
    eapply (bnd_bind _ _ _ _ _ _ _ _ (fun _ T' s' => T' = T1 /\ s' = s1)).
    { fold (count_output md h fuel l' bits). specialize (Hk fuel bits). destruct (count_output md h fuel l' bits) as [r k1] eqn:Eo. cbn [snd] in Hk.
      exists T1, r, s1, (n1 + k1). split; [done|]. split; [lia|]. split; [done|]. split; [by intros|]. done. }
    cbn beta. intros outs T2 s2 n2 [-> ->] _.
    eapply bnd_bind; [apply bnd_up|]. cbn beta. intros [] T2 s2 n3 [-> E2] _.
    eapply (bnd_bind _ _ _ _ _ _ _ _ (fun first T' s' => first = g - oi /\ T' = T1 /\ s' = s2)).
    { exists T1, (usize_sub md g oi), s2, n3. split; [done|]. split; [lia|]. split; [done|]. split; [by intros|].
      unfold usize_sub. destruct (N.leb_spec oi g); [|lia]. by intros first [= <-]. }
    cbn beta. intros first T3 s3 n4 (-> & -> & ->) _.
    eapply (insert_outputs_bnd T1 s2 n4 _ (g - oi) outs ol (fun T' s' => P (T' ∪ list_to_set (blk c g)) s')).
    intros s4 H41 H42.
    assert (Hblk : forall z, z ∈ blk c g <-> g - oi <= z < g - oi + ol).
    { intros z. unfold blk. rewrite G. rewrite elem_of_list_fmap. setoid_rewrite elem_of_nrange. split.
      - intros (j & -> & Hj). lia.
      - intros Hz. exists (z - (g - oi)). lia. }
    eapply (finish_P T1 s1 s4 g _ s2 HP1 G Hni Hg1).
    + eapply Q_ext; [|eapply (q_decrs T1 _ _ _ _ (P_Q _ _ HP1)); [|exact E2]]; [done|]. intros a Ha. by eapply (operand_deps g).
    + intros z Hz%Hblk. auto.
    + intros z Hz. apply H42. by rewrite <- Hblk.
Qed.

(** * Whole circuits *)
Lemma P_empty s : P ∅ s.
Proof. split; [split|..]; intros g; set_solver. Qed.
Lemma tot_le T : tot c w T <= nsum (map w (nrange (gate_index c))).
Proof. unfold tot. induction (nrange (gate_index c)) as [|x xs IH]; simpl; [lia|]. destruct (decide (x ∈ T)); lia. Qed.
Lemma tot_empty : tot c w ∅ = 0.
Proof. unfold tot. apply nsum_zero. intros x _. rewrite decide_False; [done|set_solver]. Qed.

Lemma single_le fuel inputs k s n : k < output_len c ->
  exists r s' n', count_single_output c (count_gate md h fuel l) inputs k (s, n) = (r, (s', n')) /\ n' <= n + (1 + nsum (map w (nrange (gate_index c)))).
Proof using All.
  intros Hk. unfold count_single_output. destruct (negb _); [eexists _, s, n; split; [done|lia]|].
  destruct (output_len c <=? k); [eexists _, s, n; split; [done|lia]|].
  destruct (wf_outputs c W k Hk) as (o & Eo & [go Go]). rewrite Eo. cbn [fst].
  destruct (evaled s !! o) as [b|]; [eexists _, s, n; split; [done|lia]|].
  assert (X : exists r s1 n1, count_gate md h fuel l o (s, n) = (r, (s1, n1)) /\ n1 <= n + (1 + nsum (map w (nrange (gate_index c))))).
  { assert (Hcase : (exists v, go = GInput v) \/ forall v, go <> GInput v) by (destruct go; eauto). destruct Hcase as [[v ->]|Hni].
    - destruct fuel as [|fuel]; [eexists _, s, n; split; [done|lia]|]. eexists _, s, (n + 1). split; [cbn; unfold count_tick; cbn; by rewrite E, Go|lia].
    - destruct (count_gate_bclaim fuel o ∅ s n (P_empty s) ltac:(set_solver) ltac:(by exists go)) as (T' & r & s1 & n1 & E1 & H1 & _).
      exists r, s1, n1. split; [done|]. rewrite tot_empty in H1. pose proof (tot_le T'). lia. }
  destruct X as (r & s1 & n1 & E1 & H1). unfold st_bind. rewrite E1. destruct r; try (eexists _, s1, n1; split; [done|lia]).
  unfold up. cbn [fst snd]. destruct (e_get o s1) as [r2 s2]. exists r2, s2, n1. split; [done|lia].
Qed.
Lemma output_le fuel inputs : snd (count_output md h fuel l inputs) <= output_len c * (1 + nsum (map w (nrange (gate_index c)))).
Proof using All.
  unfold count_output, count_output_with. rewrite E. destruct (negb _); [simpl; lia|]. cbv zeta. cbn [snd].
  set (v := 1 + nsum (map w (nrange (gate_index c)))).
  assert (X : forall ks s n, (forall k, k ∈ ks -> k < output_len c) ->
    snd (snd (st_mapM (count_single_output c (count_gate md h fuel l) inputs) ks (s, n))) <= n + N.of_nat (length ks) * v).
  { induction ks as [|k ks IH]; intros s n Hks; cbn [st_mapM]; [simpl; lia|].
    destruct (single_le fuel inputs k s n) as (r & s1 & n1 & E1 & H1); [apply Hks; left|]. fold v in H1.
    unfold st_bind at 1. rewrite E1. destruct r; try (cbn [snd fst length]; lia).
    specialize (IH s1 n1 ltac:(intros; apply Hks; by right)). unfold st_bind.
    destruct (st_mapM (count_single_output c (count_gate md h fuel l) inputs) ks (s1, n1)) as [r2 [s2 n2]]. cbn [snd] in IH.
    destruct r2; cbn [snd fst st_ret length]; lia. }
  unfold st_bind at 1, up at 1. cbn [fst snd]. destruct (e_load _ _ _ _ _) as [r s]. destruct r; try (simpl; lia).
  pose proof (X (nrange (output_len c)) s 0 ltac:(intros k; by rewrite elem_of_nrange)) as H. rewrite nrange_length, N2Nat.id in H. lia.
Qed.
End bound.
