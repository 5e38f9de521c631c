(** How much work an evaluation does: the evaluator of /repo/src/evaluator.rs with a counter of the entries into [eval_single_gate] (property C76). *)
From Verif Require Export EvalComplete.
From Verif Require Import Counts.

(** * The evaluator with a counter *)
(** A step that does not enter [eval_single_gate]. *)
Definition up {A} (m : ST estate A) : ST (estate * N) A := fun sn => let '(r, s) := m (fst sn) in (r, (s, snd sn)).
(** A nested evaluation with its own count [r]: it has its own maps, and its count is added. *)
Definition count_lift {A} (r : res A * N) : ST (estate * N) A := fun sn => (fst r, (fst sn, snd sn + snd r)).
(** [if evaled_map.get(&id).is_none() { self.eval_single_gate(&id, ..)?; }] (evaluator.rs 126-128 and the like). *)
Definition count_need (eg : N -> ST (estate * N) unit) (id : N) : ST (estate * N) unit := fun sn =>
  match evaled (fst sn) !! id with Some _ => (Ok tt, sn) | None => eg id sn end.
(** The binary gates (evaluator.rs 144-233). *)
Definition count_binary (md : mode) (c : circuit) (eg : N -> ST (estate * N) unit) (f : bool -> bool -> bool) (g a b : N) : ST (estate * N) unit :=
  count_need eg a ;; count_need eg b ;;
  x <- up (e_get a) ;; y <- up (e_get b) ;;
  up (e_decr md a) ;; up (e_decr md b) ;;
  up (e_insert c g (f x y)).
(** [eval_single_output] (evaluator.rs 69-108). *)
Definition count_single_output (c : circuit) (eg : N -> ST (estate * N) unit) (inputs : list bool) (w : N) : ST (estate * N) bool :=
  if negb (N.of_nat (length inputs) =? input_len c) then st_err (EInvalidInputLen (N.of_nat (length inputs)) (input_len c)) else
  if output_len c <=? w then st_err (EUnknownOutput w) else
  match output_map c !! w with
  | None => st_err (EUnknownOutput w)
  | Some o => fun sn =>
    match evaled (fst sn) !! o with
    | Some b => (Ok b, sn)
    | None => (eg o ;; up (e_get o)) sn
    end
  end.
(** [eval_output] (evaluator.rs 33-61): the outcome and the count. *)
Definition count_output_with (h : heap) (eg : nat -> N -> ST (estate * N) unit) (l : nat) (inputs : list bool) : res (list bool) * N :=
  match h_circ h !! l with
  | None => (Panic PDangling, 0)
  | Some c =>
    if negb (N.of_nat (length inputs) =? input_len c) then (Panic PAssert, 0) else
    let r := (up (e_load c (length inputs + size (input_map c) + 1) 0 inputs) ;;
              st_mapM (count_single_output c (eg l) inputs) (nrange (output_len c))) (EState ∅ ∅, 0) in
    (fst r, snd (snd r))
  end.
(** One more entry. *)
Definition count_tick {A} (m : ST (estate * N) A) : ST (estate * N) A := fun sn => m (fst sn, snd sn + 1).
(** [eval_single_gate] (evaluator.rs 110-268): every entry counts one. *)
Fixpoint count_gate (md : mode) (h : heap) (fuel : nat) (l : nat) (g : N) : ST (estate * N) unit :=
  match fuel with
  | O => fun sn => (NoFuel, sn)
  | S fuel => count_tick (
    match h_circ h !! l with
    | None => st_panic PDangling
    | Some c =>
      match gate_map c !! g with
      | None => st_err (EUnknownGate g)
      | Some (GInput _) => st_ret tt
      | Some (GConst b) => up (e_insert c g b)
      | Some (GNot a) =>
        count_need (count_gate md h fuel l) a ;;
        x <- up (e_get a) ;; up (e_decr md a) ;; up (e_insert c g (negb x))
      | Some (GXor a b) => count_binary md c (count_gate md h fuel l) xorb g a b
      | Some (GAnd a b) => count_binary md c (count_gate md h fuel l) andb g a b
      | Some (GOr a b) => count_binary md c (count_gate md h fuel l) orb g a b
      | Some (GModule il ol ids oi mid) =>
        bits <- st_mapM (fun id => count_need (count_gate md h fuel l) id ;; up (e_get id)) ids ;;
        match h_stor h !! c_storage c with
        | None => st_panic PDangling
        | Some x =>
          match module_map x !! mid with
          | None => st_err (EUnknownModule mid)
          | Some l' =>
            outs <- count_lift (count_output_with h (count_gate md h fuel) l' bits) ;;
            up (st_iterM (e_decr md) ids) ;;
            first <- st_lift (usize_sub md g oi) ;;
            up (e_insert_outputs c first outs 0 (N.to_nat ol))
          end
        end
      end
    end)
  end.
Definition count_output (md : mode) (h : heap) (fuel : nat) (l : nat) (inputs : list bool) : res (list bool) * N :=
  count_output_with h (count_gate md h fuel) l inputs.

(** * The counter does not interfere *)
Definition erases {A} (t : ST (estate * N) A) (m : ST estate A) : Prop := forall s n, m s = (fst (t (s, n)), fst (snd (t (s, n)))).
Lemma erases_up {A} (m : ST estate A) : erases (up m) m.
Proof. intros s n. unfold up. simpl. by destruct (m s). Qed.
Lemma erases_bind {A B} t m (k : A -> ST (estate * N) B) k' : erases t m -> (forall a, erases (k a) (k' a)) -> erases (st_bind t k) (st_bind m k').
Proof.
  intros H1 H2 s n. unfold st_bind. rewrite (H1 s n). destruct (t (s, n)) as [r [s' n']]. destruct r; simpl; try done. apply H2.
Qed.
Lemma erases_mapM {A B} (f : A -> ST (estate * N) B) f' xs : (forall x, erases (f x) (f' x)) -> erases (st_mapM f xs) (st_mapM f' xs).
Proof.
  intros H. induction xs as [|x xs IH]; [by intros s n|]. cbn [st_mapM]. apply erases_bind; [done|]. intros y. apply erases_bind; [done|]. by intros ys s n.
Qed.
Lemma erases_need eg eg' id : (forall g, erases (eg g) (eg' g)) -> erases (count_need eg id) (e_need eg' id).
Proof. intros H s n. unfold count_need, e_need. simpl. destruct (evaled s !! id); [done|]. apply H. Qed.
Lemma erases_binary md c eg eg' f g a b : (forall g, erases (eg g) (eg' g)) -> erases (count_binary md c eg f g a b) (e_binary md c eg' f g a b).
Proof.
  intros H. unfold count_binary, e_binary. apply erases_bind; [by apply erases_need|]. intros _. apply erases_bind; [by apply erases_need|]. intros _.
  apply erases_bind; [apply erases_up|]. intros x. apply erases_bind; [apply erases_up|]. intros y.
  apply erases_bind; [apply erases_up|]. intros _. apply erases_bind; [apply erases_up|]. intros _. apply erases_up.
Qed.
Lemma erases_single c eg eg' inputs w : (forall g, erases (eg g) (eg' g)) -> erases (count_single_output c eg inputs w) (e_single_output c eg' inputs w).
Proof.
  intros H. unfold count_single_output, e_single_output. destruct (negb _); [done|]. destruct (_ <=? _); [done|]. destruct (output_map c !! w) as [o|]; [|done].
  intros s n. simpl. destruct (evaled s !! o); [done|]. apply erases_bind; [apply H|]. intros _. apply erases_up.
Qed.
Lemma erases_output h eg eg' l inputs : (forall l g, erases (eg l g) (eg' l g)) -> fst (count_output_with h eg l inputs) = eval_output_with h eg' l inputs.
Proof.
  intros H. unfold count_output_with, eval_output_with. destruct (h_circ h !! l) as [c|]; [|done]. destruct (negb _); [done|]. cbv zeta. cbn [fst].
  assert (X : erases (up (e_load c (length inputs + size (input_map c) + 1) 0 inputs) ;; st_mapM (count_single_output c (eg l) inputs) (nrange (output_len c)))
    (e_load c (length inputs + size (input_map c) + 1) 0 inputs ;; st_mapM (e_single_output c (eg' l) inputs) (nrange (output_len c)))).
  { apply erases_bind; [apply erases_up|]. intros _. apply erases_mapM. intros w. apply erases_single. apply H. }
  by rewrite (X _ 0).
Qed.
Lemma erases_gate md h fuel : forall l g, erases (count_gate md h fuel l g) (eval_gate md h fuel l g).
Proof.
  induction fuel as [|fuel IH]; intros l g; [by intros s n|]. cbn [count_gate eval_gate].
  match goal with |- erases (count_tick ?t) ?m => assert (X : erases t m) end; [|intros s n; exact (X s (n + 1))].
  destruct (h_circ h !! l) as [c|]; [|done]. destruct (gate_map c !! g) as [[w|b|a|a b|a b|a b|il ol ids oi mid]|]; try done.
  - apply erases_bind; [by apply erases_need|]. intros _. apply erases_bind; [apply erases_up|]. intros x.
    apply erases_bind; [apply erases_up|]. intros _. apply erases_up.
  - by apply erases_binary.
  - by apply erases_binary.
  - by apply erases_binary.
  - apply erases_bind.
    { apply erases_mapM. intros id. apply erases_bind; [by apply erases_need|]. intros _. apply erases_up. }
    intros bits. destruct (h_stor h !! c_storage c) as [x|]; [|done]. destruct (module_map x !! mid) as [l'|]; [|done].
    apply erases_bind.
    { intros s n. unfold count_lift, st_lift. simpl. f_equal. symmetry. by apply erases_output. }
    intros outs. apply erases_bind; [apply erases_up|]. intros _. apply erases_bind; [by intros s n|]. intros first. apply erases_up.
Qed.
Lemma count_output_erases md h fuel l inputs : fst (count_output md h fuel l inputs) = eval_output md h fuel l inputs.
Proof. apply erases_output, erases_gate. Qed.

Lemma up_ok {A} (m : ST estate A) s n r s' : m s = (r, s') -> up m (s, n) = (r, (s', n)).
Proof. intros H. unfold up. simpl. by rewrite H. Qed.

(** * Counting *)
Section cost.
Context (md : mode) (h : heap) (l : nat) (c : circuit).
Context (Hinv : hinv h) (E : h_circ h !! l = Some c) (D : cdisc h c).
Let W : cwf c := hi_circ h Hinv l c E.
(** [w g]: what gate [g] costs when it is evaluated. *)
Context (w : N -> N) (K : nat).
Context (Hw : forall g gt, gate_map c !! g = Some gt -> is_module gt = false -> w g = match gt with GInput _ => 0 | _ => 1 end).
Context (Hw0 : forall g gt, gate_map c !! g = Some gt -> gate_oi gt <> 0 -> w g = 0).
Context (Hcallee : forall g il ol ids mid x l', gate_map c !! g = Some (GModule il ol ids 0 mid) -> h_stor h !! c_storage c = Some x ->
  module_map x !! mid = Some l' -> exists k, w g = 1 + k /\ forall m fuel bits, h_circ h !! l' = Some m -> (K <= fuel)%nat ->
  N.of_nat (length bits) = input_len m -> exists outs, count_output md h fuel l' bits = (Ok outs, k)).

(** Cost of evaluating the gates [S]. *)
Definition tot (S : gset N) : N := nsum (map (fun g => if decide (g ∈ S) then w g else 0) (nrange (gate_index c))).

Lemma nsum_add (f g k : N -> N) xs : (forall x, x ∈ xs -> f x = g x + k x) -> nsum (map f xs) = nsum (map g xs) + nsum (map k xs).
Proof.
  induction xs as [|x xs IH]; intros H; simpl; [done|]. rewrite (H x) by left. rewrite IH; [lia|]. intros. apply H. by right.
Qed.
Lemma nsum_single n k v : k < n -> nsum (map (fun x => if decide (x = k) then v else 0) (nrange n)) = v.
Proof.
  induction n as [|n IH] using N.peano_ind; [lia|]. intros Hk. rewrite <- N.add_1_r, nrange_succ, map_app, nsum_app. simpl.
  destruct (decide (n = k)) as [-> |Hn].
  - rewrite nsum_zero; [lia|]. intros x Hx%elem_of_nrange. rewrite decide_False by lia. done.
  - rewrite IH by lia. lia.
Qed.

Lemma tot_blk_gen S g gt : gate_map c !! g = Some gt -> (forall x, x ∈ blk c g -> x ∉ S) -> tot (S ∪ list_to_set (blk c g)) = tot S + w (start c g).
Proof using Hw0 W.
  clear md D K Hw Hcallee.
  intros G Hdis. destruct (start_gate c W g gt G) as (gt0 & G0 & H0 & Hst).
  unfold tot. rewrite (nsum_add _ (fun x => if decide (x ∈ S) then w x else 0) (fun x => if decide (x = start c g) then w (start c g) else 0)).
  - by rewrite nsum_single by (eapply gm_lt; [exact W|exact G0]).
  - intros x _. destruct (decide (x ∈ S)) as [HxS|HxS].
    + rewrite decide_True by set_solver. rewrite decide_False; [lia|]. intros ->. by apply (Hdis _ Hst).
    + destruct (decide (x ∈ blk c g)) as [HxB|HxB].
      * rewrite decide_True by (apply elem_of_union; right; by apply elem_of_list_to_set).
        destruct (blk_member c W g gt x G HxB) as (gx & Gx & _ & _ & _ & Hx' & _). destruct (decide (x = start c g)) as [->|Hne]; [lia|].
        rewrite (Hw0 x gx Gx); [lia|]. intros Hz. apply Hne. lia.
      * rewrite decide_False; [|intros [?|?%elem_of_list_to_set]%elem_of_union; done].
        rewrite decide_False; [lia|]. intros ->. done.
Qed.
Lemma tot_blk S s g gt : I c S s -> gate_map c !! g = Some gt -> g ∉ S -> tot (S ∪ list_to_set (blk c g)) = tot S + w (start c g).
Proof using Hw0 W.
  clear md D K Hw Hcallee.
  intros HI G Hg. apply (tot_blk_gen S g gt G). intros x Hx HxS. apply Hg. eapply (I_blk c _ _ HI x); [done|].
  destruct (blk_member c W g gt x G Hx) as (gt' & _ & _ & _ & -> & _). by eapply blk_self.
Qed.

Definition tclaim (fuel : nat) (g : N) : Prop := forall S s n, I c S s -> g ∉ S -> is_Some (gate_map c !! g) ->
  exists S' s' n', count_gate md h fuel l g (s, n) = (Ok tt, (s', n')) /\ n' + tot S = n + tot S' /\ I c S' s' /\ S ⊆ S' /\ g ∈ S' /\
    (forall x, x ∈ S' -> x ∉ S -> touch c g x) /\ (forall d, d ∈ deps c g -> d ∉ S').

Lemma t_need_ok fuel S s n g gt a : (forall a, a < start c g -> tclaim fuel a) -> I c S s -> gate_map c !! g = Some gt -> g ∉ S ->
  a ∈ operands gt ->
  exists S' s' n', count_need (count_gate md h fuel l) a (s, n) = (Ok tt, (s', n')) /\ n' + tot S = n + tot S' /\ I c S' s' /\ S ⊆ S' /\ a ∈ S' /\ g ∉ S' /\
    (forall x, x ∈ S' -> x ∉ S -> touch c a x).
Proof.
  intros HC HI G Hg Ha. unfold count_need. cbn [fst]. destruct (evaled s !! a) as [b|] eqn:Ev.
  - exists S, s, n. split; [done|]. split; [done|]. split; [done|]. split; [done|]. split; [|split; [done|by intros]].
    apply (J_ev c _ _ _ (I_J c _ _ HI)). eauto.
  - assert (HaS : a ∉ S). { intros HaS. destruct (avail h l c Hinv E S s g gt a) as [? ?]; try done. congruence. }
    destruct (HC a ltac:(by eapply (operand_lt_start h c D)) S s n HI HaS) as (S' & s' & n' & Ee & Hn & HI' & Hsub & HaS' & Ht & _).
    { by eapply (operand_exists h l c Hinv E D). }
    exists S', s', n'. split; [done|]. split; [done|]. split; [done|]. split; [done|]. split; [done|]. split; [|done].
    intros HgS. apply (touch_not_blk h l c Hinv E D g gt a g G Ha (Ht g HgS Hg)). by eapply blk_self.
Qed.

Lemma t_needs_ok fuel S s n g gt ids : (forall a, a < start c g -> tclaim fuel a) -> I c S s -> gate_map c !! g = Some gt -> g ∉ S ->
  (forall a, a ∈ ids -> a ∈ operands gt) ->
  exists S' s' n' bits, st_mapM (fun id => count_need (count_gate md h fuel l) id ;; up (e_get id)) ids (s, n) = (Ok bits, (s', n')) /\
    length bits = length ids /\ n' + tot S = n + tot S' /\ I c S' s' /\ S ⊆ S' /\ (forall a, a ∈ ids -> a ∈ S') /\ g ∉ S' /\
    (forall x, x ∈ S' -> x ∉ S -> exists a, a ∈ ids /\ touch c a x).
Proof.
  intros HC. revert S s n. induction ids as [|a ids IH]; intros S s n HI G Hg Hids; simpl.
  - exists S, s, n, []. split; [done|]. split; [done|]. split; [done|]. split; [done|]. split; [done|].
    split; [intros a []%elem_of_nil|]. split; [done|]. by intros.
  - destruct (t_need_ok fuel S s n g gt a HC HI G Hg) as (S1 & s1 & n1 & E1 & Hn1 & HI1 & Hs1 & Ha1 & Hg1 & Ht1).
    { apply Hids. left. }
    destruct (e_get_ok s1 a) as (b & Eb). { eapply (avail h l c Hinv E S1 s1 g gt a); eauto. apply Hids. left. }
    destruct (IH S1 s1 n1 HI1 G Hg1) as (S2 & s2 & n2 & bits & E2 & Hl & Hn2 & HI2 & Hs2 & Ha2 & Hg2 & Ht2).
    { intros. apply Hids. by right. }
    exists S2, s2, n2, (b :: bits). split.
    { rewrite (st_bind_ok _ _ _ b (s1, n1)); [by rewrite (st_bind_ok _ _ _ _ _ E2)|]. rewrite (st_bind_ok _ _ _ _ _ E1). by apply up_ok. }
    split; [simpl; lia|]. split; [lia|]. split; [done|]. split; [set_solver|]. split.
    { intros x [->|Hx]%elem_of_cons; [set_solver|auto]. }
    split; [done|]. intros x Hx Hx'. destruct (decide (x ∈ S1)).
    + exists a. split; [left|auto].
    + destruct (Ht2 x Hx) as (a' & ? & ?); [done|]. exists a'. split; [by right|done].
Qed.

Lemma count_binary_eq eg f g a b s : count_binary md c eg f g a b s =
  (count_need eg a ;; count_need eg b ;; x <- up (e_get a) ;; y <- up (e_get b) ;; up (st_iterM (e_decr md) [a; b]) ;; up (e_insert c g (f x y))) s.
Proof.
  unfold count_binary, st_bind.
  destruct (count_need eg a s) as [[] ?]; try done. destruct (count_need eg b _) as [[] ?]; try done.
  destruct (up (e_get a) _) as [[] ?]; try done. destruct (up (e_get b) _) as [[] [s1 n1]]; try done.
  unfold up, st_iterM, st_ret, st_bind. cbn [fst snd]. destruct (e_decr md a s1) as [r s2]; destruct r; try done. cbn [fst snd].
  destruct (e_decr md b s2) as [r s3]; destruct r; done.
Qed.

(** [finish] for an ordinary gate. *)
Lemma tbinary_claim fuel f g gt a b S s n : (forall a, a < start c g -> tclaim fuel a) -> I c S s ->
  gate_map c !! g = Some gt -> g ∉ S -> operands gt = [a; b] -> is_module gt = false ->
  exists S' s' n', count_binary md c (count_gate md h fuel l) f g a b (s, n + 1) = (Ok tt, (s', n')) /\ n' + tot S = n + tot S' /\ I c S' s' /\ S ⊆ S' /\ g ∈ S' /\
    (forall x, x ∈ S' -> x ∉ S -> touch c g x) /\ (forall d, d ∈ deps c g -> d ∉ S').
Proof.
  intros HC HI G Hg Ho Hm.
  assert (Ha : a ∈ operands gt) by (rewrite Ho; left). assert (Hb : b ∈ operands gt) by (rewrite Ho; right; left).
  destruct (t_need_ok fuel S s (n + 1) g gt a HC HI G Hg Ha) as (S1 & s1 & n1 & E1 & Hn1 & HI1 & Hs1 & Ha1 & Hg1 & Ht1).
  destruct (t_need_ok fuel S1 s1 n1 g gt b HC HI1 G Hg1 Hb) as (S2 & s2 & n2 & E2 & Hn2 & HI2 & Hs2 & Hb2 & Hg2 & Ht2).
  assert (Ha2 : a ∈ S2) by set_solver.
  destruct (e_get_ok s2 a) as (x & Ex). { by eapply (avail h l c Hinv E S2 s2 g gt a). }
  destruct (e_get_ok s2 b) as (y & Ey). { by eapply (avail h l c Hinv E S2 s2 g gt b). }
  assert (Hblk : blk c g = [g]). { unfold blk. rewrite G. by destruct gt. }
  assert (Hst : start c g = g). { unfold start. rewrite G. destruct gt; try done; simpl; lia. }
  destruct (e_decrs_ok md h l c Hinv E S2 (fun _ => O) s2 g gt [a; b] []) as (s3 & E3 & HJ3); try done.
  { apply HI2. } { by rewrite Hst. }
  { intros z [->|[->|[]%elem_of_nil]%elem_of_cons]%elem_of_cons; done. }
  set (s4 := EState (<[g := f x y]> (evaled s3)) (<[g := num_deps c g]> (ndep s3))).
  destruct (finish h l c Hinv E D S2 s2 s4 g gt HI2 G Hg2) with (s1 := s3) as [HI4 Hd4]; try done.
  { intros z. rewrite Ho. intros [->|[->|[]%elem_of_nil]%elem_of_cons]%elem_of_cons; done. }
  { rewrite Hblk. intros z ->%elem_of_list_singleton. simpl. rewrite !lookup_insert. eauto. }
  { rewrite Hblk. intros z Hz%not_elem_of_cons. simpl. rewrite !lookup_insert_ne by naive_solver. done. }
  exists (S2 ∪ list_to_set (blk c g)), s4, n2. split.
  { rewrite count_binary_eq. rewrite (st_bind_ok _ _ _ _ _ E1), (st_bind_ok _ _ _ _ _ E2).
    rewrite (st_bind_ok _ _ _ _ _ (up_ok _ _ n2 _ _ Ex)), (st_bind_ok _ _ _ _ _ (up_ok _ _ n2 _ _ Ey)).
    rewrite (st_bind_ok _ _ _ _ _ (up_ok _ _ n2 _ _ E3)). done. }
  split. { rewrite (tot_blk S2 s2 g gt HI2 G Hg2), Hst, (Hw g gt G Hm). destruct gt; try done; lia. }
  split; [done|]. split; [set_solver|]. split. { rewrite Hblk. set_solver. }
  split; [|done]. intros z [Hz|Hz%elem_of_list_to_set]%elem_of_union Hz'; [|by apply touch_self].
  destruct (decide (z ∈ S1)).
  - eapply touch_oper; [done|exact Ha|auto].
  - eapply touch_oper; [done|exact Hb|auto].
Qed.

Lemma t_gate_claim g fuel : (K + N.to_nat g < fuel)%nat -> tclaim fuel g.
Proof.
  revert fuel. induction (N.lt_wf_0 g) as [g _ IH]. intros [|fuel] Hf; [lia|].
  intros S s n HI Hg [gt G].
  assert (HC : forall a, a < start c g -> tclaim fuel a).
  { intros a Ha. pose proof (start_lt c _ _ G). apply IH; lia. }
  cbn [count_gate]. rewrite E, G. unfold count_tick. cbn [fst snd]. destruct gt as [v|b|a|a b|a b|a b|il ol ids oi mid].
  - destruct Hg. by eapply (I_in c _ _ HI).
  - assert (Hblk : blk c g = [g]) by (unfold blk; by rewrite G).
    assert (Hst : start c g = g) by (unfold start; rewrite G; simpl; lia).
    set (s4 := EState (<[g := b]> (evaled s)) (<[g := num_deps c g]> (ndep s))).
    destruct (finish h l c Hinv E D S s s4 g _ HI G Hg) with (s1 := s) as [HI4 Hd4].
    { intros a []%elem_of_nil. } { apply HI. }
    { rewrite Hblk. intros z ->%elem_of_list_singleton. simpl. rewrite !lookup_insert. eauto. }
    { rewrite Hblk. intros z Hz%not_elem_of_cons. simpl. rewrite !lookup_insert_ne by naive_solver. done. }
    exists (S ∪ list_to_set (blk c g)), s4, (n + 1). split; [done|].
    split. { rewrite (tot_blk S s g _ HI G Hg), Hst, (Hw g _ G eq_refl). lia. }
    split; [done|]. split; [set_solver|].
    split; [rewrite Hblk; set_solver|]. split; [|done].
    intros z [Hz|Hz%elem_of_list_to_set]%elem_of_union Hz'; [done|by apply touch_self].
  - assert (Hblk : blk c g = [g]) by (unfold blk; by rewrite G).
    assert (Hst : start c g = g) by (unfold start; rewrite G; simpl; lia).
    assert (Ha : a ∈ operands (GNot a)) by left.
    destruct (t_need_ok fuel S s (n + 1) g _ a HC HI G Hg Ha) as (S1 & s1 & n1 & E1 & Hn1 & HI1 & Hs1 & Ha1 & Hg1 & Ht1).
    destruct (e_get_ok s1 a) as (x & Ex). { by eapply (avail h l c Hinv E S1 s1 g _ a). }
    destruct (e_decrs_ok md h l c Hinv E S1 (fun _ => O) s1 g (GNot a) [a] []) as (s3 & E3 & HJ3); try done.
    { apply HI1. } { by rewrite Hst. } { by intros z ->%elem_of_list_singleton. }
    assert (E3' : e_decr md a s1 = (Ok tt, s3)).
    { simpl in E3. unfold st_bind in E3. destruct (e_decr md a s1) as [[] ?]; try done. by injection E3 as ->; destruct a0. }
    set (s4 := EState (<[g := negb x]> (evaled s3)) (<[g := num_deps c g]> (ndep s3))).
    destruct (finish h l c Hinv E D S1 s1 s4 g _ HI1 G Hg1) with (s1 := s3) as [HI4 Hd4]; try done.
    { by intros z ->%elem_of_list_singleton. }
    { rewrite Hblk. intros z ->%elem_of_list_singleton. simpl. rewrite !lookup_insert. eauto. }
    { rewrite Hblk. intros z Hz%not_elem_of_cons. simpl. rewrite !lookup_insert_ne by naive_solver. done. }
    exists (S1 ∪ list_to_set (blk c g)), s4, n1. split.
    { rewrite (st_bind_ok _ _ _ _ _ E1), (st_bind_ok _ _ _ _ _ (up_ok _ _ n1 _ _ Ex)), (st_bind_ok _ _ _ _ _ (up_ok _ _ n1 _ _ E3')). done. }
    split. { rewrite (tot_blk S1 s1 g _ HI1 G Hg1), Hst, (Hw g _ G eq_refl). lia. }
    split; [done|]. split; [set_solver|]. split. { rewrite Hblk. set_solver. }
    split; [|done]. intros z [Hz|Hz%elem_of_list_to_set]%elem_of_union Hz'; [|by apply touch_self].
    eapply touch_oper; [done|exact Ha|auto].
  - by eapply tbinary_claim.
  - by eapply tbinary_claim.
  - by eapply tbinary_claim.
  - destruct (t_needs_ok fuel S s (n + 1) g _ ids HC HI G Hg) as (S1 & s1 & n1 & bits & E1 & Hlen & Hn1 & HI1 & Hs1 & Ha1 & Hg1 & Ht1); [done|].
    destruct (hi_calls h Hinv _ _ _ _ _ _ _ _ E G) as (x & l' & m & Ex & Em & El' & _ & _).
    destruct (d_arity h c D _ _ _ _ _ _ _ _ _ G Ex Em El') as (-> & -> & Hids).
    destruct (wf_blocks c W _ _ _ _ _ _ G) as (B1 & B2 & B3).
    assert (G0 : gate_map c !! (g - oi) = Some (GModule (input_len m) (output_len m) ids 0 mid)) by (rewrite <- (N.add_0_r (g - oi)); apply B3; lia).
    destruct (Hcallee _ _ _ _ _ x l' G0 Ex Em) as (k & Hk & Hev).
    destruct (Hev m fuel bits El') as (outs & Eo); [lia|by rewrite Hlen|].
    assert (Eo' : eval_output md h fuel l' bits = Ok outs) by (by rewrite <- count_output_erases, Eo).
    destruct (eval_sound md h Hinv _ _ _ _ Eo') as (m' & El2 & Hol & _). rewrite El' in El2. injection El2 as <-.
    assert (Hst : start c g = g - oi) by (unfold start; by rewrite G).
    destruct (e_decrs_ok md h l c Hinv E S1 (fun _ => O) s1 g _ ids [] (I_J c _ _ HI1) G) as (s3 & E3 & HJ3); try done.
    { intros Hin. apply Hg1. eapply (I_blk c _ _ HI1 (start c g)); [done|].
      destruct (start_gate c W g _ G) as (_ & _ & _ & Hin').
      destruct (blk_member c W g _ _ G Hin') as (gs & _ & _ & _ & -> & _). by eapply blk_self. }
    destruct (e_insert_outputs_ok c (g - oi) outs 0 (N.to_nat (output_len m)) s3) as (s4 & E4 & H41 & H42); [lia|].
    assert (Hblk : forall z, z ∈ blk c g <-> g - oi + 0 <= z < g - oi + 0 + N.of_nat (N.to_nat (output_len m))).
    { intros z. unfold blk. rewrite G. rewrite elem_of_list_fmap. setoid_rewrite elem_of_nrange. split.
      - intros (j & -> & Hj). lia.
      - intros Hz. exists (z - (g - oi)). lia. }
    destruct (finish h l c Hinv E D S1 s1 s4 g _ HI1 G Hg1) with (s1 := s3) as [HI4 Hd4]; try done.
    { intros z Hz%Hblk. auto. } { intros z Hz. apply H42. by rewrite <- Hblk. }
    exists (S1 ∪ list_to_set (blk c g)), s4, (n1 + k). split.
    { rewrite (st_bind_ok _ _ _ _ _ E1), Ex, Em. fold (count_output md h fuel l' bits). rewrite Eo.
      erewrite (st_bind_ok (count_lift _)); [|reflexivity]. cbn [fst snd]. erewrite st_bind_ok; [|by apply up_ok].
      erewrite st_bind_ok; [by apply up_ok|]. unfold st_lift, usize_sub. destruct (N.leb_spec oi g); [reflexivity|lia]. }
    split. { rewrite (tot_blk S1 s1 g _ HI1 G Hg1), Hst, Hk. lia. }
    split; [done|]. split; [set_solver|]. split. { apply elem_of_union. right. apply elem_of_list_to_set. by eapply blk_self. }
    split; [|done]. intros z [Hz|Hz%elem_of_list_to_set]%elem_of_union Hz'; [|by apply touch_self].
    destruct (Ht1 z Hz Hz') as (a & Ha & Ta). by eapply touch_oper.
Qed.

(** * Whole circuits *)
Lemma t_outputs_eval fuel inputs ks rest done_ : (forall k, k ∈ ks -> output_ok c k) -> N.of_nat (length inputs) = input_len c ->
  (K + N.to_nat (gate_index c) <= fuel)%nat ->
  forall S s n, I c S s ->
  nrange (output_len c) = done_ ++ ks ++ rest ->
  (forall x, x ∈ S -> x ∈ input_set c \/ exists k o, k ∈ done_ /\ output_map c !! k = Some o /\ touch c o x) ->
  (forall k o, k ∈ done_ -> output_map c !! k = Some o -> o ∈ S) ->
  exists outs S' s' n', st_mapM (count_single_output c (count_gate md h fuel l) inputs) ks (s, n) = (Ok outs, (s', n')) /\ n' + tot S = n + tot S' /\ I c S' s' /\
    (forall x, x ∈ S' -> x ∈ input_set c \/ exists k o, k ∈ done_ ++ ks /\ output_map c !! k = Some o /\ touch c o x) /\
    (forall k o, k ∈ done_ ++ ks -> output_map c !! k = Some o -> o ∈ S').
Proof.
  intros HO Hlen Hf. revert done_. induction ks as [|k ks IH]; intros done_ S s n HI Hr HS HD; simpl.
  - exists [], S, s, n. rewrite app_nil_r. done.
  - assert (Hk : k ∈ nrange (output_len c)) by (rewrite Hr; apply elem_of_app; right; left).
    apply elem_of_nrange in Hk. destruct (wf_outputs c W k Hk) as (o & Eo & [go Go]).
    assert (Hkpos : done_ = nrange k).
    { assert (length done_ = N.to_nat k).
      { assert (H : nrange (output_len c) !! length done_ = Some k) by (rewrite Hr, lookup_app_r, Nat.sub_diag by done; done).
        rewrite nrange_lookup in H. destruct decide; [|done]. injection H as <-. lia. }
      assert (H1 : take (length done_) (nrange (output_len c)) = done_) by (rewrite Hr, take_app; done).
      rewrite <- H1, H. replace (output_len c) with (k + (output_len c - k)) by lia. rewrite nrange_add.
      rewrite take_app_alt; [done|]. rewrite nrange_length. done. }
    assert (Hone : exists S' s' b n', count_single_output c (count_gate md h fuel l) inputs k (s, n) = (Ok b, (s', n')) /\ n' + tot S = n + tot S' /\ I c S' s' /\
      (forall x, x ∈ S' -> x ∈ S \/ touch c o x) /\ S ⊆ S' /\ o ∈ S').
    { unfold count_single_output. destruct (N.eqb_spec (N.of_nat (length inputs)) (input_len c)); [|done]. simpl.
      destruct (N.leb_spec (output_len c) k); [lia|]. rewrite Eo. cbn [fst].
      destruct (evaled s !! o) as [b|] eqn:Ev.
      - exists S, s, b, n. split; [done|]. split; [done|]. split; [done|]. split; [auto|]. split; [done|].
        apply (J_ev c _ _ _ (I_J c _ _ HI)). eauto.
      - assert (Ho : o ∉ S).
        { intros Ho. assert (is_Some (evaled s !! o)) as [? ?]; [|congruence].
          apply (J_ev c _ _ _ (I_J c _ _ HI)). split; [done|].
          destruct (HO k ltac:(left) o Eo) as [Hd|(d & Hd & Hnt)]; [by left|].
          right. rewrite Nat.add_0_r. eapply filter_lt; [exact Hd|]. destruct Hnt as [(gt & Gd & Hoi)|Hnt].
          { unfold EvalComplete.head. rewrite Gd. rewrite (proj2 (N.eqb_neq _ _) Hoi). apply andb_false_r. }
          rewrite bool_decide_false; [done|].
          intros HdS. destruct (HS d HdS) as [HdI|(k' & o' & Hk' & Eo' & T)].
          - apply (elem_of_input_set h l c Hinv E) in HdI as [v Gd]. apply (deps_in c W) in Hd as (gt & Gd' & Hx). rewrite Gd in Gd'.
            injection Gd' as <-. by apply elem_of_nil in Hx.
          - subst done_. apply elem_of_nrange in Hk'. by eapply Hnt. }
        destruct (t_gate_claim o fuel) with (S := S) (s := s) (n := n) as (S' & s' & n' & E1 & Hn & HI' & Hsub & HoS & Ht & Hd); try done.
        { pose proof (gm_lt c o go W Go). lia. }
        assert (is_Some (evaled s' !! o)) as Hev.
        { apply (J_ev c _ _ _ (I_J c _ _ HI')). split; [done|]. destruct (deps c o) as [|d ds] eqn:Ed; [by left|]. right.
          rewrite Nat.add_0_r. rewrite <- Ed. eapply filter_lt with (x := d); [rewrite Ed; left|].
          rewrite bool_decide_false; [done|]. apply Hd. left. }
        destruct (e_get_ok s' o Hev) as (b & Eb). exists S', s', b, n'. split.
        { rewrite (st_bind_ok _ _ _ _ _ E1). by apply up_ok. }
        split; [done|]. split; [done|]. split; [|done]. intros x Hx. destruct (decide (x ∈ S)); [by left|right; auto]. }
    destruct Hone as (S' & s' & b & n' & E1 & Hn & HI' & HS' & Hsub & HoS).
    destruct (IH) with (done_ := done_ ++ [k]) (S := S') (s := s') (n := n') as (outs & S2 & s2 & n2 & E2 & Hn2 & HI2 & HS2 & HD2).
    { intros. apply HO. by right. }
    { done. }
    { rewrite <- app_assoc. done. }
    { intros x Hx. destruct (HS' x Hx) as [HxS|T].
      - destruct (HS x HxS) as [?|(k' & o' & Hk' & Eo' & T)]; [by left|]. right. exists k', o'. split; [|done]. apply elem_of_app. by left.
      - right. exists k, o. split; [|done]. apply elem_of_app. right. left. }
    { intros k' o' Hk' Eo'. apply elem_of_app in Hk' as [Hk'|Hk'].
      - eapply Hsub, HD; eauto.
      - apply elem_of_list_singleton in Hk' as ->. congruence. }
    rewrite <- app_assoc in HS2, HD2. exists (b :: outs), S2, s2, n2.
    rewrite (st_bind_ok _ _ _ _ _ E1), (st_bind_ok _ _ _ _ _ E2). split; [done|]. split; [lia|]. done.
Qed.

(** The evaluation of the whole circuit costs what its needed gates cost: [U] decides which gates are needed. *)
Lemma count_output_ok (U : gset N) : outputs_ok c -> (forall g gt, gate_map c !! g = Some gt -> (forall v, gt <> GInput v) ->
    (g ∈ U <-> exists k o, output_map c !! k = Some o /\ touch c o g)) ->
  forall fuel inputs, N.of_nat (length inputs) = input_len c -> (K + N.to_nat (gate_index c) <= fuel)%nat ->
  exists outs, count_output md h fuel l inputs = (Ok outs, tot U).
Proof.
  intros HO HU fuel inputs Hlen Hf. unfold count_output, count_output_with. rewrite E.
  destruct (N.eqb_spec (N.of_nat (length inputs)) (input_len c)); [|done]. cbn [negb].
  destruct (init_I h l c Hinv E inputs (length inputs + size (input_map c) + 1)) as (s & E1 & HI); [done|lia|].
  destruct (t_outputs_eval fuel inputs (nrange (output_len c)) [] []) with (S := input_set c) (s := s) (n := 0) as (outs & S' & s' & n' & E2 & Hn & HI' & HS & HD).
  { intros k _ o Eo. exact (HO k o Eo). } { done. } { done. } { done. } { by rewrite app_nil_r. }
  { intros. by left. } { intros k o Hk. by apply elem_of_nil in Hk. }
  exists outs. rewrite (st_bind_ok _ _ _ _ _ (up_ok _ _ 0 _ _ E1)), E2. cbv zeta. cbn [fst snd]. f_equal.
  assert (Hin : forall g v, gate_map c !! g = Some (GInput v) -> w g = 0) by (intros g v G; by rewrite (Hw g _ G eq_refl)).
  assert (H0 : tot (input_set c) = 0).
  { unfold tot. apply nsum_zero. intros g _. destruct (decide _) as [Hg|]; [|done].
    apply (elem_of_input_set h l c Hinv E) in Hg as [v G]. eauto. }
  replace n' with (tot S') by lia. unfold tot. apply nsum_ext. intros g Hg%elem_of_nrange.
  destruct (proj2 (wf_gates c W g) Hg) as [gt G].
  assert (Hcase : (exists v, gt = GInput v) \/ forall v, gt <> GInput v) by (destruct gt; eauto).
  destruct Hcase as [[v ->]|Hni]; [rewrite (Hin g v G); by repeat destruct (decide _)|].
  assert (Hiff : g ∈ S' <-> g ∈ U).
  { rewrite (HU g gt G Hni). split.
    - intros Hs. destruct (HS g Hs) as [Hi|(k & o & _ & Eo & T)]; [|eauto].
      apply (elem_of_input_set h l c Hinv E) in Hi as [v G']. rewrite G in G'. injection G' as ->. by destruct (Hni v).
    - intros (k & o & Eo & T). eapply (touch_closed c S' s' o); [done| |done]. apply (HD k); [|done].
      apply elem_of_nrange. destruct (decide (k < output_len c)); [done|]. rewrite (wf_outputs_none c W) in Eo; [done|lia]. }
  destruct (decide (g ∈ S')), (decide (g ∈ U)); try done; tauto.
Qed.

End cost.
