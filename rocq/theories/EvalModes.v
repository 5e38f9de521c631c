(** How an evaluation can end: a success, one error value or one panic, and nothing else. *)
From Verif Require Export EvalComplete.

(** [np]: the panic is excluded as well. *)
Definition outcome (np : bool) {A} (r : res A) : Prop :=
  match r with
  | Ok _ => True
  | Err (EUnknownEvaledBit _) => True
  | Panic PKey => np = false
  | _ => False
  end.

(** Pending uses are positive, and known for every stored value. *)
Record pending (c : circuit) (s : estate) : Prop := {
  pe_pos : forall a n, deps c a <> [] -> ndep s !! a = Some n -> 1 <= n;
  pe_dom : forall a, is_Some (evaled s !! a) -> is_Some (ndep s !! a);
}.
Definition safe (np : bool) (c : circuit) {A} (m : ST estate A) (Q : A -> Prop) : Prop :=
  forall s, pending c s -> outcome np (fst (m s)) /\ pending c (snd (m s)) /\ forall a, fst (m s) = Ok a -> Q a.

Section safe.
Context (np : bool) (c : circuit).
Lemma safe_ret {A} (a : A) (Q : A -> Prop) : Q a -> safe np c (st_ret a) Q.
Proof. intros HQ s Hs. simpl. split; [done|]. split; [done|]. by intros ? [= <-]. Qed.
Lemma safe_bind {A B} (m : ST estate A) (k : A -> ST estate B) Q R : safe np c m Q -> (forall a, Q a -> safe np c (k a) R) -> safe np c (st_bind m k) R.
Proof.
  intros Hm Hk s Hs. unfold st_bind. destruct (Hm s Hs) as (H1 & H2 & H3). destruct (m s) as [ [a|e|p|] s1]; simpl in *.
  - by apply Hk; [apply H3|].
  - done.
  - done.
  - done.
Qed.
Lemma safe_weaken {A} (m : ST estate A) (Q R : A -> Prop) : safe np c m Q -> (forall a, Q a -> R a) -> safe np c m R.
Proof. intros Hm HQ s Hs. destruct (Hm s Hs) as (H1 & H2 & H3). eauto. Qed.
Lemma safe_mapM {A B} (f : A -> ST estate B) xs : (forall x, x ∈ xs -> safe np c (f x) (fun _ => True)) -> safe np c (st_mapM f xs) (fun ys => length ys = length xs).
Proof.
  induction xs as [|x xs IH]; intros H; cbn [st_mapM]; [by apply safe_ret|].
  eapply safe_bind; [apply H; left|]. intros y _. eapply safe_bind; [apply IH; intros; apply H; by right|].
  intros ys Hys. apply safe_ret. simpl. by rewrite Hys.
Qed.
Lemma safe_iterM {A} (f : A -> ST estate unit) xs : (forall x, x ∈ xs -> safe np c (f x) (fun _ => True)) -> safe np c (st_iterM f xs) (fun _ => True).
Proof.
  induction xs as [|x xs IH]; intros H; cbn [st_iterM]; [by apply safe_ret|].
  eapply safe_bind; [apply H; left|]. intros y _. apply IH. intros. apply H. by right.
Qed.
Lemma safe_insert id b : safe np c (e_insert c id b) (fun _ => True).
Proof.
  intros s [H1 H2]. unfold e_insert. cbn [fst snd]. split; [done|]. split; [|done]. split; cbn [evaled ndep].
  - intros a n Ha. destruct (decide (a = id)) as [-> |].
    + rewrite lookup_insert. intros [= <-]. unfold num_deps. change (c_get_depended_gates c id) with (deps c id). destruct (deps c id); [done|simpl; lia].
    + rewrite lookup_insert_ne by done. by apply H1.
  - intros a. destruct (decide (a = id)) as [-> |].
    + rewrite !lookup_insert. eauto.
    + rewrite !lookup_insert_ne by done. apply H2.
Qed.
Lemma safe_get id : safe np c (e_get id) (fun _ => True).
Proof. intros s Hs. unfold e_get. by destruct (evaled s !! id). Qed.
Lemma pending_decr s md id n : pending c s -> deps c id <> [] -> ndep s !! id = Some n ->
  exists s', e_decr md id s = (Ok tt, s') /\ pending c s' /\ forall b, b <> id -> evaled s' !! b = evaled s !! b.
Proof.
  intros [H1 H2] Hd En. unfold e_decr. rewrite En. pose proof (H1 _ _ Hd En) as Hn. unfold usize_sub. destruct (N.leb_spec 1 n); [|lia].
  destruct (N.eqb_spec (n - 1) 0) as [Hz|Hz].
  - eexists. split; [done|]. split; [split; cbn [evaled ndep]|].
    + intros a m Ha Ea. apply lookup_delete_Some in Ea as [_ Ea]. eauto.
    + intros a Ha. destruct (decide (a = id)) as [-> |]; [rewrite lookup_delete in Ha; by destruct Ha|]. rewrite lookup_delete_ne in Ha by done. rewrite lookup_delete_ne by done. eauto.
    + intros b Hb. cbn [evaled]. by rewrite lookup_delete_ne by done.
  - eexists. split; [done|]. split; [split; cbn [evaled ndep]|].
    + intros a m Ha. destruct (decide (a = id)) as [-> |]; [rewrite lookup_insert; intros [= <-]; lia|]. rewrite lookup_insert_ne by done. eauto.
    + intros a Ha. destruct (decide (a = id)) as [-> |]; [rewrite lookup_insert; eauto|]. rewrite lookup_insert_ne by done. eauto.
    + done.
Qed.
Lemma safe_decr md id : np = false -> deps c id <> [] -> safe np c (e_decr md id) (fun _ => True).
Proof.
  intros Hnp Hd s Hs. destruct (ndep s !! id) as [n|] eqn:En.
  - destruct (pending_decr s md id n Hs Hd En) as (s' & E & P & _). by rewrite E.
  - unfold e_decr. by rewrite En.
Qed.
Lemma safe_need eg id : safe np c (eg id) (fun _ => True) -> safe np c (e_need eg id) (fun _ => True).
Proof. intros H s Hs. unfold e_need. destruct (evaled s !! id); [done|]. by apply H. Qed.
(** One step at a time. *)
Lemma bind_get_ok {B} a x (k : bool -> ST estate B) s : evaled s !! a = Some x -> (x <- e_get a ;; k x) s = k x s.
Proof. intros E. unfold st_bind, e_get. by rewrite E. Qed.
Lemma bind_get_err {B} a (k : bool -> ST estate B) s : evaled s !! a = None -> (x <- e_get a ;; k x) s = (Err (EUnknownEvaledBit a), s).
Proof. intros E. unfold st_bind, e_get. by rewrite E. Qed.
Lemma bind_decr_ok {B} md a s' (k : ST estate B) s : e_decr md a s = (Ok tt, s') -> (e_decr md a ;; k) s = k s'.
Proof. intros E. unfold st_bind. by rewrite E. Qed.
(** Reading operands and then counting them down; only a repeated operand can panic. *)
Lemma safe_take1 md a (f : bool -> bool) g : deps c a <> [] -> safe np c (x <- e_get a ;; e_decr md a ;; e_insert c g (f x)) (fun _ => True).
Proof.
  intros Ha s Hs. destruct (evaled s !! a) as [x|] eqn:Ea; [|by rewrite bind_get_err]. rewrite (bind_get_ok _ x) by done.
  destruct (pe_dom _ _ Hs a (ex_intro _ _ Ea)) as [n En]. destruct (pending_decr s md a n Hs Ha En) as (s' & E & P & _).
  rewrite (bind_decr_ok _ _ _ _ _ E). by apply safe_insert.
Qed.
Lemma safe_take2 md a b (f : bool -> bool -> bool) g : deps c a <> [] -> deps c b <> [] -> (np = true -> a <> b) ->
  safe np c (x <- e_get a ;; y <- e_get b ;; e_decr md a ;; e_decr md b ;; e_insert c g (f x y)) (fun _ => True).
Proof.
  intros Ha Hb Hne s Hs. destruct (evaled s !! a) as [x|] eqn:Ea; [|by rewrite bind_get_err]. rewrite (bind_get_ok _ x) by done.
  destruct (evaled s !! b) as [y|] eqn:Eb; [|by rewrite bind_get_err]. rewrite (bind_get_ok _ y) by done.
  destruct (pe_dom _ _ Hs a (ex_intro _ _ Ea)) as [n En]. destruct (pending_decr s md a n Hs Ha En) as (s' & E & P & K).
  rewrite (bind_decr_ok _ _ _ _ _ E). destruct (decide (b = a)) as [-> |Hba].
  - assert (Hnp : np = false) by (destruct np; [by destruct Hne|done]).
    apply (safe_bind _ _ (fun _ => True)); [by apply safe_decr|intros; apply safe_insert|done].
  - rewrite <- (K b Hba) in Eb. destruct (pe_dom _ _ P b (ex_intro _ _ Eb)) as [n' En'].
    destruct (pending_decr s' md b n' P Hb En') as (s2 & E2 & P2 & _). rewrite (bind_decr_ok _ _ _ _ _ E2). by apply safe_insert.
Qed.
Lemma safe_insert_outputs first bits i k : (N.to_nat i + k <= length bits)%nat -> safe np c (e_insert_outputs c first bits i k) (fun _ => True).
Proof.
  revert i. induction k as [|k IH]; intros i Hi; cbn [e_insert_outputs]; [by apply safe_ret|].
  eapply (safe_bind _ _ (fun _ => True)).
  - intros s Hs. unfold st_nth. destruct (lookup_lt_is_Some_2 bits (N.to_nat i)) as [b Eb]; [lia|]. by rewrite Eb.
  - intros b _. eapply safe_bind; [apply safe_insert|]. intros _ _. apply IH. lia.
Qed.
Lemma safe_load k w inputs : cwf c -> w + N.of_nat (length inputs) = input_len c -> (length inputs <= k)%nat -> safe np c (e_load c k w inputs) (fun _ => True).
Proof.
  intros W. revert k w. induction inputs as [|b inputs IH]; intros k w Hw Hk; cbn [e_load]; [destruct k; by apply safe_ret|].
  simpl in Hw, Hk. destruct k as [|k]; [lia|]. cbn [e_load]. destruct (wf_inputs c W w) as (g & -> & _); [lia|].
  eapply safe_bind; [apply safe_insert|]. intros _ _. apply IH; lia.
Qed.
End safe.

(** No calls, and no gate uses a gate twice. *)
Definition plain (c : circuit) : Prop := forall g gt, gate_map c !! g = Some gt -> is_module gt = false /\ NoDup (operands gt).

Section outcomes.
Context (md : mode) (h : heap) (D : dinv h) (rank : nat -> nat) (M : nat).
Context (Hrank : forall l c l', h_circ h !! l = Some c -> calls h c l' -> (rank l' < rank l)%nat).
Context (HM : forall l c, h_circ h !! l = Some c -> (N.to_nat (gate_index c) <= M)%nat).

Lemma output_outcome np eg l c inputs : h_circ h !! l = Some c -> N.of_nat (length inputs) = input_len c ->
  (forall g, is_Some (gate_map c !! g) -> safe np c (eg l g) (fun _ => True)) ->
  outcome np (eval_output_with h eg l inputs) /\ forall outs, eval_output_with h eg l inputs = Ok outs -> N.of_nat (length outs) = output_len c.
Proof.
  intros E Hl Heg. pose proof (hi_circ h (di_inv h D) l c E) as W. unfold eval_output_with. rewrite E, Hl, N.eqb_refl. cbn [negb].
  assert (S : safe np c (e_load c (length inputs + size (input_map c) + 1) 0 inputs ;; st_mapM (e_single_output c (eg l) inputs) (nrange (output_len c)))
    (fun outs => N.of_nat (length outs) = output_len c)).
  { eapply safe_bind; [apply safe_load; [done|lia|lia]|]. intros _ _. eapply safe_weaken; [apply safe_mapM|].
    - intros w Hw. apply elem_of_nrange in Hw. unfold e_single_output. rewrite Hl, N.eqb_refl. cbn [negb]. destruct (N.leb_spec (output_len c) w); [lia|].
      destruct (wf_outputs c W w) as (o & -> & Go); [done|]. intros s Hs. destruct (evaled s !! o) eqn:Eo; [done|].
      apply (safe_bind _ _ _ _ (fun _ => True)); [by apply Heg|intros; apply safe_get|done].
    - cbn beta. intros outs ->. unfold nrange. rewrite map_length, seq_length. lia. }
  destruct (S (EState ∅ ∅)) as (H1 & _ & H2); [|done].
  split; cbn [evaled ndep]; [intros a n _; by rewrite lookup_empty|intros a; rewrite lookup_empty; by intros []].
Qed.

Lemma gate_outcome fuel : forall np l c g, h_circ h !! l = Some c -> is_Some (gate_map c !! g) -> (np = true -> plain c) ->
  (rank l * M + N.to_nat g < fuel)%nat -> safe np c (eval_gate md h fuel l g) (fun _ => True).
Proof.
  induction fuel as [|fuel IH]; intros np l c g E [gt G] Hp Hf; [lia|]. cbn [eval_gate]. rewrite E, G.
  pose proof (hi_circ h (di_inv h D) l c E) as W. pose proof (di_disc h D l c E) as Dc.
  assert (Hop : forall a, a ∈ operands gt -> is_Some (gate_map c !! a) /\ (rank l * M + N.to_nat a < fuel)%nat /\ deps c a <> []).
  { intros a Ha. pose proof (d_ops h c Dc g gt a G Ha) as Hlt. split; [|split].
    - apply (wf_gates c W). pose proof (gm_lt c g gt W G). lia.
    - lia.
    - intros He. assert (Hg : g ∈ deps c a) by (apply (deps_in c W); eauto). rewrite He in Hg. by apply elem_of_nil in Hg. }
  assert (Hneed : forall a, a ∈ operands gt -> safe np c (e_need (eval_gate md h fuel l) a) (fun _ => True)).
  { intros a Ha. destruct (Hop a Ha) as (H1 & H2 & _). apply safe_need. by eapply IH. }
  assert (Hbin : forall f a b, operands gt = [a; b] -> safe np c (e_binary md c (eval_gate md h fuel l) f g a b) (fun _ => True)).
  { intros f a b Ho. rewrite Ho in *. unfold e_binary. eapply safe_bind; [apply Hneed; left|]. intros _ _.
    eapply safe_bind; [apply Hneed; right; left|]. intros _ _. apply safe_take2; [apply Hop; left|apply Hop; right; left|].
    intros Hnp. destruct (Hp Hnp g gt G) as [_ Hnd]. rewrite Ho in Hnd. apply NoDup_cons in Hnd as [Hnd _]. intros ->. apply Hnd. left. }
  destruct gt as [i|b|a|a b|a b|a b|il ol ids oi mid]; try (by apply Hbin).
  - by apply safe_ret.
  - apply safe_insert.
  - eapply safe_bind; [apply Hneed; left|]. intros _ _. apply safe_take1. apply Hop. left.
  - assert (Hnp : np = false). { destruct np; [|done]. by destruct (Hp eq_refl g _ G). } clear Hp. subst np.
    destruct (hi_calls h (di_inv h D) _ _ _ _ _ _ _ _ E G) as (x & l' & m & Ex & Em & El' & _). 
    destruct (d_arity h c Dc _ _ _ _ _ _ _ _ _ G Ex Em El') as (-> & -> & Hids).
    destruct (wf_blocks c W _ _ _ _ _ _ G) as (Hoi & Hoig & _).
    assert (Hr : (rank l' < rank l)%nat). { eapply Hrank; [done|]. exists g, (input_len m), (output_len m), ids, oi, mid, x. done. }
    eapply safe_bind; [apply safe_mapM; intros a Ha|].
    + eapply safe_bind; [by apply Hneed|]. intros _ _. apply safe_get.
    + cbn beta. intros bits Hbits. rewrite Ex, Em.
      destruct (output_outcome false (eval_gate md h fuel) l' m bits El') as [Ho Hol].
      * by rewrite Hbits.
      * intros g' [gt' G']. eapply IH; [done|eauto|done|]. pose proof (HM l' m El'). pose proof (gm_lt m g' gt' (hi_circ h (di_inv h D) l' m El') G').
        nia.
      * apply (safe_bind _ _ _ _ (fun outs => N.of_nat (length outs) = output_len m)).
        { intros s Hs. unfold st_lift. cbn [fst snd]. eauto. }
        intros outs Houts. apply (safe_bind _ _ _ _ (fun _ => True)).
        { apply safe_iterM. intros a Ha. apply safe_decr; [done|]. by apply Hop. }
        intros _ _. apply (safe_bind _ _ _ _ (fun _ => True)).
        { intros s Hs. unfold st_lift, usize_sub. destruct (N.leb_spec oi g); [done|lia]. }
        intros first _. apply safe_insert_outputs. lia.
Qed.
End outcomes.

Theorem eval_outcome md h l : dinv h -> exists F, forall np fuel c inputs, h_circ h !! l = Some c -> (np = true -> plain c) -> (F <= fuel)%nat ->
  N.of_nat (length inputs) = input_len c -> outcome np (eval_output md h fuel l inputs).
Proof.
  intros D. destruct (di_rank h D) as [rank Hr]. set (M := fold_right (fun c k => (N.to_nat (gate_index c) + k)%nat) 0%nat (h_circ h)).
  assert (HM : forall l c, h_circ h !! l = Some c -> (N.to_nat (gate_index c) <= M)%nat).
  { intros l0 c E. unfold M. apply elem_of_list_lookup_2 in E. clear M Hr. induction (h_circ h) as [|c' cs IH]; [by apply elem_of_nil in E|].
    cbn [fold_right]. apply elem_of_cons in E as [-> |E]; [lia|]. specialize (IH E). lia. }
  exists (rank l * M + M + 1)%nat. intros np fuel c inputs E Hp Hf Hl. unfold eval_output. eapply output_outcome; [done|done|done|].
  intros g [gt G]. eapply gate_outcome; [done|exact Hr|exact HM|done|eauto|done|]. pose proof (HM l c E). pose proof (gm_lt c g gt (hi_circ h (di_inv h D) l c E) G). lia.
Qed.
