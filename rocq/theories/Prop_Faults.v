(** Properties C88: how evaluations end on circuits of any history, disciplined or not. *)
From Verif Require Export EvalModes Prop_Circuit Prop_Eval Prop_Outcomes.
Open Scope N_scope.
Open Scope list_scope.

(** * What is wrong with the circuit *)
Definition called_from (h : heap) (l l' : nat) : Prop := exists c, h_circ h !! l = Some c /\ calls h c l'.
(** Some circuit reached from the one at [l] by module calls satisfies [P]. *)
Definition somewhere (h : heap) (l : nat) (P : circuit -> Prop) : Prop := exists l' c, rtc (called_from h) l l' /\ h_circ h !! l' = Some c /\ P c.
(** A gate has the operand [g], which is no gate. *)
Definition dangling (g : N) (c : circuit) : Prop := gate_map c !! g = None /\ exists d gt, gate_map c !! d = Some gt /\ g ∈ operands gt.
(** The gate [g] is used by a gate, and it is an input, or the first of two different operands. *)
Definition dropped (g : N) (c : circuit) : Prop := (exists d gt, gate_map c !! d = Some gt /\ g ∈ operands gt) /\
  ((exists w, gate_map c !! g = Some (GInput w)) \/
   (is_Some (gate_map c !! g) /\ exists d b, g <> b /\ (gate_map c !! d = Some (GXor g b) \/ gate_map c !! d = Some (GAnd g b) \/ gate_map c !! d = Some (GOr g b)))).
(** A gate uses another one twice, or is a call with several arguments. *)
Definition crowded (c : circuit) : Prop := exists d, (exists a, gate_map c !! d = Some (GXor a a) \/ gate_map c !! d = Some (GAnd a a) \/ gate_map c !! d = Some (GOr a a)) \/
  (exists il ol ids oi mid, gate_map c !! d = Some (GModule il ol ids oi mid) /\ (2 <= length ids)%nat).
(** A call has more or fewer arguments than the module has inputs. *)
Definition misfit (h : heap) (c : circuit) : Prop := exists d il ol ids oi mid x l' m, gate_map c !! d = Some (GModule il ol ids oi mid) /\
  h_stor h !! c_storage c = Some x /\ module_map x !! mid = Some l' /\ h_circ h !! l' = Some m /\ N.of_nat (length ids) <> input_len m.
Definition eval_fault (h : heap) (l : nat) {A} (r : res A) : Prop :=
  match r with
  | Ok _ | NoFuel => True
  | Err (EUnknownGate g) => somewhere h l (dangling g)
  | Err (EUnknownEvaledBit g) => somewhere h l (dropped g)
  | Panic PKey => somewhere h l crowded
  | Panic PAssert => somewhere h l (misfit h)
  | _ => False
  end.

Section faults.
Context (md : mode) (h : heap) (Hi : hinv h).
Lemma somewhere_call l l' P : called_from h l l' -> somewhere h l' P -> somewhere h l P.
Proof. intros Hc (l2 & c & R & E & H). exists l2, c. split; [by eapply rtc_l|done]. Qed.
Lemma fault_call {A B} l l' (r : res A) (r' : res B) : called_from h l l' -> eval_fault h l' r ->
  match r, r' with Err e, Err e' => e = e' | Panic p, Panic p' => p = p' | NoFuel, NoFuel => True | _, _ => False end -> eval_fault h l r'.
Proof.
  intros Hc H E. destruct r as [?|e|p|], r' as [?|e'|p'|]; try done; subst.
  - destruct e'; try done; by eapply somewhere_call.
  - destruct p'; try done; by eapply somewhere_call.
Qed.

Section circuit.
Context (l : nat) (c : circuit) (Ec : h_circ h !! l = Some c).
Let W : cwf c := hi_circ h Hi l c Ec.
Lemma here (P : circuit -> Prop) : P c -> somewhere h l P.
Proof using Ec. intros H. exists l, c. split; [apply rtc_refl|done]. Qed.
Definition used (g : N) : Prop := exists d gt, gate_map c !! d = Some gt /\ g ∈ operands gt.
Lemma used_deps g : used g -> deps c g <> [].
Proof using Ec Hi. intros (d & gt & E & H) Hd. pose proof (proj2 (deps_in c W g d) (ex_intro _ gt (conj E H))) as X. rewrite Hd in X. by apply elem_of_nil in X. Qed.
Lemma deps_used g : deps c g <> [] -> used g.
Proof using Ec Hi. intros H. destruct (deps c g) as [|d r] eqn:E; [done|]. assert (d ∈ deps c g) as X by (rewrite E; left). apply (deps_in c W) in X as (gt & ? & ?). by exists d, gt. Qed.
Record einv (s : estate) : Prop := {
  ei_p : pending c s;
  ei_in : forall g w, gate_map c !! g = Some (GInput w) -> is_Some (evaled s !! g) \/ used g;
  ei_g : forall g, is_Some (evaled s !! g) -> is_Some (gate_map c !! g);
}.
(** From a state in [P]: a success ends in [Q], a failure has a cause. *)
Definition tri {A} (P : estate -> Prop) (m : ST estate A) (Q : A -> estate -> Prop) : Prop :=
  forall s, P s -> match m s with (Ok a, s') => Q a s' | (r, _) => eval_fault h l r end.
Lemma tri_bind {A B} P (m : ST estate A) (k : A -> ST estate B) Q R : tri P m Q -> (forall a, tri (Q a) (k a) R) -> tri P (st_bind m k) R.
Proof. intros Hm Hk s Hs. unfold st_bind. specialize (Hm s Hs). destruct (m s) as [[a|e|p|] s']; try done. by apply Hk. Qed.
Lemma tri_weaken {A} (P P' : estate -> Prop) (m : ST estate A) (Q Q' : A -> estate -> Prop) : tri P m Q -> (forall s, P' s -> P s) -> (forall a s, Q a s -> Q' a s) -> tri P' m Q'.
Proof. intros Hm HP HQ s Hs. specialize (Hm s (HP s Hs)). destruct (m s) as [[a|e|p|] s']; try done. by apply HQ. Qed.
Lemma tri_ret {A} (a : A) (P : estate -> Prop) (Q : A -> estate -> Prop) : (forall s, P s -> Q a s) -> tri P (st_ret a) Q.
Proof. intros H s Hs. by apply H. Qed.
Lemma tri_insert g b : is_Some (gate_map c !! g) -> tri einv (e_insert c g b) (fun _ s => einv s /\ is_Some (evaled s !! g)).
Proof using Ec.
  intros Hg s [Hp Hin Hk]. unfold e_insert. split; [split|]; cbn [evaled].
  - by destruct (safe_insert false c g b s Hp) as (_ & Hp' & _).
  - intros g' w E. destruct (decide (g' = g)) as [->|]; [left; rewrite lookup_insert; eauto|]. rewrite lookup_insert_ne by done. by eapply Hin.
  - intros g'. destruct (decide (g' = g)) as [->|]; [done|]. rewrite lookup_insert_ne by done. apply Hk.
  - rewrite lookup_insert. eauto.
Qed.
(** Counting down a use of a stored value. *)
Lemma decr_ok s g : einv s -> used g -> is_Some (evaled s !! g) -> exists s', e_decr md g s = (Ok tt, s') /\ einv s' /\ forall b, b <> g -> evaled s' !! b = evaled s !! b.
Proof using Ec Hi.
  intros [Hp Hin Hk] Hu Hs. destruct (pe_dom _ _ Hp g Hs) as [n En]. destruct (pending_decr c s md g n Hp (used_deps g Hu) En) as (s' & E & P & K).
  exists s'. split; [done|]. split; [|done]. split; [done| |].
  - intros g' w Eg. destruct (decide (g' = g)) as [->|Hne]; [by right|]. rewrite K by done. by eapply Hin.
  - intros g'. destruct (decide (g' = g)) as [->|Hne]; [intros _; by apply Hk|]. rewrite K by done. apply Hk.
Qed.
Lemma decr_sub g s s' x : e_decr md g s = (Ok tt, s') -> is_Some (evaled s' !! x) -> is_Some (evaled s !! x).
Proof.
  unfold e_decr. destruct (ndep s !! g); [|done]. destruct (usize_sub md n 1) as [n'|e|p|]; try done. destruct (n' =? 0); intros [= <-]; cbn [evaled]; [|done].
  intros [b [_ H]%lookup_delete_Some]. eauto.
Qed.
Lemma tri_decr g : used g -> crowded c -> tri einv (e_decr md g) (fun _ => einv).
Proof using Ec Hi.
  intros Hu Hc s Hs. destruct (ndep s !! g) as [n|] eqn:En; [|unfold e_decr; rewrite En; by apply here].
  destruct (pending_decr c s md g n (ei_p _ Hs) (used_deps g Hu) En) as (s' & E & P & K). rewrite E. split; [done| |].
  - intros g' w Eg. destruct (decide (g' = g)) as [->|Hne]; [by right|]. rewrite K by done. by eapply (ei_in _ Hs).
  - intros g' Hg'. apply (ei_g _ Hs). by eapply decr_sub.
Qed.
(** The gate evaluator on gates that are there or that are operands. *)
Definition wanted (g : N) : Prop := is_Some (gate_map c !! g) \/ used g.
Definition there (g : N) (s : estate) : Prop := is_Some (evaled s !! g) \/ exists w, gate_map c !! g = Some (GInput w).
Definition good_eval (eg : N -> ST estate unit) : Prop := forall g, wanted g -> tri einv (eg g) (fun _ s => einv s /\ there g s).
Lemma there_gate g s : einv s -> there g s -> is_Some (gate_map c !! g).
Proof. intros Hs [H|[w ->]]; [by apply (ei_g _ Hs)|eauto]. Qed.
Section step.
Context (eg : N -> ST estate unit) (Heg : good_eval eg).
Lemma need_keep g s : einv s -> wanted g ->
  match e_need eg g s with (Ok _, s') => einv s' /\ there g s' /\ (is_Some (evaled s !! g) -> s' = s) | (r, _) => eval_fault h l r end.
Proof using Heg.
  intros Hs Hg. unfold e_need. destruct (evaled s !! g) as [b|] eqn:E; [split; [done|]; split; [left; by rewrite E|done]|].
  specialize (Heg g Hg s Hs). destruct (eg g s) as [[[]|e|p|] s']; try done. destruct Heg as [H1 H2]. split; [done|]. split; [done|]. by intros [? ?].
Qed.
Lemma get_fault g s : dropped g c -> match e_get g s with (Ok b, s') => s' = s /\ evaled s !! g = Some b | (r, _) => eval_fault h l r end.
Proof using Ec. intros Hd. unfold e_get. destruct (evaled s !! g); [done|]. by apply here. Qed.
Lemma tri_need_get g : used g -> tri einv (e_need eg g ;; e_get g) (fun _ s => einv s /\ is_Some (evaled s !! g)).
Proof using Ec Heg.
  intros Hu s Hs. unfold st_bind. pose proof (need_keep g s Hs (or_intror Hu)) as H. destruct (e_need eg g s) as [[[]|e|p|] s']; try done. destruct H as (H1 & H2 & _).
  unfold e_get. destruct (evaled s' !! g) as [b|] eqn:E; [split; [done|by rewrite E]|]. apply here. split; [done|]. left. destruct H2 as [H2|H2]; [|done]. rewrite E in H2. by destruct H2.
Qed.
Lemma tri_not g a (f : bool -> bool) : gate_map c !! g = Some (GNot a) ->
  tri einv (e_need eg a ;; x <- e_get a ;; e_decr md a ;; e_insert c g (f x)) (fun _ s => einv s /\ there g s).
Proof using Ec Hi Heg.
  intros Eg s Hs. assert (used a) as Hu by (exists g, (GNot a); split; [done|by left]). pose proof (tri_need_get a Hu s Hs) as H. unfold st_bind in *.
  destruct (e_need eg a s) as [[[]|e|p|] s1]; try done. destruct (e_get a s1) as [[x|e|p|] s2]; try done. destruct H as [H1 H2].
  destruct (decr_ok s2 a H1 Hu H2) as (s3 & -> & H3 & _). pose proof (tri_insert g (f x) (ex_intro _ _ Eg) s3 H3) as H4. unfold e_insert in *. destruct H4. split; [done|by left].
Qed.
Lemma tri_binary g gt a b (f : bool -> bool -> bool) : gate_map c !! g = Some gt -> (gt = GXor a b \/ gt = GAnd a b \/ gt = GOr a b) ->
  tri einv (e_binary md c eg f g a b) (fun _ s => einv s /\ there g s).
Proof using Ec Hi Heg.
  intros Eg Hgt s Hs. assert (operands gt = [a; b]) as Ho by (by destruct Hgt as [->|[->| ->]]).
  assert (used a) as Ha by (exists g, gt; split; [done|]; rewrite Ho; by left). assert (used b) as Hb by (exists g, gt; split; [done|]; rewrite Ho; right; by left).
  unfold e_binary. unfold st_bind at 1. pose proof (need_keep a s Hs (or_intror Ha)) as H. destruct (e_need eg a s) as [[[]|e|p|] s1]; try done. destruct H as (H1 & T1 & _).
  unfold st_bind at 1. pose proof (need_keep b s1 H1 (or_intror Hb)) as H. destruct (e_need eg b s1) as [[[]|e|p|] s2]; try done. destruct H as (H2 & T2 & K2).
  unfold st_bind at 1. unfold e_get at 1. destruct (evaled s2 !! a) as [x|] eqn:Ea.
  2: { apply here. split; [done|]. destruct T1 as [T1|T1]; [|by left]. right. split; [by apply (ei_g _ H1)|]. exists g, b. split; [|by destruct Hgt as [->|[->| ->]]; rewrite Eg; auto].
       intros ->. rewrite (K2 T1) in Ea. rewrite Ea in T1. by destruct T1. }
  unfold st_bind at 1. unfold e_get at 1. destruct (evaled s2 !! b) as [y|] eqn:Eb.
  2: { apply here. split; [done|]. left. destruct T2 as [T2|T2]; [|done]. rewrite Eb in T2. by destruct T2. }
  unfold st_bind at 1. destruct (decr_ok s2 a H2 Ha) as (s3 & -> & H3 & K3); [by rewrite Ea|].
  assert (match (e_decr md b ;; e_insert c g (f x y)) s3 with (Ok _, s') => einv s' /\ is_Some (evaled s' !! g) | (r, _) => eval_fault h l r end) as F.
  { destruct (decide (b = a)) as [->|Hne].
    - apply (tri_bind einv _ _ (fun _ => einv) (fun _ s => einv s /\ is_Some (evaled s !! g))); [apply tri_decr; [done|]|intros _; by apply tri_insert|done].
      exists g. left. exists a. destruct Hgt as [->|[->| ->]]; auto.
    - unfold st_bind. destruct (decr_ok s3 b H3 Hb) as (s4 & -> & H4 & _); [rewrite K3 by done; by rewrite Eb|]. by apply tri_insert. }
  destruct ((e_decr md b ;; e_insert c g (f x y)) s3) as [[[]|e|p|] s4]; try done. destruct F. split; [done|by left].
Qed.
Lemma tri_mapM {A B} (f : A -> ST estate B) xs : (forall x, x ∈ xs -> tri einv (f x) (fun _ => einv)) ->
  tri einv (st_mapM f xs) (fun bs s => einv s /\ length bs = length xs).
Proof.
  induction xs as [|x xs IH]; intros H; cbn [st_mapM]; [by apply tri_ret|].
  eapply tri_bind; [apply H; by left|]. intros b. eapply tri_bind; [apply IH; intros; apply H; by right|].
  intros bs. apply tri_ret. intros s [H1 H2]. split; [done|]. simpl. by f_equal.
Qed.
Lemma tri_iterM {A} (f : A -> ST estate unit) xs : (forall x, x ∈ xs -> tri einv (f x) (fun _ => einv)) -> tri einv (st_iterM f xs) (fun _ => einv).
Proof.
  induction xs as [|x xs IH]; intros H; cbn [st_iterM]; [by apply tri_ret|].
  eapply tri_bind; [apply H; by left|]. intros []. apply IH. intros; apply H; by right.
Qed.
Lemma tri_insert_outputs first bits i k : (N.to_nat i + k <= length bits)%nat -> (forall j, i <= j -> j < i + N.of_nat k -> is_Some (gate_map c !! (first + j))) ->
  forall s, einv s -> exists s', e_insert_outputs c first bits i k s = (Ok tt, s') /\ einv s' /\
    (forall x, is_Some (evaled s !! x) -> is_Some (evaled s' !! x)) /\ forall j, i <= j -> j < i + N.of_nat k -> is_Some (evaled s' !! (first + j)).
Proof using Ec.
  revert i. induction k as [|k IH]; intros i Hb Hg s Hs; cbn [e_insert_outputs]; [exists s; split; [done|]; split; [done|]; split; [done|lia]|].
  unfold st_bind, st_nth. destruct (lookup_lt_is_Some_2 bits (N.to_nat i)) as [b Eb]; [lia|]. rewrite Eb.
  pose proof (tri_insert (first + i) b (Hg i ltac:(lia) ltac:(lia)) s Hs) as H. destruct (e_insert c (first + i) b s) as [r s1] eqn:E1.
  assert (r = Ok tt /\ forall x, is_Some (evaled s !! x) -> is_Some (evaled s1 !! x)) as [-> K1].
  { unfold e_insert in E1. injection E1 as <- <-. split; [done|]. intros x Hx. cbn [evaled]. destruct (decide (x = first + i)) as [->|]; [rewrite lookup_insert; eauto|by rewrite lookup_insert_ne by done]. }
  destruct H as [H1 H2]. destruct (IH (i + 1)) with (s := s1) as (s' & -> & H3 & K & H4); [lia| |done|].
  { intros j ? ?. apply Hg; lia. }
  exists s'. split; [done|]. split; [done|]. split; [auto|]. intros j Hj1 Hj2. destruct (decide (j = i)) as [->|]; [by apply K|]. apply H4; lia.
Qed.
Lemma tri_args ids : (forall id, id ∈ ids -> used id) ->
  tri einv (st_mapM (fun id => e_need eg id ;; e_get id) ids) (fun bs s => einv s /\ length bs = length ids /\ forall id, ids = [id] -> is_Some (evaled s !! id)).
Proof using Ec Heg.
  intros Hu. destruct ids as [|id [|id' r]].
  - apply tri_ret. intros s Hs. done.
  - cbn [st_mapM]. eapply tri_bind; [apply tri_need_get, Hu; by left|]. intros b s [H1 H2]. split; [done|]. split; [done|]. by intros ? [= <-].
  - eapply tri_weaken; [apply tri_mapM|done|intros bs s [? ?]; by split].
    intros x Hx. eapply tri_weaken; [apply tri_need_get; auto|done|by intros ? ? []].
Qed.
End step.
Lemma tri_output eg inputs w : good_eval eg -> N.of_nat (length inputs) = input_len c -> w < output_len c -> tri einv (e_single_output c eg inputs w) (fun _ => einv).
Proof using Ec Hi.
  intros Heg El Hw s Hs. unfold e_single_output. rewrite El, N.eqb_refl. cbn [negb]. destruct (N.leb_spec (output_len c) w); [lia|].
  destruct (wf_outputs c W w Hw) as (o & -> & Ho). destruct (evaled s !! o); [done|]. unfold st_bind. specialize (Heg o (or_introl Ho) s Hs).
  destruct (eg o s) as [[[]|e|p|] s']; try done. destruct Heg as [H1 H2]. unfold e_get. destruct (evaled s' !! o) as [b|] eqn:E; [done|].
  apply here. destruct H2 as [H2|[v Ev]]; [rewrite E in H2; by destruct H2|]. destruct (ei_in _ H1 o v Ev) as [H3|H3]; [rewrite E in H3; by destruct H3|].
  split; [done|]. left. eauto.
Qed.
Lemma load_ok inputs : N.of_nat (length inputs) = input_len c ->
  exists s, e_load c (length inputs + size (input_map c) + 1) 0 inputs (EState ∅ ∅) = (Ok tt, s) /\ einv s.
Proof using Ec Hi.
  intros El. assert (pending c (EState ∅ ∅)) as P0 by (split; cbn; [intros ? ? _; by rewrite lookup_empty|intros ? [? E]; by rewrite lookup_empty in E]).
  destruct (e_load_ok h l c Hi Ec (length inputs + size (input_map c) + 1) 0 inputs (EState ∅ ∅)) as (s & E & H1 & H2); [lia|lia|].
  exists s. split; [done|]. destruct (safe_load false c (length inputs + size (input_map c) + 1) 0 inputs W ltac:(lia) ltac:(lia) _ P0) as (_ & P & _). rewrite E in P.
  split; [done| |].
  - intros g w Eg. left. by eapply H1; [|lia].
  - intros g Hg. destruct (gate_map c !! g) as [gt|] eqn:Eg; [eauto|]. destruct (H2 g) as [X _]; [by rewrite Eg|]. rewrite X in Hg. by destruct Hg as [? Hg].
Qed.
Lemma output_with_fault (eg : nat -> N -> ST estate unit) inputs : good_eval (eg l) -> N.of_nat (length inputs) = input_len c ->
  eval_fault h l (eval_output_with h eg l inputs) /\ forall outs, eval_output_with h eg l inputs = Ok outs -> N.of_nat (length outs) = output_len c.
Proof using Ec Hi.
  intros Heg El. unfold eval_output_with. rewrite Ec, El, N.eqb_refl. cbn [negb]. destruct (load_ok inputs El) as (s & E & Hs). unfold st_bind. rewrite E.
  assert (tri einv (st_mapM (e_single_output c (eg l) inputs) (nrange (output_len c))) (fun bs s => einv s /\ length bs = length (nrange (output_len c)))) as T.
  { apply tri_mapM. intros w Hw. apply elem_of_nrange in Hw. by apply tri_output. }
  specialize (T s Hs). destruct (st_mapM (e_single_output c (eg l) inputs) (nrange (output_len c)) s) as [[bs|e|p|] s']; cbn [fst]; (split; [done|]); intros outs [= <-].
  destruct T as [_ ->]. unfold nrange. rewrite map_length, seq_length. lia.
Qed.
End circuit.

Theorem eval_gate_faults fuel l c : h_circ h !! l = Some c -> good_eval l c (eval_gate md h fuel l).
Proof using Hi.
  revert l c. induction fuel as [|fuel IH]; intros l c Ec g Hg s Hs; cbn [eval_gate]; [done|]. rewrite Ec. specialize (IH) as IH0. specialize (IH l c Ec).
  destruct (gate_map c !! g) as [gt|] eqn:Eg.
  2: { apply (here l c Ec). split; [done|]. destruct Hg as [Hg|Hg]; [rewrite Eg in Hg; by destruct Hg|done]. }
  destruct gt as [w|b|a|a b|a b|a b|il ol ids oi mid].
  - split; [done|]. right. eauto.
  - destruct (tri_insert l c Ec g b (ex_intro _ _ Eg) s Hs). split; [done|by left].
  - by apply (tri_not l c Ec (eval_gate md h fuel l) IH g a negb Eg s Hs).
  - by apply (tri_binary l c Ec (eval_gate md h fuel l) IH g _ a b xorb Eg (or_introl eq_refl)).
  - apply (tri_binary l c Ec (eval_gate md h fuel l) IH g _ a b andb Eg); [by right; left|done].
  - apply (tri_binary l c Ec (eval_gate md h fuel l) IH g _ a b orb Eg); [by right; right|done].
  - assert (forall id, id ∈ ids -> used c id) as Hu by (intros id H; by exists g, (GModule il ol ids oi mid)).
    destruct (hi_calls h Hi l c g il ol ids oi mid Ec Eg) as (x & l' & m & Ex & Em & El' & Hil & Hol).
    destruct (wf_blocks c (hi_circ h Hi l c Ec) g il ol ids oi mid Eg) as (Ho1 & Ho2 & Hblk).
    assert (called_from h l l') as Hcall by (exists c; split; [done|]; exists g, il, ol, ids, oi, mid, x; auto).
    unfold st_bind at 1. pose proof (tri_args l c Ec (eval_gate md h fuel l) IH ids Hu s Hs) as H.
    destruct (st_mapM (fun id => e_need (eval_gate md h fuel l) id ;; e_get id) ids s) as [[bits|e|p|] s1]; try done. destruct H as (H1 & Hlen & Hone).
    rewrite Ex, Em. unfold st_bind at 1, st_lift at 1.
    destruct (decide (N.of_nat (length bits) = input_len m)) as [Hfit|Hfit].
    2: { unfold eval_output_with. rewrite El'. destruct (N.eqb_spec (N.of_nat (length bits)) (input_len m)); [done|]. cbn [negb]. apply (here l c Ec).
         exists g, il, ol, ids, oi, mid, x, l', m. rewrite <- Hlen. auto 10. }
    destruct (output_with_fault l' m El' (eval_gate md h fuel) bits (IH0 l' m El') Hfit) as [Hf Ho].
    destruct (eval_output_with h (eval_gate md h fuel) l' bits) as [outs|e|p|]; [|by eapply fault_call|by eapply fault_call|done].
    specialize (Ho outs eq_refl).
    assert (match st_iterM (e_decr md) ids s1 with (Ok _, s') => einv c s' | (r, _) => eval_fault h l r end) as Hd.
    { destruct ids as [|id [|id' r]]; [done| |].
      - cbn [st_iterM]. unfold st_bind. destruct (decr_ok l c Ec s1 id H1 (Hu id ltac:(by left)) (Hone id eq_refl)) as (s2 & -> & H2 & _). done.
      - apply (tri_iterM l c); [|done]. intros y Hy. apply tri_decr; [done|auto|]. exists g. right. exists il, ol, (id :: id' :: r), oi, mid. split; [done|simpl; lia]. }
    unfold st_bind at 1. destruct (st_iterM (e_decr md) ids s1) as [[[]|e|p|] s2]; try done.
    unfold st_bind, st_lift, usize_sub. destruct (N.leb_spec oi g); [|lia].
    destruct (tri_insert_outputs l c Ec (g - oi) outs 0 (N.to_nat ol)) with (s := s2) as (s' & -> & H3 & _ & H4); [lia| |done|].
    { intros j _ Hj. rewrite Hblk by lia. eauto. }
    split; [done|]. left. specialize (H4 oi ltac:(lia) ltac:(lia)). by replace (g - oi + oi) with g in H4 by lia.
Qed.
End faults.

(** * C88 *)
(** The failures of an evaluation of the right number of bits, on a circuit of any history, have a cause in the circuit or in one it calls. *)
Theorem C88_cause md md' ops fuel l inputs : inputs_of (run md ops) l = Ok (N.of_nat (length inputs)) ->
  eval_fault (run md ops) l (eval_output md' (run md ops) fuel l inputs).
Proof.
  intros El. unfold inputs_of, on in El. destruct (h_circ (run md ops) !! l) as [c|] eqn:Ec; [|done]. injection El as El.
  by apply (output_with_fault (run md ops) (run_hinv md ops) l c Ec); [apply eval_gate_faults; [apply run_hinv|]|].
Qed.
(** With another number of bits the evaluation panics at its first statement. *)
Theorem C88_count md md' ops fuel l inputs n : inputs_of (run md ops) l = Ok n -> n <> N.of_nat (length inputs) ->
  eval_output md' (run md ops) fuel l inputs = Panic PAssert.
Proof.
  intros El Hn. unfold inputs_of, on in El. destruct (h_circ (run md ops) !! l) as [c|] eqn:Ec; [|done]. injection El as El.
  unfold eval_output, eval_output_with. rewrite Ec, El. destruct (N.eqb_spec (N.of_nat (length inputs)) n); [congruence|done].
Qed.
(** So of the errors only two are seen, and no arithmetic, index or borrow panic, whatever the number of bits. *)
Theorem C88_only md md' ops fuel l inputs : (exists n, inputs_of (run md ops) l = Ok n) ->
  match eval_output md' (run md ops) fuel l inputs with
  | Ok _ | NoFuel | Err (EUnknownGate _) | Err (EUnknownEvaledBit _) | Panic PKey | Panic PAssert => True
  | _ => False
  end.
Proof.
  intros [n El]. destruct (decide (n = N.of_nat (length inputs))) as [->|Hn].
  - pose proof (C88_cause md md' ops fuel l inputs El) as H. destruct (eval_output md' (run md ops) fuel l inputs) as [?|[]|[]|]; done.
  - by rewrite (C88_count md md' ops fuel l inputs n El Hn).
Qed.
(** Every kind of failure occurs, in the circuit itself and in one it calls; most of these histories are not disciplined. *)
Definition loose : list op := [OpNewStorage; OpNewCircuit 0; OpInput 0; OpAnd 0 0 7; OpOutput 0 1].
Definition loose_below : list op :=
  [OpNewStorage; OpNewCircuit 0; OpSub 0; OpInput 1; OpAnd 1 0 7; OpOutput 1 1; OpInput 0; OpModule 0 0 [0]; OpOutput 0 1].
(** a = ¬x, p = ¬a, q = ¬p, r = ¬a, f = ¬r, d = a AND f; outputs q, p, d. Evaluating p again counts a down once too often, and then the evaluation of f,
    the second operand of d, evicts a, the first one. *)
Definition used_up : list op :=
  [OpNewStorage; OpNewCircuit 0; OpInput 0; OpNot 0 0; OpNot 0 1; OpNot 0 2; OpNot 0 1; OpNot 0 4; OpAnd 0 1 5; OpOutput 0 3; OpOutput 0 2; OpOutput 0 6].
(** The module gets another input after the call was made. *)
Definition outgrown : list op :=
  [OpNewStorage; OpNewCircuit 0; OpSub 0; OpInput 1; OpNot 1 0; OpOutput 1 1; OpInput 0; OpModule 0 0 [0]; OpOutput 0 1; OpInput 1].
(** Evaluation does not end on a gate that uses itself. *)
Definition self_use : list op := [OpNewStorage; OpNewCircuit 0; OpNot 0 0; OpOutput 0 0].
Definition faulty : list (list op) := [loose; loose_below; consumed_early; used_up; repeated_operand; evicted_argument; outgrown].
Example C88_example md md' x :
  eval_output md' (run md loose) 9 0 [x] = Err (EUnknownGate 7) /\ eval_output md' (run md loose_below) 9 0 [x] = Err (EUnknownGate 7) /\
  eval_output md' (run md consumed_early) 9 0 [x] = Err (EUnknownEvaledBit 0) /\ eval_output md' (run md used_up) 9 0 [x] = Err (EUnknownEvaledBit 1) /\
  eval_output md' (run md repeated_operand) 9 0 [x] = Panic PKey /\ eval_output md' (run md evicted_argument) 9 0 [x] = Panic PKey /\
  eval_output md' (run md outgrown) 9 0 [x] = Panic PAssert /\ eval_output md' (run md self_use) 9 0 [] = NoFuel /\
  (forall ops, ops ∈ faulty -> inputs_of (run md ops) 0 = Ok 1) /\
  inputs_of (run md self_use) 0 = Ok 0.
Proof.
  do 8 (split; [destruct md, md', x; vm_compute; reflexivity|]). split; [|destruct md; vm_compute; reflexivity].
  intros ops H. unfold faulty in H. rewrite !elem_of_cons in H. destruct H as [->|[->|[->|[->|[->|[->|[->|H] ] ] ] ] ] ]; [..|by apply elem_of_nil in H]; destruct md; vm_compute; reflexivity.
Qed.
(** The causes that the theorem names for two of them: the operand 7 is no gate of the called circuit; the call in the outer circuit passes one bit to a
    module with two inputs. *)
Example C88_causes md : somewhere (run md loose_below) 0 (dangling 7) /\ somewhere (run md outgrown) 0 (misfit (run md outgrown)) /\
  somewhere (run md used_up) 0 (dropped 1) /\ ~ somewhere (run md loose) 0 (misfit (run md loose)).
Proof.
  destruct (C88_example md md true) as (_ & E1 & _ & E2 & _ & _ & E3 & _ & HI & _).
  pose proof (C88_cause md md _ 9 0 [true] (HI loose_below (elem_of_list_lookup_2 faulty 1 _ eq_refl))) as F1. rewrite E1 in F1.
  pose proof (C88_cause md md _ 9 0 [true] (HI used_up (elem_of_list_lookup_2 faulty 3 _ eq_refl))) as F2. rewrite E2 in F2.
  pose proof (C88_cause md md _ 9 0 [true] (HI outgrown (elem_of_list_lookup_2 faulty 6 _ eq_refl))) as F3. rewrite E3 in F3.
  split; [exact F1|]. split; [exact F3|]. split; [exact F2|].
    assert (forall c g gt, h_circ (run md loose) !! 0%nat = Some c -> gate_map c !! g = Some gt -> match gt with GModule _ _ _ _ _ => False | _ => True end) as Hg.
    { intros c g gt Ec Eg. assert (get_gate (run md loose) 0 g = Ok gt) as H by (unfold get_gate, on, c_get_gate; by rewrite Ec, Eg).
      assert (g < 2) as Hlt by (eapply (gate_bound (run md loose) 0 2); [apply run_hinv|destruct md; vm_compute; reflexivity|done]).
      assert (g = 0 \/ g = 1) as [->| ->] by lia; destruct md; vm_compute in H; injection H as <-; done. }
    intros (l' & c & R & E & (d & il & ol & ids & oi & mid & x & l2 & m & Ed & _)).
    destruct R as [y|y y' z (c2 & E2' & (g & il' & ol' & ids' & oi' & mid' & s & Eg & _)) _]; [by specialize (Hg _ _ _ E Ed)|by specialize (Hg _ _ _ E2' Eg)].
Qed.
