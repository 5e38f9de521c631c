(** The course of an evaluation: C94; what an output depends on: C95. *)
From Verif Require Import DiscDec EvalCost.
From Verif Require Export Prop_Patch Prop_Work.
Open Scope N_scope.
Open Scope list_scope.

(** * Specification *)
(** Gates that differ at most in the function: constants, or gates of two operands with the same operands in the same order. *)
Definition alike_gates (gt gt' : gate) : Prop :=
  gt = gt' \/ (exists x y, gt = GConst x /\ gt' = GConst y) \/ exists a b, two gt = Some (a, b) /\ two gt' = Some (a, b).
(** Circuits with the same ids, wires, storage and consumers whose gates differ at most in the function; the counters do not matter. *)
Record alike_circuits (c c' : circuit) : Prop := {
  al_in : input_map c = input_map c';
  al_out : output_map c = output_map c';
  al_st : c_storage c = c_storage c';
  al_dep : dep_map c = dep_map c';
  al_il : input_len c = input_len c';
  al_ol : output_len c = output_len c';
  al_some : forall g, is_Some (gate_map c !! g) <-> is_Some (gate_map c' !! g);
  al_gates : forall g gt gt', gate_map c !! g = Some gt -> gate_map c' !! g = Some gt' -> alike_gates gt gt';
}.
Definition alike_heaps (h h' : heap) : Prop := Forall2 alike_circuits (h_circ h) (h_circ h') /\ h_stor h = h_stor h'.
(** The same end of an evaluation: the same failure, or as many bits. *)
Definition same_end (r r' : res (list bool)) : Prop :=
  match r, r' with
  | Ok outs, Ok outs' => length outs = length outs'
  | Err e, Err e' => e = e'
  | Panic p, Panic p' => p = p'
  | NoFuel, NoFuel => True
  | _, _ => False
  end.
(** Input wire [w] can reach gate [g] of the circuit at [l]: through operands, and through a call if it reaches an argument that reaches the output
    within the module. *)
Inductive feeds (h : heap) : nat -> N -> N -> Prop :=
| feeds_input l g w : get_gate h l g = Ok (GInput w) -> feeds h l g w
| feeds_operand l g gt a w : get_gate h l g = Ok gt -> is_module gt = false -> a ∈ operands gt -> feeds h l a w -> feeds h l g w
| feeds_call l g il ol ids oi mid l' o i a w : get_gate h l g = Ok (GModule il ol ids oi mid) -> get_module h l mid = Ok l' -> output_gate h l' oi = Ok o ->
    feeds h l' o i -> ids !! N.to_nat i = Some a -> feeds h l a w -> feeds h l g w.

(** * Simulation *)
Definition ssim (s s' : estate * N) : Prop :=
  (forall g, is_Some (evaled (fst s) !! g) <-> is_Some (evaled (fst s') !! g)) /\ ndep (fst s) = ndep (fst s') /\ snd s = snd s'.
Definition rsim {A} (RA : A -> A -> Prop) (r r' : res A) : Prop :=
  match r, r' with
  | Ok a, Ok a' => RA a a'
  | Err e, Err e' => e = e'
  | Panic p, Panic p' => p = p'
  | NoFuel, NoFuel => True
  | _, _ => False
  end.
Definition msim {A} (RA : A -> A -> Prop) (m m' : ST (estate * N) A) : Prop :=
  forall s s', ssim s s' -> rsim RA (fst (m s)) (fst (m' s')) /\ ssim (snd (m s)) (snd (m' s')).
Definition any {A} (_ _ : A) : Prop := True.
Definition long {A} (xs ys : list A) : Prop := length xs = length ys.
Lemma sim_bind {A B} (RA : A -> A -> Prop) (RB : B -> B -> Prop) m m' (k k' : A -> ST (estate * N) B) :
  msim RA m m' -> (forall a a', RA a a' -> msim RB (k a) (k' a')) -> msim RB (st_bind m k) (st_bind m' k').
Proof.
  intros H1 H2 s s' Hs. unfold st_bind. destruct (H1 s s' Hs) as [E1 E2]. destruct (m s) as [r t], (m' s') as [r' t']. cbn in E1, E2.
  destruct r, r'; cbn in *; try done. by apply H2.
Qed.
Lemma sim_ret {A} (RA : A -> A -> Prop) a a' : RA a a' -> msim RA (st_ret a) (st_ret a').
Proof. intros H s s' Hs. done. Qed.
Lemma sim_err {A} (RA : A -> A -> Prop) e : msim RA (st_err e) (st_err e).
Proof. intros s s' Hs. done. Qed.
Lemma sim_panic {A} (RA : A -> A -> Prop) p : msim RA (st_panic p) (st_panic p).
Proof. intros s s' Hs. done. Qed.
Lemma sim_lift {A} (RA : A -> A -> Prop) r : (forall a, RA a a) -> msim RA (st_lift r) (st_lift r).
Proof. intros H s s' Hs. unfold st_lift. cbn. split; [|done]. destruct r; cbn; auto. Qed.
Lemma sim_mapM {X A} (RA : A -> A -> Prop) (f f' : X -> ST (estate * N) A) xs : (forall x, msim RA (f x) (f' x)) -> msim long (st_mapM f xs) (st_mapM f' xs).
Proof.
  intros H. induction xs as [|x xs IH]; cbn [st_mapM]; [by apply sim_ret|]. eapply sim_bind; [apply H|]. intros a a' _.
  eapply sim_bind; [exact IH|]. intros bs bs' Hb. apply sim_ret. unfold long in *. cbn. by rewrite Hb.
Qed.
Lemma sim_iterM {X} (f f' : X -> ST (estate * N) unit) xs : (forall x, msim any (f x) (f' x)) -> msim any (st_iterM f xs) (st_iterM f' xs).
Proof.
  intros H. induction xs as [|x xs IH]; cbn [st_iterM]; [by apply sim_ret|]. eapply sim_bind; [apply H|]. by intros _ _ _.
Qed.
Lemma up_bind {A B} (m : ST estate A) (k : A -> ST estate B) s : up (st_bind m k) s = st_bind (up m) (fun a => up (k a)) s.
Proof. unfold up, st_bind. destruct s as [s n]. cbn. destruct (m s) as [r s']. destruct r; cbn; done. Qed.
Lemma sim_ext {A} (RA : A -> A -> Prop) m m' t t' : (forall s, m s = t s) -> (forall s, m' s = t' s) -> msim RA t t' -> msim RA m m'.
Proof. intros H1 H2 H s s' Hs. rewrite H1, H2. by apply H. Qed.
Lemma up_iterM {X} (f : X -> ST estate unit) xs s : up (st_iterM f xs) s = st_iterM (fun x => up (f x)) xs s.
Proof.
  revert s. induction xs as [|x xs IH]; intros s; cbn [st_iterM]; [by destruct s|]. rewrite up_bind. unfold st_bind.
  destruct (up (f x) s) as [r t]. destruct r; [apply IH|done..].
Qed.

Section course.
Context (md : mode) (h h' : heap) (AH : alike_heaps h h').
Lemma al_l l : match h_circ h !! l, h_circ h' !! l with Some c, Some c' => alike_circuits c c' | None, None => True | _, _ => False end.
Proof using AH.
  destruct AH as [H _]. destruct (h_circ h !! l) as [c|] eqn:E.
  - destruct (Forall2_lookup_l _ _ _ _ _ H E) as (c' & -> & K). done.
  - destruct (h_circ h' !! l) as [c'|] eqn:E'; [|done]. destruct (Forall2_lookup_r _ _ _ _ _ H E') as (c & ? & _). congruence.
Qed.
Section one.
Context (c c' : circuit) (C : alike_circuits c c').
Lemma al_deps g : num_deps c g = num_deps c' g.
Proof using C. unfold num_deps, c_get_depended_gates. by rewrite (al_dep c c' C). Qed.
Lemma sim_insert g b b' : msim any (up (e_insert c g b)) (up (e_insert c' g b')).
Proof using C.
  intros [s n] [s' n'] (H1 & H2 & H3). unfold up, e_insert. cbn in *. split; [done|]. rewrite al_deps. split; [|split]; cbn; [|by rewrite H2|done].
  intros x. destruct (decide (x = g)) as [->|]; [rewrite !lookup_insert; split; eauto|rewrite !lookup_insert_ne by done; apply H1].
Qed.
Lemma sim_get g : msim any (up (e_get g)) (up (e_get g)).
Proof.
  intros [s n] [s' n'] Hs. pose proof (proj1 Hs g) as H. unfold up, e_get. cbn in *.
  destruct (evaled s !! g), (evaled s' !! g); cbn; try done; destruct H as [H1 H2]; [by destruct H1; eauto|by destruct H2; eauto].
Qed.
Lemma sim_decr g : msim any (up (e_decr md g)) (up (e_decr md g)).
Proof.
  intros [s n] [s' n'] Hs. pose proof Hs as (H1 & H2 & H3). unfold up, e_decr. cbn in *. rewrite <- H2. destruct (ndep s !! g) as [k|]; [|done].
  destruct (usize_sub md k 1) as [k'|e|p|]; cbn; try done. destruct (k' =? 0); cbn; (split; [done|]); (split; [|split]); cbn; try done; try congruence.
  intros x. destruct (decide (x = g)) as [->|]; [rewrite !lookup_delete; done|rewrite !lookup_delete_ne by done; apply H1].
Qed.
Lemma sim_need eg eg' g : msim any (eg g) (eg' g) -> msim any (count_need eg g) (count_need eg' g).
Proof.
  intros H s s' Hs. pose proof (proj1 Hs g) as Hg. unfold count_need.
  destruct (evaled (fst s) !! g), (evaled (fst s') !! g); try done; [destruct Hg as [H1 _]; by destruct H1; eauto|destruct Hg as [_ H1]; by destruct H1; eauto|by apply H].
Qed.
Lemma sim_binary eg eg' f f' g a b : (forall g, msim any (eg g) (eg' g)) -> msim any (count_binary md c eg f g a b) (count_binary md c' eg' f' g a b).
Proof using C.
  intros H. unfold count_binary. eapply sim_bind; [by apply sim_need|]. intros _ _ _. eapply sim_bind; [by apply sim_need|]. intros _ _ _.
  eapply sim_bind; [apply sim_get|]. intros x x' _. eapply sim_bind; [apply sim_get|]. intros y y' _.
  eapply sim_bind; [apply sim_decr|]. intros _ _ _. eapply sim_bind; [apply sim_decr|]. intros _ _ _. apply sim_insert.
Qed.
Lemma sim_insert_outputs first outs outs' k : length outs = length outs' -> forall i,
  msim any (up (e_insert_outputs c first outs i k)) (up (e_insert_outputs c' first outs' i k)).
Proof using C.
  intros Hl. induction k as [|k IH]; intros i; cbn [e_insert_outputs]; [by intros [s n] [s' n']|].
  eapply sim_ext; [intros; apply up_bind|intros; apply up_bind|]. eapply (sim_bind any).
  - intros [s n] [s' n'] Hs. unfold up, st_nth. destruct (outs !! N.to_nat i) as [b|] eqn:E, (outs' !! N.to_nat i) as [b'|] eqn:E'; try done.
    + apply lookup_lt_Some in E. apply lookup_ge_None in E'. lia.
    + apply lookup_lt_Some in E'. apply lookup_ge_None in E. lia.
  - intros b b' _. eapply sim_ext; [intros; apply up_bind|intros; apply up_bind|]. eapply sim_bind; [apply sim_insert|]. intros _ _ _. apply IH.
Qed.
Lemma sim_load k : forall w inputs inputs', length inputs = length inputs' -> msim any (up (e_load c k w inputs)) (up (e_load c' k w inputs')).
Proof using C.
  induction k as [|k IH]; intros w inputs inputs' Hl; destruct inputs as [|b inputs], inputs' as [|b' inputs']; try done; cbn [e_load];
    try (by intros [s n] [s' n']).
  rewrite <- (al_in c c' C). destruct (input_map c !! w) as [[id|]|]; [| |by intros [s n] [s' n']].
  - eapply sim_ext; [intros; apply up_bind|intros; apply up_bind|]. eapply sim_bind; [apply sim_insert|]. intros _ _ _. apply IH. by injection Hl.
  - by apply IH.
Qed.
Lemma sim_single eg eg' inputs inputs' w : length inputs = length inputs' -> (forall g, msim any (eg g) (eg' g)) ->
  msim any (count_single_output c eg inputs w) (count_single_output c' eg' inputs' w).
Proof using C.
  intros Hl H. unfold count_single_output. rewrite <- Hl, <- (al_il c c' C), <- (al_ol c c' C), <- (al_out c c' C).
  destruct (negb _); [apply sim_err|]. destruct (_ <=? _); [apply sim_err|]. destruct (output_map c !! w) as [o|]; [|apply sim_err].
  intros s s' Hs. pose proof (proj1 Hs o) as Ho.
  destruct (evaled (fst s) !! o), (evaled (fst s') !! o); try done; [destruct Ho as [H1 _]; by destruct H1; eauto|destruct Ho as [_ H1]; by destruct H1; eauto|].
  revert s s' Hs. clear Ho. eapply sim_bind; [apply H|]. intros _ _ _. apply sim_get.
Qed.
End one.
Lemma sim_output eg eg' l inputs inputs' : length inputs = length inputs' -> (forall l g, msim any (eg l g) (eg' l g)) ->
  rsim long (fst (count_output_with h eg l inputs)) (fst (count_output_with h' eg' l inputs')) /\
  snd (count_output_with h eg l inputs) = snd (count_output_with h' eg' l inputs').
Proof using AH.
  intros Hl H. unfold count_output_with. pose proof (al_l l) as C. destruct (h_circ h !! l) as [c|], (h_circ h' !! l) as [c'|]; try done.
  rewrite <- Hl, <- (al_il c c' C), <- (al_in c c' C), <- (al_ol c c' C). destruct (negb _); [done|]. cbv zeta. cbn [fst snd].
  match goal with |- rsim long (fst (?m ?s)) (fst (?m' _)) /\ _ => assert (X : msim long m m') end.
  { eapply sim_bind; [by apply sim_load|]. intros _ _ _. eapply sim_mapM. intros w. by apply sim_single. }
  destruct (X (EState ∅ ∅, 0) (EState ∅ ∅, 0)) as [E1 E2]; [done|]. split; [exact E1|]. apply E2.
Qed.
Lemma sim_gate fuel : forall l g, msim any (count_gate md h fuel l g) (count_gate md h' fuel l g).
Proof using AH.
  induction fuel as [|fuel IH]; intros l g; [by intros s s' Hs|]. cbn [count_gate].
  match goal with |- msim any (count_tick ?t) (count_tick ?t') => assert (X : msim any t t') end.
  2:{ intros [s n] [s' n'] (H1 & H2 & H3). cbn in *. unfold count_tick. cbn. apply X. split; [done|]. split; [done|]. cbn. by rewrite H3. }
  pose proof (al_l l) as C. destruct (h_circ h !! l) as [c|], (h_circ h' !! l) as [c'|]; try done.
  pose proof (al_some c c' C g) as Hs. pose proof (al_gates c c' C g) as Hg.
  destruct (gate_map c !! g) as [gt|], (gate_map c' !! g) as [gt'|]; [|destruct Hs as [Hs _]; by destruct Hs; eauto|destruct Hs as [_ Hs]; by destruct Hs; eauto|apply sim_err].
  destruct (Hg gt gt' eq_refl eq_refl) as [<-|[(x & y & -> & ->)|(a & b & T1 & T2)]]; clear Hg Hs.
  - destruct gt as [w|b|a|a b|a b|a b|il ol ids oi mid].
    + by apply sim_ret.
    + by apply sim_insert.
    + eapply sim_bind; [by apply sim_need|]. intros _ _ _. eapply sim_bind; [apply sim_get|]. intros x x' _. eapply sim_bind; [apply sim_decr|].
      intros _ _ _. by apply sim_insert.
    + by apply sim_binary.
    + by apply sim_binary.
    + by apply sim_binary.
    + eapply sim_bind.
      { eapply (sim_mapM any). intros id. eapply sim_bind; [by apply sim_need|]. intros _ _ _. apply sim_get. }
      intros bits bits' Hb. rewrite <- (proj2 AH), <- (al_st c c' C). destruct (h_stor h !! c_storage c) as [x|]; [|apply sim_panic].
      destruct (module_map x !! mid) as [l'|]; [|apply sim_err]. destruct (sim_output _ _ l' bits bits' Hb IH) as [E1 E2].
      eapply (sim_bind long).
      { intros [s n] [s' n'] (H1 & H2 & H3). unfold count_lift. cbn in *. split; [exact E1|]. split; [done|]. split; [done|]. cbn. by rewrite H3, E2. }
      intros outs outs' Ho. eapply sim_bind.
      { eapply sim_ext; [intros; apply up_iterM|intros; apply up_iterM|]. apply sim_iterM. intros. apply sim_decr. }
      intros _ _ _. eapply (sim_bind eq); [by apply sim_lift|]. intros first _ <-. by apply sim_insert_outputs.
  - by apply sim_insert.
  - destruct gt; cbn in T1; try done; injection T1 as -> ->; destruct gt'; cbn in T2; try done; injection T2 as -> ->; by apply sim_binary.
Qed.
End course.

(** * C94 *)
(** Any two heaps, reached by calls of the API or not, that differ at most in the functions of gates, and any two lists of as many bits: both
    evaluations enter as many gates and end in the same way. *)
Theorem C94_course md h h' fuel l inputs inputs' : alike_heaps h h' -> length inputs = length inputs' ->
  same_end (eval_output md h fuel l inputs) (eval_output md h' fuel l inputs') /\
  snd (count_output md h fuel l inputs) = snd (count_output md h' fuel l inputs').
Proof.
  intros A Hl. rewrite <- !C76_counter. destruct (sim_output h h' A _ _ l inputs inputs' Hl (sim_gate md h h' A fuel)) as [E1 E2]. split; [|exact E2].
  revert E1. unfold count_output, same_end, rsim, long. done.
Qed.
Lemma alike_refl h : alike_heaps h h.
Proof.
  split; [|done]. apply Forall2_same_length_lookup. split; [done|]. intros i c c' E E'. rewrite E in E'. injection E' as <-. split; try done.
  intros g gt gt' G G'. rewrite G in G'. injection G' as <-. by left.
Qed.
(** In particular in one heap: no error, panic or amount of work tells anything about the bits. *)
Theorem C94_bits md h fuel l inputs inputs' : length inputs = length inputs' ->
  same_end (eval_output md h fuel l inputs) (eval_output md h fuel l inputs') /\
  snd (count_output md h fuel l inputs) = snd (count_output md h fuel l inputs').
Proof. apply C94_course, alike_refl. Qed.
(** An exchange of one gate, as in C93 but in any heap: the course stays the same. *)
Theorem C94_exchange md md' h l g gt0 gt fuel l' inputs inputs' : get_gate h l g = Ok gt0 -> alike_gates gt0 gt -> length inputs = length inputs' ->
  same_end (eval_output md' h fuel l' inputs) (eval_output md' (do_patch md h (PGate l g gt)) fuel l' inputs') /\
  snd (count_output md' h fuel l' inputs) = snd (count_output md' (do_patch md h (PGate l g gt)) fuel l' inputs').
Proof.
  intros Hg Ha. apply C94_course. apply gg in Hg as (c & E & G). split; [|done]. cbn. apply Forall2_same_length_lookup. split; [by rewrite alter_length|].
  intros i d d' E1 E2. apply alter_cases in E2. destruct E2 as [(<- & c0 & E0 & ->)|[_ E0]].
  - rewrite E1 in E0. injection E0 as <-. rewrite E in E1. injection E1 as <-. split; try done; cbn.
    + intros z. destruct (decide (z = g)) as [->|]; [rewrite lookup_insert, G; split; eauto|by rewrite lookup_insert_ne by done].
    + intros z gt1 gt2. destruct (decide (z = g)) as [->|]; [rewrite lookup_insert, G; by intros [= <-] [= <-]|rewrite lookup_insert_ne by done].
      intros G1 G2. rewrite G1 in G2. injection G2 as <-. by left.
  - rewrite E1 in E0. injection E0 as <-. destruct (Forall2_lookup_l _ _ _ _ _ (proj1 (alike_refl h)) E1) as (d' & E3 & K). rewrite E1 in E3. by injection E3 as <-.
Qed.

(** * C95 *)
(** Two values of a gate are the same if the inputs that can reach it are the same; in any heap. *)
Theorem C95_values h l ρ ρ' g b b' : gv h l ρ g b -> gv h l ρ' g b' -> (forall w, feeds h l g w -> ρ w = ρ' w) -> b = b'.
Proof.
  intros H. revert ρ' b'. induction H as [l ρ g c w b E G R|l ρ g c b E G|l ρ g c a x E G _ IH|l ρ g c a b x y E G _ IH1 _ IH2
    |l ρ g c a b x y E G _ IH1 _ IH2|l ρ g c a b x y E G _ IH1 _ IH2
    |l ρ g c il ol ids oi mid s l' c' o bits b E G S M E' O F IHF _ IH] using gv_ind'; intros ρ' b2 H2 Hf;
  assert (Gh := proj2 (gg h l g _) (ex_intro _ c (conj E G))); inversion H2; subst; simplify_eq; try done.
  - assert (ρ w = ρ' w) by (apply Hf; by constructor). congruence.
  - f_equal. eapply IH; [done|]. intros w Hw. apply Hf. eapply feeds_operand; [exact Gh|done|left|done].
  - f_equal; [eapply IH1|eapply IH2]; try done; intros w Hw; apply Hf; (eapply feeds_operand; [exact Gh|done| |done]); [left|right; left].
  - f_equal; [eapply IH1|eapply IH2]; try done; intros w Hw; apply Hf; (eapply feeds_operand; [exact Gh|done| |done]); [left|right; left].
  - f_equal; [eapply IH1|eapply IH2]; try done; intros w Hw; apply Hf; (eapply feeds_operand; [exact Gh|done| |done]); [left|right; left].
  - match goal with F2 : Forall2 (gv h l ρ') ids ?bs |- _ => rename F2 into F2'; rename bs into bits' end.
    match goal with V : gv h l' (fun i => bits' !! N.to_nat i) _ b2 |- _ => apply (IH _ _ V) end.
    intros i Hi. destruct (ids !! N.to_nat i) as [a|] eqn:Ea.
    + destruct (Forall2_lookup_l _ _ _ _ _ IHF Ea) as (x & Ex & Hx). destruct (Forall2_lookup_l _ _ _ _ _ F2' Ea) as (y & Ey & Hy).
      rewrite Ex, Ey. f_equal. apply (Hx _ _ Hy). intros w Hw. apply Hf.
      eapply feeds_call; [exact Gh|apply gmod; eauto|apply og; eauto|exact Hi|exact Ea|exact Hw].
    + rewrite !(proj2 (lookup_ge_None _ _)); [done| |]; apply lookup_ge_None in Ea; [rewrite <- (Forall2_length _ _ _ F2')|rewrite <- (Forall2_length _ _ _ F)]; done.
Qed.
(** After any history: an output has the same bit in two evaluations if the inputs that can reach it have. *)
Theorem C95_output md md1 md2 ops fuel fuel' l inputs inputs' outs outs' k o : eval_output md1 (run md ops) fuel l inputs = Ok outs ->
  eval_output md2 (run md ops) fuel' l inputs' = Ok outs' -> output_gate (run md ops) l (N.of_nat k) = Ok o ->
  (forall w, feeds (run md ops) l o w -> inputs !! N.to_nat w = inputs' !! N.to_nat w) -> outs !! k = outs' !! k.
Proof.
  intros E1 E2 Ho Hf. destruct (eval_sound md1 _ (run_hinv md ops) _ _ _ _ E1) as (c & Ec & Hl & H1). destruct (eval_sound md2 _ (run_hinv md ops) _ _ _ _ E2) as (c2 & Ec2 & Hl2 & H2).
  rewrite Ec in Ec2. injection Ec2 as <-. apply og in Ho as (c3 & Ec3 & O). rewrite Ec in Ec3. injection Ec3 as <-.
  destruct (outs !! k) as [b|] eqn:B, (outs' !! k) as [b'|] eqn:B'; [| | |done].
  - f_equal. destruct (H1 _ _ B) as (d & o1 & D1 & O1 & V1). destruct (H2 _ _ B') as (d' & o2 & D2 & O2 & V2). rewrite Ec in D1, D2. injection D1 as <-. injection D2 as <-.
    rewrite O in O1, O2. injection O1 as <-. injection O2 as <-. apply (C95_values _ _ _ _ _ _ _ V1 V2). intros w Hw. by apply Hf.
  - apply lookup_lt_Some in B. apply lookup_ge_None in B'. lia.
  - apply lookup_lt_Some in B'. apply lookup_ge_None in B. lia.
Qed.
(** Inputs that reach no output do not matter at all: the evaluations are the same, also if they fail. *)
Theorem C95_irrelevant md md' ops fuel l inputs inputs' : length inputs = length inputs' ->
  (forall k o w, output_gate (run md ops) l k = Ok o -> feeds (run md ops) l o w -> inputs !! N.to_nat w = inputs' !! N.to_nat w) ->
  eval_output md' (run md ops) fuel l inputs = eval_output md' (run md ops) fuel l inputs'.
Proof.
  intros Hl Hf. destruct (C94_bits md' (run md ops) fuel l inputs inputs' Hl) as [H _]. unfold same_end in H.
  destruct (eval_output md' (run md ops) fuel l inputs) as [outs|e|p|] eqn:E1, (eval_output md' (run md ops) fuel l inputs') as [outs'|e'|p'|] eqn:E2; try done; try congruence.
  f_equal. apply list_eq. intros k. destruct (outs !! k) as [b|] eqn:B.
  - destruct (eval_sound md' _ (run_hinv md ops) _ _ _ _ E1) as (c & Ec & _ & H1). destruct (H1 _ _ B) as (d & o & D1 & O & _).
    assert (Ho : output_gate (run md ops) l (N.of_nat k) = Ok o) by (apply og; eauto).
    rewrite <- B. eapply C95_output; [exact E1|exact E2|exact Ho|]. intros w. by apply (Hf (N.of_nat k)).
  - symmetry. apply lookup_ge_None. apply lookup_ge_None in B. lia.
Qed.

(** * Examples *)
(** An evaluation that gives bits, one that fails and one that panics, each with the other bits too; then the first with AND for XOR, and 0 for 1. *)
Definition ends (md : mode) (h : heap) (ins : list bool) : res (list bool) * N := count_output md h 9 0 ins.
Example C94_example : forall md md',
  map (ends md' (run md demo)) [ [false; false]; [true; false] ] = [ (Ok [true], 6); (Ok [true], 6) ] /\
  map (ends md' (run md demo)) [ [false; true]; [true; true] ] = [ (Ok [false], 6); (Ok [true], 6) ] /\
  map (ends md' (run md consumed_early)) [ [false]; [true] ] = [ (Err (EUnknownEvaledBit 0), 4); (Err (EUnknownEvaledBit 0), 4) ] /\
  map (ends md' (run md repeated_operand)) [ [false]; [true] ] = [ (Panic PKey, 4); (Panic PKey, 4) ] /\
  get_gate (run md demo) 1 2 = Ok (GXor 0 1) /\ alike_gates (GXor 0 1) (GAnd 0 1) /\
  ends md' (do_patch md (run md demo) (PGate 1 2 (GAnd 0 1))) [false; true] = (Ok [true], 6).
Proof.
  intros md md'. split; [destruct md, md'; vm_compute; reflexivity|]. split; [destruct md, md'; vm_compute; reflexivity|].
  split; [destruct md, md'; vm_compute; reflexivity|]. split; [destruct md, md'; vm_compute; reflexivity|]. split; [destruct md; vm_compute; reflexivity|].
  split; [right; right; exists 0, 1; split; reflexivity|]. destruct md, md'; vm_compute; reflexivity.
Qed.
(** A module of two arguments that ignores the second: only the first input reaches the output of the caller. *)
Definition ignoring : list op := [OpNewStorage; OpNewCircuit 0; OpInput 0; OpInput 0; OpSub 0; OpInput 1; OpInput 1; OpNot 1 0; OpOutput 1 2;
  OpModule 0 0 [0; 1]; OpOutput 0 2].
Section ignoring.
Context (md : mode).
Lemma ign_gates : get_gate (run md ignoring) 0 0 = Ok (GInput 0) /\ get_gate (run md ignoring) 0 2 = Ok (GModule 2 1 [0; 1] 0 0) /\
  get_gate (run md ignoring) 1 0 = Ok (GInput 0) /\ get_gate (run md ignoring) 1 2 = Ok (GNot 0) /\ get_module (run md ignoring) 0 0 = Ok 1%nat /\
  output_gate (run md ignoring) 1 0 = Ok 2 /\ output_gate (run md ignoring) 0 0 = Ok 2.
Proof.
  destruct md; (split; [vm_compute; reflexivity|]); (split; [vm_compute; reflexivity|]); (split; [vm_compute; reflexivity|]); (split; [vm_compute; reflexivity|]);
    (split; [vm_compute; reflexivity|]); (split; [vm_compute; reflexivity|]); vm_compute; reflexivity.
Qed.
Lemma feeds_inp h l g w0 w : get_gate h l g = Ok (GInput w0) -> feeds h l g w -> w = w0.
Proof.
  intros G F. inversion F as [? ? ? G1|? ? gt a ? G1 _ Ha|? ? il ol ids oi mid l' o i a ? G1]; subst; rewrite G in G1; try discriminate G1.
  - injection G1 as ->. reflexivity.
  - injection G1 as <-. apply elem_of_nil in Ha. destruct Ha.
Qed.
Lemma ign_module w : feeds (run md ignoring) 1 2 w -> w = 0.
Proof.
  destruct ign_gates as (_ & _ & G0 & G2 & _). intros F. inversion F as [? ? ? G1|? ? gt a ? G1 _ Ha F1|? ? il ol ids oi mid l' o i a ? G1]; subst; rewrite G2 in G1; try discriminate G1.
  injection G1 as <-. apply elem_of_list_singleton in Ha. subst a. exact (feeds_inp _ _ _ _ _ G0 F1).
Qed.
Lemma ign_caller w : feeds (run md ignoring) 0 2 w -> w = 0.
Proof.
  destruct ign_gates as (C0 & C2 & _ & _ & M & O & _). intros F.
  inversion F as [? ? ? G1|? ? gt a ? G1 Hm Ha F1|? ? il ol ids oi mid l' o i a ? G1 M1 O1 F1 Ea F2]; subst; rewrite C2 in G1; try discriminate G1.
  - injection G1 as <-. discriminate Hm.
  - injection G1 as <- <- <- <- <-. rewrite M in M1. injection M1 as <-. rewrite O in O1. injection O1 as <-. apply ign_module in F1. subst i.
    injection Ea as <-. exact (feeds_inp _ _ _ _ _ C0 F2).
Qed.
Lemma ign_len : outputs_of (run md ignoring) 0 = Ok 1.
Proof. destruct md; vm_compute; reflexivity. Qed.
Lemma one_output h k o : hinv h -> outputs_of h 0 = Ok 1 -> output_gate h 0 k = Ok o -> k = 0.
Proof.
  intros Hh Hl Hk. apply og in Hk as (c & E & Ek). unfold outputs_of, on in Hl. rewrite E in Hl. injection Hl as Hl.
  destruct (decide (k < 1)); [lia|]. rewrite (wf_outputs_none c (hi_circ h Hh 0%nat c E) k) in Ek by lia. discriminate Ek.
Qed.
Lemma ign_same k o w : output_gate (run md ignoring) 0 k = Ok o -> feeds (run md ignoring) 0 o w -> [true; false] !! N.to_nat w = [true; true] !! N.to_nat w.
Proof.
  intros Hk F. pose proof (one_output _ _ _ (run_hinv md ignoring) ign_len Hk) as ->. destruct ign_gates as (_ & _ & _ & _ & _ & _ & O0).
  rewrite O0 in Hk. injection Hk as <-. apply ign_caller in F. rewrite F. reflexivity.
Qed.
Lemma ign_feeds : feeds (run md ignoring) 0 2 0.
Proof.
  destruct ign_gates as (C0 & C2 & G0 & G2 & M & O & _). generalize dependent (run md ignoring). intros h C0 C2 G0 G2 M O.
  apply (feeds_call _ 0 2 2 1 [0; 1] 0 0 1 2 0 0 0); [exact C2|exact M|exact O| |reflexivity|constructor; exact C0].
  eapply feeds_operand; [exact G2|reflexivity|left|constructor; exact G0].
Qed.
End ignoring.
Example C95_example : forall md md', (forall k o w, output_gate (run md ignoring) 0 k = Ok o -> feeds (run md ignoring) 0 o w -> [true; false] !! N.to_nat w = [true; true] !! N.to_nat w) /\
  eval_output md' (run md ignoring) 9 0 [true; false] = Ok [false] /\ eval_output md' (run md ignoring) 9 0 [true; true] = Ok [false] /\
  eval_output md' (run md ignoring) 9 0 [false; true] = Ok [true] /\ feeds (run md ignoring) 0 2 0.
Proof.
  intros md md'. split; [exact (ign_same md)|]. split; [destruct md, md'; vm_compute; reflexivity|]. split; [destruct md, md'; vm_compute; reflexivity|].
  split; [destruct md, md'; vm_compute; reflexivity|]. exact (ign_feeds md).
Qed.
