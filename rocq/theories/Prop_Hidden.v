(** What the text says about the constants: C96. *)
From Verif Require Import DiscDec.
From Verif Require Export Prop_Course.
Open Scope N_scope.
Open Scope list_scope.

(** * Specification *)
Definition const_gates_differ (gt gt' : gate) : Prop := gt = gt' \/ exists x y, gt = GConst x /\ gt' = GConst y.
(** Circuits that differ at most in the values of constants, and in the consumers. *)
Record alike_but_constants (c c' : circuit) : Prop := {
  ac_in : input_map c = input_map c';
  ac_out : output_map c = output_map c';
  ac_st : c_storage c = c_storage c';
  ac_cg : const_gates c = const_gates c';
  ac_il : input_len c = input_len c';
  ac_ol : output_len c = output_len c';
  ac_nw : num_wire c = num_wire c';
  ac_ng : num_gate c = num_gate c';
  ac_nc : num_const c = num_const c';
  ac_some : forall g, is_Some (gate_map c !! g) <-> is_Some (gate_map c' !! g);
  ac_gates : forall g gt gt', gate_map c !! g = Some gt -> gate_map c' !! g = Some gt' -> const_gates_differ gt gt';
}.
Definition alike_but_values (h h' : heap) : Prop := Forall2 alike_but_constants (h_circ h) (h_circ h') /\ h_stor h = h_stor h'.
(** Two results of [write] that differ at most in the returned constants: the same map and as many constants, or the same failure. *)
Definition same_written (r r' : res (list bool * wmap)) : Prop :=
  match r, r' with
  | Ok (vals, wog), Ok (vals', wog') => length vals = length vals' /\ wog = wog'
  | Err e, Err e' => e = e'
  | Panic p, Panic p' => p = p'
  | NoFuel, NoFuel => True
  | _, _ => False
  end.
(** Two states of the writer that differ at most in the constants it remembers. *)
Definition same_writer (s s' : wstate) : Prop :=
  w_c s = w_c s' /\ w_num s = w_num s' /\ w_const s = w_const s' /\ w_out s = w_out s' /\ forall w, is_Some (w_cow s !! w) <-> is_Some (w_cow s' !! w).

(** * Simulation *)
Definition wsim {A} (RA : A -> A -> Prop) (m m' : WM A) : Prop :=
  forall s s', same_writer s s' -> rsim RA (fst (m s)) (fst (m' s')) /\ same_writer (snd (m s)) (snd (m' s')).
Lemma ws_bind {A B} (RA : A -> A -> Prop) (RB : B -> B -> Prop) (m m' : WM A) (k k' : A -> WM B) :
  wsim RA m m' -> (forall a a', RA a a' -> wsim RB (k a) (k' a')) -> wsim RB (st_bind m k) (st_bind m' k').
Proof.
  intros H1 H2 s s' Hs. unfold st_bind. destruct (H1 s s' Hs) as [E1 E2]. destruct (m s) as [r t], (m' s') as [r' t']. cbn in E1, E2.
  destruct r, r'; cbn in *; try done. by apply H2.
Qed.
Lemma ws_ret {A} (RA : A -> A -> Prop) a a' : RA a a' -> wsim RA (st_ret a) (st_ret a').
Proof. intros H s s' Hs. done. Qed.
Lemma ws_err {A} (RA : A -> A -> Prop) e : wsim RA (st_err e) (st_err e).
Proof. intros s s' Hs. done. Qed.
Lemma ws_panic {A} (RA : A -> A -> Prop) p : wsim RA (st_panic p) (st_panic p).
Proof. intros s s' Hs. done. Qed.
Lemma ws_nofuel {A} (RA : A -> A -> Prop) : wsim RA (fun s => (NoFuel, s)) (fun s => (NoFuel, s)).
Proof. intros s s' Hs. done. Qed.
Lemma ws_lift {A} (r : res A) : wsim eq (st_lift r) (st_lift r).
Proof. intros s s' Hs. unfold st_lift. cbn. split; [|done]. by destruct r. Qed.
Lemma ws_fold {X B} (RX : X -> X -> Prop) (RB : B -> B -> Prop) (f f' : B -> X -> WM B) xs xs' : Forall2 RX xs xs' ->
  (forall b b' x x', RB b b' -> RX x x' -> wsim RB (f b x) (f' b' x')) -> forall b b', RB b b' -> wsim RB (st_foldM f b xs) (st_foldM f' b' xs').
Proof.
  intros HX H. induction HX as [|x x' xs xs' Hx HX IH]; intros b b' Hb; cbn [st_foldM]; [by apply ws_ret|]. eapply ws_bind; [by apply H|]. intros. by apply IH.
Qed.
Lemma ws_fold_eq {X B} (f f' : B -> X -> WM B) xs : (forall b x, wsim eq (f b x) (f' b x)) -> forall b, wsim eq (st_foldM f b xs) (st_foldM f' b xs).
Proof. intros H b. eapply (ws_fold eq); [|intros ? ? ? ? -> ->; apply H|done]. apply Forall2_same_length_lookup. split; [done|]. congruence. Qed.
Lemma ws_write t : wsim eq (w_write t) (w_write t).
Proof. intros s s' (H1 & H2 & H3 & H4 & H5). unfold w_write. cbn. split; [done|]. unfold same_writer. cbn. by rewrite H1, H2, H3, H4. Qed.
Lemma ws_set_c l : wsim eq (w_set_c l) (w_set_c l).
Proof. intros s s' (H1 & H2 & H3 & H4 & H5). done. Qed.
Lemma ws_set_num l : wsim eq (w_set_num l) (w_set_num l).
Proof. intros s s' (H1 & H2 & H3 & H4 & H5). done. Qed.
Lemma ws_set_const l : wsim eq (w_set_const l) (w_set_const l).
Proof. intros s s' (H1 & H2 & H3 & H4 & H5). done. Qed.
Lemma ws_set_cow m m' : (forall w, is_Some (m !! w) <-> is_Some (m' !! w)) -> wsim eq (w_set_cow m) (w_set_cow m').
Proof. intros H s s' (H1 & H2 & H3 & H4 & H5). done. Qed.
Lemma ws_get : wsim same_writer w_get w_get.
Proof. intros s s' Hs. done. Qed.
Lemma ws_key {A} (m : gmap N A) k : wsim eq (w_key m k) (w_key m k).
Proof. intros s s' Hs. unfold w_key. by destruct (m !! k). Qed.
Lemma ws_key_any {A} (m m' : gmap N A) k : (is_Some (m !! k) <-> is_Some (m' !! k)) -> wsim any (w_key m k) (w_key m' k).
Proof.
  intros H s s' Hs. unfold w_key. destruct (m !! k), (m' !! k); try done; [destruct H as [H _]; by destruct H; eauto|destruct H as [_ H]; by destruct H; eauto].
Qed.
Lemma ws_mapM {X A} (f f' : X -> WM A) xs : (forall x, wsim any (f x) (f' x)) -> wsim long (st_mapM f xs) (st_mapM f' xs).
Proof.
  intros H. induction xs as [|x xs IH]; cbn [st_mapM]; [by apply ws_ret|]. eapply ws_bind; [apply H|]. intros a a' _.
  eapply ws_bind; [exact IH|]. intros bs bs' Hb. apply ws_ret. unfold long in *. cbn. by rewrite Hb.
Qed.
Lemma ws_update id ws str wog : wsim eq (update_wire id ws str wog) (update_wire id ws str wog).
Proof.
  unfold update_wire. eapply ws_bind; [apply ws_get|]. intros s s' (H1 & H2 & H3 & H4 & H5). rewrite H2.
  eapply (ws_bind eq); [destruct ws; [apply ws_write|by apply ws_ret]|]. intros _ _ _. eapply ws_bind; [apply ws_set_num|]. intros _ _ _. by apply ws_ret.
Qed.

Section text.
Context (h h' : heap) (AH : alike_but_values h h').
Lemma ac_at l : match h_circ h !! l, h_circ h' !! l with Some c, Some c' => alike_but_constants c c' | None, None => True | _, _ => False end.
Proof using AH.
  destruct AH as [H _]. destruct (h_circ h !! l) as [c|] eqn:E.
  - destruct (Forall2_lookup_l _ _ _ _ _ H E) as (c' & -> & K). done.
  - destruct (h_circ h' !! l) as [c'|] eqn:E'; [|done]. destruct (Forall2_lookup_r _ _ _ _ _ H E') as (c & ? & _). congruence.
Qed.
Lemma ws_circ : wsim alike_but_constants (w_circ h) (w_circ h').
Proof using AH.
  intros s s' Hs. unfold w_circ. rewrite <- (proj1 Hs). pose proof (ac_at (w_c s)). by destruct (h_circ h !! w_c s), (h_circ h' !! w_c s).
Qed.
Lemma ws_get_gate c c' id : alike_but_constants c c' -> wsim const_gates_differ (st_lift (c_get_gate c id)) (st_lift (c_get_gate c' id)).
Proof.
  intros C s s' Hs. unfold st_lift, c_get_gate. cbn. split; [|done]. pose proof (ac_some c c' C id) as H. pose proof (ac_gates c c' C id) as Hg.
  destruct (gate_map c !! id) as [gt|], (gate_map c' !! id) as [gt'|]; cbn; try done; [by apply Hg|destruct H as [H _]; by destruct H; eauto|destruct H as [_ H]; by destruct H; eauto].
Qed.
Lemma ws_gate id : wsim const_gates_differ (w_gate h id) (w_gate h' id).
Proof using AH. unfold w_gate. eapply ws_bind; [apply ws_circ|]. intros c c' C. by apply ws_get_gate. Qed.
Section rec.
Context (f f' : N -> gate -> wmap -> WM wmap) (Hf : forall id g g' wog, const_gates_differ g g' -> wsim eq (f id g wog) (f' id g' wog)).
Lemma ws_ensure wog id : wsim eq (ensure h f wog id) (ensure h' f' wog id).
Proof using AH Hf. unfold ensure. destruct (wog !! id); [by apply ws_ret|]. eapply ws_bind; [apply ws_gate|]. intros. by apply Hf. Qed.
Lemma ws_all wog ids : wsim eq (ensure_all h f wog ids) (ensure_all h' f' wog ids).
Proof using AH Hf. apply ws_fold_eq. intros. apply ws_ensure. Qed.
Lemma ws_const wog id : wsim eq (write_const h wog id) (write_const h' wog id).
Proof using AH.
  unfold write_const. eapply ws_bind; [apply ws_gate|]. intros g g' Hg.
  assert (X : forall x y, wsim eq (st <- w_get ;; w_set_cow (<[w_const st := x]> (w_cow st)) ;; w_set_const (w_const st + 1) ;; st_ret (<[id := w_const st]> wog))
    (st <- w_get ;; w_set_cow (<[w_const st := y]> (w_cow st)) ;; w_set_const (w_const st + 1) ;; st_ret (<[id := w_const st]> wog))).
  { intros x y. eapply ws_bind; [apply ws_get|]. intros s s' (H1 & H2 & H3 & H4 & H5). rewrite H3. eapply ws_bind.
    { apply ws_set_cow. intros w. destruct (decide (w = w_const s')) as [->|]; [rewrite !lookup_insert; split; eauto|rewrite !lookup_insert_ne by done; apply H5]. }
    intros _ _ _. eapply ws_bind; [apply ws_set_const|]. intros _ _ _. by apply ws_ret. }
  destruct Hg as [<-|(x & y & -> & ->)]; [destruct g; try (by apply ws_ret); apply X|apply X].
Qed.
Definition same_acc (a a' : wmap * list (N * gate)) : Prop := a.1 = a'.1 /\ Forall2 (fun p p' => p.1 = p'.1 /\ const_gates_differ p.2 p'.2) a.2 a'.2.
Lemma ws_pass1 acc acc' i : same_acc acc acc' -> wsim same_acc (write_pass1 h f acc i) (write_pass1 h' f' acc' i).
Proof using AH Hf.
  intros [A1 A2]. unfold write_pass1. eapply ws_bind; [apply ws_circ|]. intros c c' C. unfold c_output_to_gate_id. rewrite (ac_out c c' C).
  eapply ws_bind; [apply ws_lift|]. intros id _ <-. eapply ws_bind; [by apply ws_get_gate|]. intros g g' Hg. cbv zeta. rewrite A1.
  assert (Hacc : Forall2 (fun p p' : N * gate => p.1 = p'.1 /\ const_gates_differ p.2 p'.2) (acc.2 ++ [(id, g)]) (acc'.2 ++ [(id, g')])).
  { apply Forall2_app; [done|]. constructor; [by split|constructor]. }
  destruct Hg as [<-|(x & y & -> & ->)]; [|by apply ws_ret].
  destruct g; try (by apply ws_ret); (eapply ws_bind; [apply ws_all|]; intros wog _ <-; by apply ws_ret).
Qed.
Lemma ws_pass2 wog p p' : p.1 = p'.1 -> const_gates_differ p.2 p'.2 -> wsim eq (write_pass2 f wog p) (write_pass2 f' wog p').
Proof using Hf. intros E Hg. unfold write_pass2. rewrite E. destruct (wog !! p'.1); [by apply ws_ret|by apply Hf]. Qed.
Lemma ws_write_all wog : wsim eq (write_all h f wog) (write_all h' f' wog).
Proof using AH Hf.
  unfold write_all. eapply ws_bind; [apply ws_circ|]. intros c c' C. unfold c_get_const_gates. rewrite (ac_cg c c' C), (ac_ol c c' C).
  eapply ws_bind; [apply ws_fold_eq; intros; apply ws_const|]. intros wog1 _ <-. eapply (ws_bind same_acc).
  { eapply (ws_fold eq); [|intros b b' x _ Hb <-; by apply ws_pass1|split; [reflexivity|constructor]]. apply Forall2_same_length_lookup. split; [done|]. congruence. }
  intros [wog2 outs] [wog2' outs'] [E Ho]. cbn in E, Ho. subst wog2'. eapply ws_fold; [exact Ho| |done]. intros b _ p p' <- [E1 E2]. by apply ws_pass2.
Qed.
Lemma ws_args fuel m m' wog : input_map m = input_map m' -> forall ids w new, wsim eq (bind_args fuel m wog ids w new) (bind_args fuel m' wog ids w new).
Proof.
  intros E. induction fuel as [|fuel IH]; intros ids w new; destruct ids as [|id r]; cbn [bind_args]; try (by apply ws_ret); [apply ws_nofuel|].
  unfold c_input_to_gate_id. rewrite E. eapply ws_bind; [apply ws_lift|]. intros o _ <-. destruct o as [g|]; [|apply IH]. eapply ws_bind; [apply ws_key|].
  intros x _ <-. apply IH.
Qed.
Lemma ws_body id g g' wog : const_gates_differ g g' -> wsim eq (single_body h f id g wog) (single_body h' f' id g' wog).
Proof using AH Hf.
  intros [<-|(x & y & -> & ->)]; [|by apply ws_ret].
  assert (X2 : forall a b str, wsim eq (wog <- ensure_all h f wog [a; b] ;; x <- w_key wog a ;; y <- w_key wog b ;; update_wire id (Some [x; y]) str wog)
    (wog <- ensure_all h' f' wog [a; b] ;; x <- w_key wog a ;; y <- w_key wog b ;; update_wire id (Some [x; y]) str wog)).
  { intros a b str. eapply ws_bind; [apply ws_all|]. intros wog1 _ <-. eapply ws_bind; [apply ws_key|]. intros x _ <-.
    eapply ws_bind; [apply ws_key|]. intros y _ <-. apply ws_update. }
  destruct g as [w|b|a|a b|a b|a b|il ol ids oi mid]; cbn [single_body]; [apply ws_update|by apply ws_ret| |apply X2|apply X2|apply X2|].
  - eapply ws_bind; [apply ws_all|]. intros wog1 _ <-. eapply ws_bind; [apply ws_key|]. intros x _ <-. apply ws_update.
  - eapply ws_bind; [apply ws_all|]. intros wog1 _ <-. eapply ws_bind; [apply ws_circ|]. intros c c' C. rewrite (ac_st c c' C), (proj2 AH).
    eapply (ws_bind eq).
    { destruct (h_stor h' !! c_storage c') as [x|]; [|apply ws_panic]. destruct (module_map x !! mid); [by apply ws_ret|apply ws_err]. }
    intros l' _ <-. eapply (ws_bind alike_but_constants).
    { pose proof (ac_at l'). destruct (h_circ h !! l'), (h_circ h' !! l'); [by apply ws_ret|done|done|apply ws_panic]. }
    intros m m' M. rewrite (ac_in m m' M). eapply ws_bind; [apply ws_args, M|]. intros new _ <-. eapply ws_bind; [apply ws_get|]. intros s s' Hs.
    eapply ws_bind; [apply ws_set_c|]. intros _ _ _. eapply ws_bind; [apply ws_write_all|]. intros new' _ <-. rewrite (proj1 Hs).
    eapply ws_bind; [apply ws_set_c|]. intros _ _ _. apply ws_fold_eq. intros wog2 i. unfold copy_out, c_output_to_gate_id. rewrite (ac_out m m' M).
    eapply ws_bind; [apply ws_lift|]. intros o _ <-. eapply ws_bind; [apply ws_key|]. intros x _ <-. by apply ws_ret.
Qed.
End rec.
Lemma ws_single fuel : forall id g g' wog, const_gates_differ g g' -> wsim eq (write_single h fuel id g wog) (write_single h' fuel id g' wog).
Proof using AH. induction fuel as [|fuel IH]; intros id g g' wog Hg; cbn [write_single]; [apply ws_nofuel|]. by apply ws_body. Qed.
Lemma ws_inputs fuel f f' : (forall id g g' wog, const_gates_differ g g' -> wsim eq (f id g wog) (f' id g' wog)) ->
  forall k w wog, wsim eq (write_inputs h fuel f k w wog) (write_inputs h' fuel f' k w wog).
Proof using AH.
  intros Hf. induction fuel as [|fuel IH]; intros k w wog; destruct k as [|k]; cbn [write_inputs]; try (by apply ws_ret); [apply ws_nofuel|].
  eapply ws_bind; [apply ws_circ|]. intros c c' C. unfold c_input_to_gate_id. rewrite (ac_in c c' C).
  eapply ws_bind; [apply ws_lift|]. intros o _ <-. destruct o as [id|]; [|apply IH]. eapply ws_bind; [by apply ws_get_gate|]. intros g g' Hg.
  eapply ws_bind; [by apply Hf|]. intros wog1 _ <-. apply IH.
Qed.
Lemma ws_write_text fuel n given : wsim (fun r r' => long r.1 r'.1 /\ r.2 = r'.2) (write h fuel n given) (write h' fuel n given).
Proof using AH.
  unfold write. eapply ws_bind; [apply ws_circ|]. intros c c' C.
  rewrite (ac_in c c' C), (ac_il c c' C), (ac_ol c c' C), (ac_nw c c' C), (ac_ng c c' C), (ac_nc c c' C). cbv zeta.
  eapply ws_bind; [apply ws_write|]. intros _ _ _. eapply (ws_bind eq); [destruct (_ <=? _); [by apply ws_ret|apply ws_panic]|]. intros _ _ _.
  eapply ws_bind; [apply ws_write|]. intros _ _ _. eapply ws_bind; [apply ws_write|]. intros _ _ _. eapply ws_bind; [apply ws_write|]. intros _ _ _.
  eapply ws_bind; [by apply ws_set_cow|]. intros _ _ _. eapply ws_bind; [apply ws_inputs, ws_single|]. intros wog _ <-.
  eapply ws_bind; [apply ws_set_const|]. intros _ _ _. eapply ws_bind; [apply ws_get|]. intros s s' Hs. rewrite (proj1 (proj2 Hs)).
  eapply ws_bind; [apply ws_set_num|]. intros _ _ _. eapply ws_bind; [apply ws_write_all, ws_single|]. intros wog1 _ <-.
  eapply ws_bind; [apply ws_get|]. intros t t' Ht. rewrite (proj1 (proj2 (proj2 Ht))). eapply ws_bind; [apply ws_mapM|].
  - intros w. apply ws_key_any. apply Ht.
  - intros vals vals' Hv. apply ws_ret. by split.
Qed.
End text.

(** * C96 *)
(** Any two heaps that differ at most in the values of constants (and in consumers), any state of the writer and any map: the text, the map, the wires
    handed out, the number of constants and any failure are the same. The values are in the returned list only. *)
Theorem C96_hidden h h' fuel n given st st' : alike_but_values h h' -> same_writer st st' ->
  same_written (fst (write h fuel n given st)) (fst (write h' fuel n given st')) /\
  written (snd (write h fuel n given st)) = written (snd (write h' fuel n given st')) /\
  same_writer (snd (write h fuel n given st)) (snd (write h' fuel n given st')).
Proof.
  intros A Hs. destruct (ws_write_text h h' A fuel n given st st' Hs) as [H1 H2]. split; [|split; [|exact H2]].
  - revert H1. unfold rsim, same_written. destruct (fst (write h fuel n given st)) as [[v w]| | |], (fst (write h' fuel n given st')) as [[v' w']| | |]; done.
  - unfold written. destruct H2 as (_ & _ & _ & -> & _). reflexivity.
Qed.
(** In particular one constant that the caller exchanges for the other, in any circuit of any heap, leaves the text of every circuit as it was. *)
Theorem C96_exchange md h l g x y fuel n given st : get_gate h l g = Ok (GConst x) ->
  same_written (fst (write h fuel n given st)) (fst (write (do_patch md h (PGate l g (GConst y))) fuel n given st)) /\
  written (snd (write h fuel n given st)) = written (snd (write (do_patch md h (PGate l g (GConst y))) fuel n given st)).
Proof.
  intros Hg. assert (A : alike_but_values h (do_patch md h (PGate l g (GConst y)))).
  { apply gg in Hg as (c & E & G). split; [|done]. cbn. apply Forall2_same_length_lookup. split; [by rewrite alter_length|].
    intros i d d' E1 E2. apply alter_cases in E2. destruct E2 as [(<- & c0 & E0 & ->)|[_ E0]].
    - rewrite E1 in E0. injection E0 as <-. rewrite E in E1. injection E1 as <-. split; try done; cbn.
      + intros z. destruct (decide (z = g)) as [->|]; [rewrite lookup_insert, G; split; eauto|by rewrite lookup_insert_ne by done].
      + intros z gt1 gt2. destruct (decide (z = g)) as [->|]; [rewrite lookup_insert, G; intros [= <-] [= <-]; right; eauto|rewrite lookup_insert_ne by done].
        intros G1 G2. rewrite G1 in G2. injection G2 as <-. by left.
    - rewrite E1 in E0. injection E0 as <-. split; try done. intros z gt1 gt2 G1 G2. rewrite G1 in G2. injection G2 as <-. by left. }
  destruct (C96_hidden h _ fuel n given st st A) as (H1 & H2 & _); [|by split]. by repeat split.
Qed.

(** * Programs that differ in constants *)
Definition vg (x y : option gate) : Prop := match x, y with None, None => True | Some gt, Some gt' => const_gates_differ gt gt' | _, _ => False end.
Record vc (c c' : circuit) : Prop := {
  v_in : input_map c = input_map c';
  v_g : forall g, vg (gate_map c !! g) (gate_map c' !! g);
  v_out : output_map c = output_map c';
  v_st : c_storage c = c_storage c';
  v_dep : dep_map c = dep_map c';
  v_cg : const_gates c = const_gates c';
  v_il : input_len c = input_len c';
  v_ol : output_len c = output_len c';
  v_nw : num_wire c = num_wire c';
  v_ng : num_gate c = num_gate c';
  v_nc : num_const c = num_const c';
  v_gi : gate_index c = gate_index c';
}.
Lemma vc_alike c c' : vc c c' -> alike_but_constants c c'.
Proof.
  intros [? H ? ? ? ? ? ? ? ? ? ?]. split; try done; intros g; specialize (H g); destruct (gate_map c !! g), (gate_map c' !! g); cbn in H; try done.
  by intros ? ? [= <-] [= <-].
Qed.
Lemma vc_new s : vc (circuit_new s) (circuit_new s).
Proof. split; try done. Qed.
Lemma vg_insert (m m' : gmap N gate) k gt gt' : const_gates_differ gt gt' -> (forall g, vg (m !! g) (m' !! g)) ->
  forall g, vg (<[k := gt]> m !! g) (<[k := gt']> m' !! g).
Proof. intros Hk H g. destruct (decide (g = k)) as [->|]; [by rewrite !lookup_insert|rewrite !lookup_insert_ne by done; apply H]. Qed.
Ltac vsplit := split; cbn; try congruence; try (apply vg_insert; [by left|assumption]); try assumption.
Definition vkeeps {A} (f : circuit -> A * circuit) : Prop := forall c c', vc c c' -> fst (f c) = fst (f c') /\ vc (snd (f c)) (snd (f c')).
Lemma v_add_gate g : vkeeps (fun c => add_gate c g).
Proof. intros c c' []. unfold add_gate. cbn. split; [done|]. rewrite v_gi0. vsplit. Qed.
Lemma v_constant b b' l : both vc (r_constant l b) (r_constant l b').
Proof.
  unfold r_constant, on_circ. apply both_circ. intros c c' []. unfold c_constant. cbn. rewrite v_gi0. apply both_bind; [|intros _; apply both_ret].
  apply both_put. rewrite <- v_gi0. vsplit. rewrite v_gi0. apply vg_insert; [right; eauto|done].
Qed.
Lemma v_dependence a g c c' : vc c c' -> vc (add_dependence c a g) (add_dependence c' a g).
Proof. intros []. unfold add_dependence. vsplit. Qed.
Lemma v_bump k c c' : vc c c' -> vc (bump_num_gate c k) (bump_num_gate c' k).
Proof. intros []. unfold bump_num_gate. vsplit. Qed.
Lemma v_input : vkeeps c_input.
Proof. intros c c' []. unfold c_input. cbn. split; [done|]. rewrite v_gi0, v_il0. vsplit. Qed.
Lemma v_not a : vkeeps (fun c => c_not c a).
Proof.
  intros c c' H. destruct (v_add_gate (GNot a) c c' H) as [E1 E2]. unfold c_not. destruct (add_gate c _) as [g c1], (add_gate c' _) as [g' c1'].
  cbn in *. subst g'. split; [done|]. by apply v_bump, v_dependence.
Qed.
Lemma v_binary gt a b : vkeeps (fun c => c_binary c gt a b).
Proof.
  intros c c' H. destruct (v_add_gate gt c c' H) as [E1 E2]. unfold c_binary. destruct (add_gate c _) as [g c1], (add_gate c' _) as [g' c1'].
  cbn in *. subst g'. split; [done|]. by apply v_bump, v_dependence, v_dependence.
Qed.
Lemma v_equivalent a b : vkeeps (fun c => c_equivalent c a b).
Proof.
  intros c c' H. destruct (v_binary (GXor a b) a b c c' H) as [E1 E2]. unfold c_equivalent, c_xor.
  destruct (c_binary c _ _ _) as [g c1], (c_binary c' _ _ _) as [g' c1']. cbn in E1, E2. subst g'. by apply (v_not g).
Qed.
Lemma v_identity a : vkeeps (fun c => c_identity c a).
Proof.
  intros c c' H. destruct (v_not a c c' H) as [E1 E2]. unfold c_identity.
  destruct (c_not c _) as [g c1], (c_not c' _) as [g' c1']. cbn in E1, E2. subst g'. by apply (v_not g).
Qed.
Lemma v_output g : vkeeps (fun c => c_output c g).
Proof.
  intros c c' H. pose proof (v_g c c' H g) as Hg. unfold c_output.
  destruct (gate_map c !! g) as [gt|], (gate_map c' !! g) as [gt'|] eqn:G; try done. destruct H. cbn. split; [by rewrite v_ol0|]. rewrite v_ol0. vsplit.
Qed.
Lemma v_module_gates il ol ids mid i k : vkeeps (fun c => add_module_gates c il ol ids mid i k).
Proof.
  revert i. induction k as [|k IH]; intros i c c' H; cbn [add_module_gates]; [done|].
  destruct (v_add_gate (GModule il ol ids i mid) c c' H) as [E1 E2]. destruct (add_gate c _) as [g c1], (add_gate c' _) as [g' c1'].
  cbn in E1, E2. subst g'. destruct (IH (i + 1) c1 c1' E2) as [E3 E4].
  destruct (add_module_gates c1 _ _ _ _ _ _), (add_module_gates c1' _ _ _ _ _ _). cbn in *. by subst.
Qed.
Lemma v_module_deps ids outs c c' : vc c c' -> vc (add_module_deps c ids outs) (add_module_deps c' ids outs).
Proof.
  unfold add_module_deps. revert c c'. induction ids as [|i ids IH]; intros c c' H; cbn [fold_left]; [done|]. apply IH. clear IH. revert c c' H.
  induction outs as [|o outs IH]; intros c c' H; cbn [fold_left]; [done|]. apply IH. by apply v_dependence.
Qed.
Lemma v_module md c c' m m' mid ids : vc c c' -> vc m m' ->
  match c_module md c m mid ids, c_module md c' m' mid ids with
  | Some (outs, d), Some (outs', d') => outs = outs' /\ vc d d'
  | None, None => True
  | _, _ => False
  end.
Proof.
  intros H Hm. unfold c_module. rewrite (v_il m m' Hm), (v_ol m m' Hm), (v_nw m m' Hm), (v_ng m m' Hm), (v_nc m m' Hm). set (d := (num_wire m' - _ - _)%Z).
  set (c1 := Circuit (input_map c) _ _ _ _ _ _ _ _ _ _ _). set (c1' := Circuit (input_map c') _ _ _ _ _ _ _ _ _ _ _).
  assert (HR1 : vc c1 c1') by (destruct H; unfold c1, c1'; vsplit).
  destruct (v_module_gates (input_len m') (output_len m') ids mid 0 (N.to_nat (output_len m')) c1 c1' HR1) as [E1 E2].
  destruct (add_module_gates c1 _ _ _ _ _ _) as [outs c2], (add_module_gates c1' _ _ _ _ _ _) as [outs' c2']. cbn in E1, E2. subst outs'.
  destruct md, (d <? 0)%Z; try done; split; try done; by apply v_module_deps.
Qed.
Lemma v_get_module l mid : both vc (r_get_module l mid) (r_get_module l mid).
Proof.
  apply both_circ. intros c c' H. rewrite (v_st c c' H). apply both_bind; [apply both_stor|]. intros x.
  destruct (module_map x !! mid); [apply both_ret|apply both_err].
Qed.
Lemma v_op md o : both vc (run_op md o) (run_op md o).
Proof.
  destruct o; cbn [run_op]; apply both_as.
  - intros h h' [H Hs]. unfold alloc_stor, hrel. cbn. by rewrite Hs.
  - apply both_bind; [apply both_stor|]. intros _. apply both_alloc, vc_new.
  - apply both_circ. intros c c' H. by apply both_alloc.
  - apply both_on, v_input.
  - apply both_bind; [|intros; apply both_lift]. apply both_on, v_output.
  - apply v_constant.
  - apply both_on, v_not.
  - apply both_on, v_binary.
  - apply both_on, v_binary.
  - apply both_on, v_binary.
  - apply both_on, v_equivalent.
  - apply both_on, v_identity.
  - apply both_circ. intros c c' H. apply both_circ. intros m m' Hm. rewrite (v_st c c' H). apply both_register.
  - apply both_circ. intros c c' H. rewrite (v_st c c' H).
    apply both_bind; [apply both_stor|]. intros _. apply both_bind; [apply both_alloc, vc_new|]. intros l'.
    apply both_bind; [apply both_register|]. intros mid. apply both_ret.
  - apply both_bind; [apply v_get_module|]. intros l'. destruct (decide (l' = l)); [apply both_panic|].
    apply both_circ. intros m m' Hm. apply both_circ. intros c c' H. pose proof (v_module md c c' m m' mid ids H Hm) as Hx.
    destruct (c_module md c m mid ids) as [[outs d]|], (c_module md c' m' mid ids) as [[outs' d']|]; try done.
    destruct Hx as [-> Hx]. apply both_bind; [by apply both_put|]. intros _. apply both_ret.
  - apply both_circ. intros m m' Hm. apply both_register.
Qed.
(** The same calls, except that constants may be made with other values. *)
Definition same_call (o o' : op) : Prop := o = o' \/ exists l b b', o = OpConst l b /\ o' = OpConst l b'.
Lemma v_call md o o' : same_call o o' -> both vc (run_op md o) (run_op md o').
Proof. intros [<-|(l & b & b' & -> & ->)]; [apply v_op|]. cbn [run_op]. apply both_as, v_constant. Qed.
Lemma v_run md ops ops' : Forall2 same_call ops ops' -> forall h h', hrel vc h h' -> hrel vc (fold_left (step md) ops h) (fold_left (step md) ops' h').
Proof.
  intros F. induction F as [|o o' ops ops' Ho F IH]; intros h h' H; [done|]. cbn [fold_left]. apply IH. by apply (v_call md o o' Ho h h' H).
Qed.
(** Every call returns the same in both programs. *)
Theorem C96_calls md ops ops' o o' : Forall2 same_call ops ops' -> same_call o o' -> fst (run_op md o (run md ops)) = fst (run_op md o' (run md ops')).
Proof. intros F Ho. apply (v_call md o o' Ho). apply v_run; [done|]. split; [constructor|done]. Qed.
Lemma run_alike md ops ops' : Forall2 same_call ops ops' -> alike_but_values (run md ops) (run md ops').
Proof.
  intros F. destruct (v_run md ops ops' F heap_empty heap_empty) as [H1 H2]; [split; [constructor|done]|]. split; [|exact H2].
  eapply Forall2_impl; [exact H1|]. intros. by apply vc_alike.
Qed.
(** And the text of every circuit is the same, for every map and every writer, also after errors. *)
Theorem C96_programs md ops ops' fuel n given st : Forall2 same_call ops ops' ->
  same_written (fst (write (run md ops) fuel n given st)) (fst (write (run md ops') fuel n given st)) /\
  written (snd (write (run md ops) fuel n given st)) = written (snd (write (run md ops') fuel n given st)).
Proof.
  intros F. destruct (C96_hidden _ _ fuel n given st st (run_alike md ops ops' F)) as (H1 & H2 & _); [by repeat split|by split].
Qed.

(** * Examples *)
Definition text_of (h : heap) (l : nat) (n : N) : res (list bool) * string :=
  let r := write h 9 n ∅ (writer_new l) in (match fst r with Ok (vals, _) => Ok vals | Err e => Err e | Panic p => Panic p | NoFuel => NoFuel end, written (snd r)).
Definition demo_text : string := unlines ["4 8"; "2 2 1"; "1 1"; ""; "2 1 0 1 3 XOR"; "1 1 3 4 INV"; "2 1 4 2 5 AND"; "2 1 0 5 6 OR"]%string.
(** The constant of the module is exchanged: the text is the same, the returned constant and what the circuit computes are not. A write that panics does so
    with the other constant too. *)
Example C96_example : forall md md', get_gate (run md demo) 1 4 = Ok (GConst true) /\
  text_of (run md demo) 0 2 = (Ok [true], demo_text) /\ text_of (do_patch md (run md demo) (PGate 1 4 (GConst false))) 0 2 = (Ok [false], demo_text) /\
  eval_output md' (run md demo) 9 0 [false; false] = Ok [true] /\
  eval_output md' (do_patch md (run md demo) (PGate 1 4 (GConst false))) 9 0 [false; false] = Ok [false] /\
  fst (text_of (run md demo) 0 4) = Panic PAssert /\ fst (text_of (do_patch md (run md demo) (PGate 1 4 (GConst false))) 0 4) = Panic PAssert.
Proof.
  intros md md'. split; [destruct md; vm_compute; reflexivity|]. split; [destruct md; vm_compute; reflexivity|]. split; [destruct md; vm_compute; reflexivity|].
  split; [destruct md, md'; vm_compute; reflexivity|]. split; [destruct md, md'; vm_compute; reflexivity|]. split; destruct md; vm_compute; reflexivity.
Qed.
(** The demo with the other constant. *)
Definition demo_false : list op := map (fun o => match o with OpConst l _ => OpConst l false | _ => o end) demo.
Example C96_example_program : forall md, Forall2 same_call demo demo_false /\ demo <> demo_false /\
  text_of (run md demo) 0 2 = (Ok [true], demo_text) /\ text_of (run md demo_false) 0 2 = (Ok [false], demo_text).
Proof.
  intros md. split; [|split; [discriminate|split; destruct md; vm_compute; reflexivity]].
  unfold demo_false, demo. cbn [map]. repeat first [apply Forall2_nil_2|apply Forall2_cons_2; [first [left; reflexivity|right; do 3 eexists; split; reflexivity]|]].
Qed.
