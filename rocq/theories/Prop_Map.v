(** Property C91: the map of the caller after a write that failed. *)
From Verif Require Export WriterMap Prop_Given Prop_Io.
From Coq Require Import Ascii String.
Open Scope N_scope.
Open Scope list_scope.

(** * The writer with the map in its state, and the writer of Io.v *)
(** [x], started with the map [wog], does the same as [m]; [R] relates the results, that of [x] with the map it leaves, when both succeed. *)
Definition agree {A B} (wog : wmap) (R : A -> wmap -> B -> Prop) (x : MM A) (m : IM B) : Prop := forall st,
  let '(r, s) := x (st, wog) in let '(r', st') := m st in
  s.1 = st' /\ match r, r' with
               | Ok a, Ok b => R a s.2 b
               | Err e, Err e' => e = e'
               | Panic p, Panic p' => p = p'
               | NoFuel, NoFuel => True
               | _, _ => False
               end.
Definition plain {A} (wog : wmap) (a : A) (w : wmap) (b : A) : Prop := a = b /\ w = wog.
Definition ismap (a : unit) (w : wmap) (b : wmap) : Prop := w = b.
Lemma agree_bind {A B A' B'} wog (R : A -> wmap -> B -> Prop) (Q : A' -> wmap -> B' -> Prop) x m k k' : agree wog R x m ->
  (forall a w b, R a w b -> agree w Q (k a) (k' b)) -> agree wog Q (st_bind x k) (st_bind m k').
Proof.
  intros H1 H2 st. specialize (H1 st). unfold st_bind. destruct (x (st, wog)) as [r [s w]]. destruct (m st) as [r' st']. destruct H1 as [E1 H1]. cbn in E1, H1. subst s.
  destruct r as [a| | |], r' as [b| | |]; try done. exact (H2 a w b H1 st').
Qed.
Lemma agree_io {A} wog (m : IM A) : agree wog (plain wog) (m_io m) m.
Proof. intros st. unfold m_io. cbn. destruct (m st) as [[| | |] st']; done. Qed.
Lemma agree_ret {A B} wog (R : A -> wmap -> B -> Prop) a b : R a wog b -> agree wog R (st_ret a) (st_ret b).
Proof. intros H st. by split. Qed.
Lemma agree_lift {A} wog (r : res A) : agree wog (plain wog) (st_lift r) (st_lift r).
Proof. intros st. cbn. by destruct r. Qed.
Lemma agree_err {A B} wog (R : A -> wmap -> B -> Prop) e : agree wog R (st_err e) (st_err e).
Proof. by intros st. Qed.
Lemma agree_panic {A B} wog (R : A -> wmap -> B -> Prop) e : agree wog R (st_panic e) (st_panic e).
Proof. by intros st. Qed.
Lemma agree_nofuel {A B} wog (R : A -> wmap -> B -> Prop) : agree wog R (fun s => (NoFuel, s)) (fun s => (NoFuel, s)).
Proof. by intros st. Qed.
Lemma agree_get {A B} wog (R : A -> wmap -> B -> Prop) id k m : agree wog R (k (wog !! id)) m -> agree wog R (st_bind (m_get id) k) m.
Proof. intros H st. exact (H st). Qed.
Lemma agree_key wog id : agree wog (plain wog) (m_key id) (i_key wog id).
Proof. intros st. unfold m_key, i_key. cbn. by destruct (wog !! id). Qed.
Lemma agree_insert {A B} wog (R : A -> wmap -> B -> Prop) id w k m : agree (<[id := w]> wog) R (k tt) m -> agree wog R (st_bind (m_insert id w) k) m.
Proof. intros H st. exact (H st). Qed.
Lemma agree_frame wog new x m : agree new ismap x m -> agree wog (fun a w b => a = b /\ w = wog) (m_frame new x) m.
Proof.
  intros H st. specialize (H st). unfold m_frame. cbn. destruct (x (st, new)) as [r [s w]]. destruct (m st) as [r' st']. destruct H as [E1 H]. cbn in *. split; [done|].
  by destruct r, r'.
Qed.
Lemma agree_iter {A} (x : A -> MM unit) (f : wmap -> A -> IM wmap) xs : (forall wog a, agree wog ismap (x a) (f wog a)) ->
  forall wog, agree wog ismap (st_iterM x xs) (st_foldM f wog xs).
Proof.
  intros H. induction xs as [|a xs IH]; intros wog; [by apply agree_ret|]. cbn [st_iterM st_foldM]. eapply agree_bind; [apply H|]. intros _ w b ->. apply IH.
Qed.
Lemma agree_update gid ws gs wog : agree wog ismap (m_update_wire gid ws gs) (i_update_wire gid ws gs wog).
Proof.
  unfold m_update_wire, i_update_wire. eapply agree_bind; [apply agree_io|]. intros st w st' [-> ->]. apply agree_insert.
  eapply (agree_bind _ (plain (<[gid:=i_num st']> wog))). { destruct ws; [apply agree_io|by apply agree_ret]. }
  intros a w b [-> ->]. intros s. by split.
Qed.
Section heap.
Context (h : heap).
Section rec.
Context (x : N -> gate -> MM unit) (f : N -> gate -> wmap -> IM wmap) (HS : forall id g wog, agree wog ismap (x id g) (f id g wog)).
Lemma agree_ensure_all ids : forall wog, agree wog ismap (m_ensure_all h x ids) (i_ensure_all h f wog ids).
Proof using HS.
  apply agree_iter. intros wog id. apply agree_get. unfold i_ensure. destruct (wog !! id); [by apply agree_ret|].
  eapply agree_bind; [apply agree_io|]. intros g w g' [-> ->]. apply HS.
Qed.
Lemma agree_ensure wog id : agree wog ismap (m_ensure h x id) (i_ensure h f wog id).
Proof using HS.
  apply agree_get. unfold i_ensure. destruct (wog !! id); [by apply agree_ret|].
  eapply agree_bind; [apply agree_io|]. intros g w g' [-> ->]. apply HS.
Qed.
Lemma agree_const wog id : agree wog ismap (m_write_const h id) (i_write_const h wog id).
Proof using.
  eapply agree_bind; [apply agree_io|]. intros g w g' [-> ->]. destruct g'; try by apply agree_ret.
  eapply agree_bind; [apply agree_io|]. intros st w st' [-> ->]. apply agree_insert. eapply agree_bind; [apply agree_io|]. intros _ w ? [_ ->]. intros s. by split.
Qed.
Definition isacc (acc : list (N * gate)) (w : wmap) (b : wmap * list (N * gate)) : Prop := b = (w, acc).
Lemma agree_pass1 acc wog i : agree wog isacc (m_write_pass1 h x acc i) (i_write_pass1 h f (wog, acc) i).
Proof using HS.
  eapply agree_bind; [apply agree_io|]. intros c w c' [-> ->]. eapply agree_bind; [apply agree_lift|]. intros id w id' [-> ->].
  eapply agree_bind; [apply agree_lift|]. intros g w g' [-> ->]. cbv zeta.
  destruct g'; cbn [fst snd]; try (by apply agree_ret); (eapply agree_bind; [apply agree_ensure_all|]; intros ? w bb ->; by apply agree_ret).
Qed.
Lemma agree_pass1s is : forall acc wog, agree wog isacc (st_foldM (m_write_pass1 h x) acc is) (st_foldM (i_write_pass1 h f) (wog, acc) is).
Proof using HS.
  induction is as [|i is IH]; intros acc wog; [by apply agree_ret|]. cbn [st_foldM]. eapply agree_bind; [apply agree_pass1|]. intros a w b ->. apply IH.
Qed.
Lemma agree_pass2 wog p : agree wog ismap (m_write_pass2 x p) (i_write_pass2 f wog p).
Proof using HS. apply agree_get. unfold i_write_pass2. destruct (wog !! p.1); [by apply agree_ret|apply HS]. Qed.
Lemma agree_all wog : agree wog ismap (m_write_all h x) (i_write_all h f wog).
Proof using HS.
  eapply agree_bind; [apply agree_io|]. intros c w c' [-> ->]. eapply agree_bind; [apply (agree_iter _ _ _ (fun wog a => agree_const wog a))|]. intros _ w b ->.
  eapply agree_bind; [apply agree_pass1s|]. intros outs w' b' ->. apply agree_iter. intros wog' p. apply agree_pass2.
Qed.
Lemma agree_args m wog fuel : forall ids w new, agree wog (plain wog) (m_bind_args fuel m ids w new) (i_bind_args fuel m wog ids w new).
Proof using.
  induction fuel as [|n IH]; intros [|id ids] w new; cbn [m_bind_args i_bind_args]; try (by apply agree_ret); [apply agree_nofuel|].
  eapply agree_bind; [apply agree_lift|]. intros o w' o' [-> ->]. destruct o' as [g|]; [|apply IH]. eapply agree_bind; [apply agree_key|]. intros y w' y' [-> ->]. apply IH.
Qed.
Lemma agree_copy m new first wog i : agree wog ismap (m_copy_out m new first i) (i_copy_out m new first wog i).
Proof using.
  eapply agree_bind; [apply agree_lift|]. intros o w o' [-> ->]. eapply agree_bind; [apply agree_io|]. intros y w y' [-> ->]. intros s. by split.
Qed.
Lemma agree_body id g wog : agree wog ismap (m_single_body h x id g) (i_single_body h f id g wog).
Proof using HS.
  destruct g as [w|b|a|a b|a b|a b|il ol ids oi mid]; cbn [m_single_body i_single_body]; [apply agree_update|by apply agree_ret| | | | |].
  1: eapply agree_bind; [apply agree_ensure_all|]; intros ? w bb ->; eapply agree_bind; [apply agree_key|]; intros y w y' [-> ->]; apply agree_update.
  1-3: eapply agree_bind; [apply agree_ensure_all|]; intros ? w bb ->; eapply agree_bind; [apply agree_key|]; intros y w y' [-> ->];
    eapply agree_bind; [apply agree_key|]; intros z w z' [-> ->]; apply agree_update.
  eapply agree_bind; [apply agree_ensure_all|]. intros _ w wog1 ->. eapply agree_bind; [apply agree_io|]. intros c w c' [-> ->].
  eapply (agree_bind _ (plain wog1)).
  { destruct (h_stor h !! c_storage c') as [z|]; [destruct (module_map z !! mid); [by apply agree_ret|apply agree_err]|apply agree_panic]. }
  intros l' w l2 [-> ->]. eapply (agree_bind _ (plain wog1)). { destruct (h_circ h !! l2); [by apply agree_ret|apply agree_panic]. }
  intros m w m' [-> ->]. eapply agree_bind; [apply agree_args|]. intros new w new' [-> ->]. eapply agree_bind; [apply agree_io|]. intros st w st' [-> ->].
  eapply agree_bind; [apply agree_io|]. intros _ w ? [_ ->]. eapply agree_bind; [apply agree_frame, agree_all|]. intros new2 w new2' [-> ->].
  eapply agree_bind; [apply agree_io|]. intros _ w ? [_ ->]. apply (agree_iter _ (i_copy_out m' new2' (id - oi))). intros. apply agree_copy.
Qed.
End rec.
Lemma agree_single fuel : forall id g wog, agree wog ismap (m_write_single h fuel id g) (i_write_single h fuel id g wog).
Proof. induction fuel as [|n IH]; intros id g wog; [apply agree_nofuel|]. by apply agree_body. Qed.
Lemma agree_inputs n fuel : forall k w wog, agree wog ismap (m_write_inputs h n (m_write_single h fuel) k w) (i_write_inputs h n (i_write_single h fuel) k w wog).
Proof.
  induction n as [|n IH]; intros [|k] w wog; cbn [m_write_inputs i_write_inputs]; try (by apply agree_ret); [apply agree_nofuel|].
  eapply agree_bind; [apply agree_io|]. intros c w' c' [-> ->]. eapply agree_bind; [apply agree_lift|]. intros o w' o' [-> ->]. destruct o' as [id|]; [|apply IH].
  eapply agree_bind; [apply agree_lift|]. intros g w' g' [-> ->]. eapply agree_bind; [apply agree_single|]. intros _ w' b ->. apply IH.
Qed.
Lemma agree_write fuel first given : agree given (fun a w b => b = (a, w)) (write_map h fuel first) (write_io h fuel first given).
Proof.
  unfold write_map, write_io. eapply agree_bind; [apply agree_io|]. intros c w c' [-> ->]. eapply agree_bind; [apply agree_io|]. intros _ w ? [_ ->]. cbv zeta.
  eapply (agree_bind _ (plain given)). { destruct (first <=? input_len c' + num_const c')%N; [by apply agree_ret|apply agree_panic]. } intros _ w ? [_ ->].
  do 4 (eapply agree_bind; [apply agree_io|]; intros _ w ? [_ ->]). eapply agree_bind; [apply agree_inputs|]. intros _ w1 wog1 ->.
  eapply agree_bind; [apply agree_io|]. intros _ w ? [_ ->]. eapply agree_bind; [apply agree_io|]. intros st w st' [-> ->]. eapply agree_bind; [apply agree_io|].
  intros _ w ? [_ ->]. eapply agree_bind; [apply agree_all; apply agree_single|]. intros _ w2 wog2 ->. eapply agree_bind; [apply agree_io|]. intros st w st2 [-> ->].
  intros s. pose proof (agree_io wog2 (st_mapM (i_key (i_cow st2)) (map (λ i : N, input_len c' + i) (nrange (i_const st2 - input_len c')))) s) as H. unfold st_bind.
  destruct (m_io _ (s, wog2)) as [r [s1 w1]]. destruct (st_mapM _ _ s) as [r' s2]. destruct H as [H1 H2]. destruct r as [a| | |], r' as [bb| | |]; cbn in *; try done.
  split; [done|]. by destruct H2 as [-> ->].
Qed.
End heap.

Lemma sim_pass1 h fuel acc i : sim eq (write_pass1 h (write_single h fuel) acc i) (i_write_pass1 h (i_write_single h fuel) acc i).
Proof.
  apply sim_bind; [apply sim_circ|intros c']. apply sim_bind; [apply sim_lift|intros id]. apply sim_bind; [apply sim_lift|intros g]. cbv zeta.
  destruct g; try apply sim_ret; (apply sim_bind; [apply sim_ensure_all, sim_single|intros wog2; apply sim_ret]).
Qed.
Lemma sim_pass2 h fuel wog p : sim eq (write_pass2 (write_single h fuel) wog p) (i_write_pass2 (i_write_single h fuel) wog p).
Proof. unfold write_pass2, i_write_pass2. destruct (wog !! p.1); [apply sim_ret|apply sim_single]. Qed.
Lemma sim_ensure h fuel wog id : sim eq (ensure h (write_single h fuel) wog id) (i_ensure h (i_write_single h fuel) wog id).
Proof. unfold ensure, i_ensure. destruct (wog !! id); [apply sim_ret|]. apply sim_bind; [apply sim_gate|intros g]. apply sim_single. Qed.

(** * A sink that fails, on disciplined circuits *)
(** Failures of the sink. *)
Definition io_err {A} (r : res A) : Prop := exists k, r = Err (EIo k).
Definition quiet {A} (x : MM A) : Prop := forall s, ~ io_err (fst (x s)).
Lemma quiet_bind {A B} (x : MM A) (k : A -> MM B) : quiet x -> (forall a, quiet (k a)) -> quiet (st_bind x k).
Proof. intros H1 H2 s. specialize (H1 s). unfold st_bind. destruct (x s) as [[a|e|p|] s']; cbn in *; [apply H2|intros [q Hq]; apply H1; exists q; congruence..]. Qed.
Lemma quiet_ok {A} (x : MM A) : (forall s, exists a s', x s = (Ok a, s')) -> quiet x.
Proof. intros H s [k Hk]. destruct (H s) as (a & s' & E). rewrite E in Hk. done. Qed.
Lemma quiet_ret {A} (a : A) : quiet (st_ret a). Proof. apply quiet_ok. intros s. by eexists _, _. Qed.
Lemma quiet_circ h : quiet (m_io (i_circ h)).
Proof. intros s [k Hk]. unfold m_io, i_circ in Hk. destruct (h_circ h !! i_c s.1); cbn in Hk; discriminate. Qed.
Lemma quiet_gate c id : quiet (st_lift (c_get_gate c id)).
Proof. intros s [k Hk]. unfold st_lift, c_get_gate in Hk. cbn in Hk. destruct (gate_map c !! id); cbn in Hk; discriminate. Qed.
Lemma quiet_igate h id : quiet (m_io (i_gate h id)).
Proof. intros s [k Hk]. unfold m_io, i_gate, st_bind, i_circ, st_lift, c_get_gate in Hk. destruct (h_circ h !! i_c s.1) as [c|]; [|cbn in Hk; discriminate]. destruct (gate_map c !! id); cbn in Hk; discriminate. Qed.
Lemma quiet_key id : quiet (m_key id). Proof. intros s [k Hk]. unfold m_key in Hk. destruct (s.2 !! id); cbn in Hk; discriminate. Qed.
Lemma quiet_out c i : quiet (st_lift (c_output_to_gate_id c i)).
Proof. intros s [k Hk]. unfold st_lift, c_output_to_gate_id in Hk. cbn in Hk. destruct (output_map c !! i); cbn in Hk; discriminate. Qed.
Lemma quiet_in c i : quiet (st_lift (c_input_to_gate_id c i)).
Proof. intros s [k Hk]. unfold st_lift, c_input_to_gate_id in Hk. cbn in Hk. destruct (input_map c !! i); cbn in Hk; discriminate. Qed.
Lemma quiet_iter {A} (x : A -> MM unit) xs : (forall a, quiet (x a)) -> quiet (st_iterM x xs).
Proof. intros H. induction xs as [|a xs IH]; [apply quiet_ret|]. cbn [st_iterM]. by apply quiet_bind. Qed.
Lemma quiet_const h id : quiet (m_write_const h id).
Proof. apply quiet_bind; [apply quiet_igate|]. intros [| | | | | |]; [apply quiet_ret| |apply quiet_ret..]. apply quiet_ok. intros s. by eexists _, _. Qed.
Lemma quiet_ikey {A} (m : gmap N A) id : quiet (m_io (i_key m id)).
Proof. intros s [k Hk]. unfold m_io, i_key in Hk. destruct (m !! id); cbn in Hk; discriminate. Qed.
Lemma quiet_copy m new first i : quiet (m_copy_out m new first i).
Proof. apply quiet_bind; [apply quiet_out|intros o]. apply quiet_bind; [apply quiet_ikey|intros x]. apply quiet_ok. intros s. by eexists _, _. Qed.

(** What both writers do when the one with a sink does not fail. *)
Lemma same_ok {A B} wog (R : A -> wmap -> B -> Prop) x m mi b0 st s a s' : agree wog R x mi -> sim eq m mi -> sync b0 st s -> x (s, wog) = (Ok a, s') ->
  exists b st', m st = (Ok b, st') /\ R a s'.2 b /\ sync b0 st' s'.1.
Proof.
  intros Ha [_ Hs] Y Ex. specialize (Ha s). rewrite Ex in Ha. specialize (Hs b0 st s Y). destruct (mi s) as [ri si]. destruct (m st) as [r st']. destruct Ha as [<- Ha].
  destruct ri as [b| | |]; try done. cbn [fst snd] in Hs. destruct Hs as [[Hr Y']|[[k Hk] _]]; [|done]. destruct r as [b'| | |]; cbn in Hr; try done. subst. by exists b, st'.
Qed.

(** What remains when the operands have wires. *)
Definition m_module_rest (h : heap) (fuel : nat) (id oi ol mid : N) (ids : list N) : MM unit :=
  c <- m_io (i_circ h) ;;
  l' <- (match h_stor h !! c_storage c with
         | Some x => match module_map x !! mid with Some l' => st_ret l' | None => st_err (EUnknownModule mid) end
         | None => st_panic PDangling end) ;;
  m <- (match h_circ h !! l' with Some m => st_ret m | None => st_panic PDangling end) ;;
  new <- m_bind_args (List.length ids + size (input_map m) + 1) m ids 0 ∅ ;;
  st <- m_io i_get ;;
  m_io (i_set_c l') ;;
  new <- m_frame new (m_write_all h (m_write_single h fuel)) ;;
  m_io (i_set_c (i_c st)) ;;
  st_iterM (m_copy_out m new (id - oi)) (nrange ol).
Definition m_rest (h : heap) (fuel : nat) (g : N) (gt : gate) : MM unit :=
  match gt with
  | GNot a => x <- m_key a ;; m_update_wire g (Some [x]) (gate_to_str gt)
  | GXor a b | GAnd a b | GOr a b => x <- m_key a ;; y <- m_key b ;; m_update_wire g (Some [x; y]) (gate_to_str gt)
  | GModule _ ol ids oi mid => m_module_rest h fuel g oi ol mid ids
  | _ => st_ret tt
  end.
Lemma m_single_rest h fuel g gt s : is_logic gt = true \/ is_module gt = true ->
  m_write_single h (Datatypes.S fuel) g gt s = (m_ensure_all h (m_write_single h fuel) (operands gt) ;; m_rest h fuel g gt) s.
Proof. intros Hk. by destruct gt; destruct Hk. Qed.
(** Steps that do not touch the map. *)
Definition leaves {A} (x : MM A) : Prop := forall s, (snd (x s)).2 = s.2.
Lemma leaves_bind {A B} (x : MM A) (k : A -> MM B) : leaves x -> (forall a, leaves (k a)) -> leaves (st_bind x k).
Proof. intros H1 H2 s. specialize (H1 s). unfold st_bind. destruct (x s) as [[a|e|p|] s']; cbn in *; [|done..]. by rewrite H2. Qed.
Lemma leaves_io {A} (x : IM A) : leaves (m_io x).
Proof. intros s. unfold m_io. by destruct (x s.1). Qed.
Lemma leaves_ret {A} (a : A) : leaves (st_ret a). Proof. done. Qed.
Lemma leaves_key id : leaves (m_key id). Proof. intros s. unfold m_key. by destruct (s.2 !! id). Qed.
Lemma leaves_frame new x : leaves (m_frame new x). Proof. intros s. unfold m_frame. by destruct (x _). Qed.
Lemma leaves_args m fuel : forall ids w new, leaves (m_bind_args fuel m ids w new).
Proof.
  induction fuel as [|n IH]; intros [|id ids] w new; cbn [m_bind_args]; [done..|]. apply leaves_bind; [done|]. intros [g|]; [|apply IH]. apply leaves_bind; [apply leaves_key|]. intros. apply IH.
Qed.
(** A step that does not touch the map, and one that the sink does not fail. *)
Definition holds {A} (x : MM A) : Prop := forall s k s', x s = (Err (EIo k), s') -> s'.2 = s.2.
Lemma holds_bind {A B} (x : MM A) (k : A -> MM B) : leaves x -> (forall a, holds (k a)) -> holds (st_bind x k).
Proof.
  intros H1 H2 s e s' Ex. specialize (H1 s). unfold st_bind in Ex. destruct (x s) as [[a|e'|p|] s1]; cbn in *; try done.
  - by rewrite (H2 _ _ _ _ Ex). - by injection Ex as -> ->.
Qed.
Lemma holds_quiet {A} (x : MM A) : quiet x -> holds x.
Proof. intros Q s k s' Ex. destruct (Q s). rewrite Ex. by exists k. Qed.
Lemma holds_module h fuel id oi ol mid ids : holds (m_module_rest h fuel id oi ol mid ids).
Proof.
  apply holds_bind; [apply leaves_io|intros c]. apply holds_bind; [by destruct (h_stor h !! c_storage c) as [x|]; [destruct (module_map x !! mid)|]|intros l'].
  apply holds_bind; [by destruct (h_circ h !! l')|intros m]. apply holds_bind; [apply leaves_args|intros new]. apply holds_bind; [apply leaves_io|intros st].
  apply holds_bind; [apply leaves_io|intros _]. apply holds_bind; [apply leaves_frame|intros new2]. apply holds_bind; [apply leaves_io|intros _].
  apply holds_quiet, quiet_iter. intros. apply quiet_copy.
Qed.
Lemma update_fail gid ws gs s k s' : m_update_wire gid ws gs s = (Err (EIo k), s') -> s'.2 = <[gid := i_num s.1]> s.2 /\ i_num s'.1 = i_num s.1 /\ i_c s'.1 = i_c s.1 /\ i_const s'.1 = i_const s.1.
Proof.
  unfold m_update_wire, st_bind, m_io, m_insert, i_get, i_set_num. cbn [fst snd]. destruct ws as [ws|]; cbn [fst snd]; [|done].
  unfold i_put. cbn [fst snd]. destruct (bw_write_all _ _) as [[?|?|?|] b]; cbn; try done. intros [= -> <-]. done.
Qed.
Lemma rest_fail h fuel g gt s k s' : m_rest h fuel g gt s = (Err (EIo k), s') ->
  s'.2 = s.2 \/ is_logic gt = true /\ s'.2 = <[g := i_num s.1]> s.2 /\ i_num s'.1 = i_num s.1 /\ i_c s'.1 = i_c s.1 /\ i_const s'.1 = i_const s.1.
Proof.
  destruct gt as [| |a|a b|a b|a b|il ol ids oi mid]; cbn [m_rest]; try done.
  - unfold st_bind, m_key. destruct (s.2 !! a); [|done]. intros H%update_fail. by right.
  - unfold st_bind, m_key. destruct (s.2 !! a); [|done]. destruct (s.2 !! b); [|done]. intros H%update_fail. by right.
  - unfold st_bind, m_key. destruct (s.2 !! a); [|done]. destruct (s.2 !! b); [|done]. intros H%update_fail. by right.
  - unfold st_bind, m_key. destruct (s.2 !! a); [|done]. destruct (s.2 !! b); [|done]. intros H%update_fail. by right.
  - intros H%holds_module. by left.
Qed.
Lemma rest_logic h fuel g gt wog st w st' : is_logic gt = true -> rest h fuel g gt wog st = (Ok w, st') -> w = <[g := w_num st]> wog.
Proof.
  destruct gt as [| |a|a b|a b|a b|]; try done; intros _; cbn [rest]; unfold st_bind, w_key.
  - destruct (wog !! a); [|done]. by intros [= <- <-].
  - destruct (wog !! a); [|done]. destruct (wog !! b); [|done]. by intros [= <- <-].
  - destruct (wog !! a); [|done]. destruct (wog !! b); [|done]. by intros [= <- <-].
  - destruct (wog !! a); [|done]. destruct (wog !! b); [|done]. by intros [= <- <-].
Qed.

Section circ.
Context (h : heap) (D : dinv h) (CI : cinv h) (l : nat) (c : circuit) (E : h_circ h !! l = Some c) (given : wmap).
Let Hinv : hinv h := di_inv h D.
Let W : cwf c := hi_circ h Hinv l c E.
Let Cd : cdisc h c := di_disc h D l c E.
Context (K : nat).
Context (HK : forall l' m fuel, calls h c l' -> h_circ h !! l' = Some m -> (K <= fuel)%nat -> wa_spec h fuel l' m).

(** Entries are only replaced in calls of which not all outputs had one. *)
Definition kept (P : N -> Prop) (a b : wmap) : Prop := (forall x, has a x -> has b x) /\ forall x, b !! x = a !! x \/ P x /\ ~ whole c a x.
Lemma kept_refl P a : kept P a a. Proof using. split; [done|]. by left. Qed.
Lemma kept_trans P a b d : kept P a b -> kept P b d -> kept P a d.
Proof using.
  intros [X1 P1] [X2 P2]. split; [auto|]. intros x. destruct (P2 x) as [E2|[H2 N2] ].
  - destruct (P1 x) as [E1|?]; [left; congruence|by right].
  - right. split; [done|]. intros Hw. apply N2. by eapply whole_ext.
Qed.
Lemma kept_mono (P Q : N -> Prop) a b : (forall x, P x -> Q x) -> kept P a b -> kept Q a b.
Proof using. intros H [X1 P1]. split; [done|]. intros x. destruct (P1 x) as [?|[? ?] ]; [by left|right; auto]. Qed.
Lemma kept_step P wog s gls wog' s' : vstep h c given P wog s gls wog' s' -> kept P wog wog'.
Proof using. intros S. split; apply S. Qed.

(** When the sink fails, the map lies between the one before and the one a perfect sink would have led to. *)
Definition midway {A B} (P : N -> Prop) (π : B -> wmap) (wog : wmap) (st : wstate) (x : MM A) (m : WM B) : Prop := forall b0 s k s' w st',
  sync b0 st s -> x (s, wog) = (Err (EIo k), s') -> m st = (Ok w, st') -> kept P wog s'.2 /\ kept P s'.2 (π w).
Lemma midway_quiet {A B} P (π : B -> wmap) wog st (x : MM A) m : quiet x -> midway P π wog st x m.
Proof using. intros Q b0 s k s' w st' _ Ex. destruct (Q (s, wog)). rewrite Ex. by exists k. Qed.
Lemma midway_mono {A B} (P Q : N -> Prop) (π : B -> wmap) wog st (x : MM A) m : (forall y, P y -> Q y) -> midway P π wog st x m -> midway Q π wog st x m.
Proof using. intros H M b0 s k s' w st' Y Ex Em. destruct (M b0 s k s' w st' Y Ex Em). split; by eapply kept_mono. Qed.
Lemma midway_bind {A B A' B'} P (R : A -> wmap -> B -> Prop) (π : B -> wmap) (π' : B' -> wmap) wog st (x : MM A) m mi (y : A -> MM A') k :
  agree wog R x mi -> sim eq m mi -> (forall a w b, R a w b -> w = π b) ->
  midway P π wog st x m -> (forall a w b st', m st = (Ok b, st') -> R a w b -> kept P wog w /\ midway P π' w st' (y a) (k b) /\
    forall b' st2, k b st' = (Ok b', st2) -> kept P w (π' b')) -> (forall b st', m st = (Ok b, st') -> exists a w, R a w b) ->
  midway P π' wog st (st_bind x y) (st_bind m k).
Proof using.
  intros Ha Hs HR Hx Hy Hex b0 s e s' w st' Y Exy Em. unfold st_bind in Exy, Em. destruct (x (s, wog)) as [r s1] eqn:Ex.
  destruct (m st) as [[b| | |] st1] eqn:Emst; try done. destruct r as [a|e'|p|]; try done.
  - destruct (same_ok wog R x m mi b0 st s a s1 Ha Hs Y Ex) as (b2 & st2 & Em2 & HRa & Y2). rewrite Emst in Em2. injection Em2 as <- <-.
    destruct (Hy a s1.2 b st1 eq_refl HRa) as (Kw & My & _). destruct s1 as [s1 w1]. cbn [fst snd] in *.
    destruct (My b0 s1 e s' w st' Y2 Exy Em) as [K1 K2]. split; [by eapply kept_trans|done].
  - injection Exy as -> ->. destruct (Hx b0 s e s' b st1 Y Ex Emst) as [K1 K2]. split; [done|].
    destruct (Hex b st1 eq_refl) as (a & w1 & HRa). destruct (Hy a w1 b st1 eq_refl HRa) as (_ & _ & K3). rewrite (HR a w1 b HRa) in K3. eapply kept_trans; [exact K2|]. by eapply K3.
Qed.
(** The same when [x] returns nothing. *)
Lemma midway_seq {A' B'} P (π' : B' -> wmap) wog st (x : MM unit) m mi (y : MM A') k gls w1 st1 :
  agree wog ismap x mi -> sim eq m mi -> midway P id wog st x m -> m st = (Ok w1, st1) -> vstep h c given P wog st gls w1 st1 ->
  midway P π' w1 st1 y (k w1) -> (forall b' st2, k w1 st1 = (Ok b', st2) -> kept P w1 (π' b')) ->
  midway P π' wog st (st_bind x (fun _ => y)) (st_bind m k).
Proof using.
  intros Ha Hs Hx Em S Hy Hk. eapply (midway_bind P ismap id); [exact Ha|exact Hs|done|exact Hx| |].
  - intros a w b st' Em' HRa; unfold ismap in HRa; subst w. rewrite Em in Em'. injection Em' as <- <-. split; [by eapply kept_step|]. split; [exact Hy|exact Hk].
  - intros b st' Em'. by exists tt, b.
Qed.

Definition mclaim (fuel : nat) (g : N) : Prop := forall gt wog st, gate_map c !! g = Some gt -> vpre l c given wog st -> ~ has wog g ->
  midway (touch c g) id wog st (m_write_single h fuel g gt) (write_single h fuel g gt wog).
Lemma midway_ensure fuel wog st a : mclaim fuel a -> vpre l c given wog st -> is_Some (gate_map c !! a) ->
  midway (touch c a) id wog st (m_ensure h (m_write_single h fuel) a) (ensure h (write_single h fuel) wog a).
Proof using E.
  intros Hc Hp [gt G] b0 s k s' w st' Y Ex Em. unfold m_ensure in Ex. unfold st_bind at 1 in Ex. cbn [m_get fst snd] in Ex. unfold ensure in Em. destruct (wog !! a) as [v|] eqn:Ea; [done|].
  unfold st_bind in Em. rewrite (w_gate_ok h l c E st a gt (vp_c _ _ _ _ _ Hp) G) in Em.
  assert (m_io (i_gate h a) (s, wog) = (Ok gt, (s, wog))) as Eg.
  { unfold m_io, i_gate, st_bind, i_circ. cbn. rewrite (sy_c _ _ _ Y), (vp_c _ _ _ _ _ Hp), E. unfold st_lift, c_get_gate. by rewrite G. }
  unfold st_bind in Ex. rewrite Eg in Ex. eapply (Hc gt wog st G Hp); [|exact Y|exact Ex|exact Em]. intros [v Hv]. congruence.
Qed.
Lemma midway_ensures fuel ids : (forall a, a ∈ ids -> vclaim h l c given fuel a /\ mclaim fuel a /\ is_Some (gate_map c !! a)) -> forall wog st, vpre l c given wog st ->
  midway (fun x => exists a, a ∈ ids /\ touch c a x) id wog st (m_ensure_all h (m_write_single h fuel) ids) (ensure_all h (write_single h fuel) wog ids).
Proof using E.
  unfold m_ensure_all, ensure_all. induction ids as [|a r IH]; intros Hall wog st Hp; [apply midway_quiet, quiet_ret|].
  cbn [st_iterM st_foldM]. destruct (Hall a) as (Va & Ma & Ga); [left|].
  destruct (vensure_ok h l c E given fuel wog st a Va Hp Ga) as (g1 & w1 & s1 & E1 & S1 & H1).
  assert (Hp1 : vpre l c given w1 s1) by (by eapply vpre_step).
  destruct (vensure_all_ok h l c E given fuel r ltac:(intros b Hb; destruct (Hall b) as (? & _ & ?); [by right|done]) w1 s1 Hp1) as (g2 & w2 & s2 & E2 & S2 & H2).
  eapply midway_seq; [| | |exact E1| | |].
  - apply agree_ensure, agree_single.
  - apply sim_ensure.
  - eapply midway_mono; [|by apply midway_ensure]. intros x T. exists a. split; [left|done].
  - eapply vstep_mono; [|exact S1]. intros x T. exists a. split; [left|done].
  - eapply midway_mono; [|apply IH; [intros b Hb; apply Hall; by right|done]]. intros x (b & Hb & T). exists b. split; [by right|done].
  - intros b' st2 Eb. unfold ensure_all in E2. rewrite E2 in Eb. injection Eb as <- <-. eapply kept_step, vstep_mono; [|exact S2]. intros x (b & Hb & T). exists b. split; [by right|done].
Qed.
Lemma midway_rest fuel g gt wog st : gate_map c !! g = Some gt -> is_logic gt = true \/ is_module gt = true -> (K <= fuel)%nat -> vpre l c given wog st ->
  (forall a, a ∈ operands gt -> has wog a) -> ~ has wog g ->
  midway (touch c g) id wog st (m_rest h fuel g gt) (rest h fuel g gt wog).
Proof using D CI E HK.
  intros G Hk Hf Hp Hops Hg b0 s k s' w st' Y Ex Em.
  destruct (vrest_ok h D CI l c E given K HK fuel g gt wog st G Hk Hf Hp Hops Hg) as (gls & w2 & s2 & E2 & S2 & _). rewrite E2 in Em. injection Em as <- <-.
  apply kept_step in S2. destruct (rest_fail _ _ _ _ _ _ _ Ex) as [-> |(Hl & -> & _)]; [split; [apply kept_refl|done]|].
  cbn [fst snd]. rewrite (sy_num _ _ _ Y), <- (rest_logic _ _ _ _ _ _ _ _ Hl E2). split; [done|apply kept_refl].
Qed.
Lemma mclaim_ok g : forall fuel, (K + N.to_nat g < fuel)%nat -> mclaim fuel g.
Proof using D CI E HK.
  induction (N.lt_wf_0 g) as [g _ IH]. intros fuel Hf gt wog st G Hp Hg.
  destruct fuel as [|fuel]; [lia|].
  assert (Hk : is_logic gt = true \/ is_module gt = true).
  { destruct gt; try (by left); try (by right); destruct Hg; eapply (vp_base _ _ _ _ _ Hp); eauto. }
  assert (Hsl : start c g <= g) by (by eapply start_lt).
  assert (Hops : forall a, a ∈ operands gt -> vclaim h l c given fuel a /\ mclaim fuel a /\ is_Some (gate_map c !! a)).
  { intros a Ha. pose proof (operand_lt_start h c Cd g gt a G Ha). split; [apply (vclaim_ok h D CI l c E given K HK); lia|]. split; [apply IH; lia|].
    by eapply (operand_exists h l c Hinv E Cd). }
  destruct (vensure_all_ok h l c E given fuel (operands gt)) with (wog := wog) (s := st) as (g1 & w1 & s1 & E1 & S1 & H1); [|done|].
  { intros a Ha. by destruct (Hops a Ha) as (? & _ & ?). }
  assert (Hp1 : vpre l c given w1 s1) by (by eapply vpre_step).
  assert (Hg1 : ~ has w1 g).
  { unfold has. destruct (vs_same _ _ _ _ _ _ _ _ _ S1 g) as [->|((a & Ha & T) & _)]; [exact Hg|].
    exfalso. eapply (touch_not_blk h l c Hinv E Cd g gt a g G Ha T). by eapply (blk_self c W). }
  assert (Ht : forall x, (exists a, a ∈ operands gt /\ touch c a x) -> touch c g x) by (intros x (a & Ha & T); by eapply touch_oper).
  assert (midway (touch c g) id wog st (m_ensure_all h (m_write_single h fuel) (operands gt) ;; m_rest h fuel g gt)
    (wog' <- ensure_all h (write_single h fuel) wog (operands gt) ;; rest h fuel g gt wog')) as M.
  { eapply midway_seq; [apply agree_ensure_all, agree_single|apply sim_ensure_all, sim_single| |exact E1| | |].
    - eapply midway_mono; [exact Ht|]. by apply midway_ensures.
    - eapply vstep_mono; [exact Ht|exact S1].
    - apply midway_rest; try done. lia.
    - intros b' st2 Eb. destruct (vrest_ok h D CI l c E given K HK fuel g gt w1 s1 G Hk ltac:(lia) Hp1 H1 Hg1) as (gls & w2 & s2 & E2 & S2 & _).
      rewrite E2 in Eb. injection Eb as <- <-. by eapply kept_step. }
  intros b0 s k s' w st' Y Ex Em. rewrite m_single_rest in Ex by done. rewrite single_rest in Em by done. by eapply M.
Qed.
Lemma ready fuel gt g : (K + N.to_nat (gate_index c) < fuel)%nat -> gate_map c !! g = Some gt -> forall a, a ∈ operands gt ->
  vclaim h l c given fuel a /\ mclaim fuel a /\ is_Some (gate_map c !! a).
Proof using D CI E HK.
  intros Hf G a Ha. destruct (operand_exists h l c Hinv E Cd g gt a G Ha) as [ga Ga]. pose proof (gm_lt c a ga W Ga).
  split; [apply (vclaim_ok h D CI l c E given K HK); lia|]. split; [apply mclaim_ok; lia|by eexists].
Qed.
(** One round of the first loop. *)
Lemma pass1_step fuel wog st k o gt acc : (K + N.to_nat (gate_index c) < fuel)%nat -> vpre l c given wog st -> output_map c !! k = Some o -> gate_map c !! o = Some gt ->
  (exists gls w1 st1, write_pass1 h (write_single h fuel) (wog, acc) k st = (Ok (w1, acc ++ [(o, gt)]), st1) /\ vstep h c given (used c) wog st gls w1 st1) /\
  midway (used c) fst wog st (m_write_pass1 h (m_write_single h fuel) acc k) (write_pass1 h (write_single h fuel) (wog, acc) k).
Proof using D CI E HK.
  intros Hf Hp Eo G. pose proof (ready fuel gt o Hf G) as Hr.
  assert (Ht : forall x, (exists a, a ∈ operands gt /\ touch c a x) -> used c x) by (intros x (a & Ha & T); exists k, o; split; [done|by eapply touch_oper]).
  destruct (vensure_all_ok h l c E given fuel (operands gt)) with (wog := wog) (s := st) as (g1 & w1 & s1 & E1 & S1 & H1); [|done|].
  { intros a Ha. by destruct (Hr a Ha) as (? & _ & ?). }
  assert (Hstep : write_pass1 h (write_single h fuel) (wog, acc) k st = (Ok (w1, acc ++ [(o, gt)]), s1)).
  { unfold write_pass1. unfold st_bind at 1. unfold w_circ. rewrite (vp_c _ _ _ _ _ Hp), E. unfold st_bind at 1. unfold c_output_to_gate_id, st_lift. rewrite Eo.
    unfold st_bind at 1. unfold c_get_gate. rewrite G. cbn [fst snd]. destruct gt; unfold st_bind, st_ret; cbn [operands] in E1; rewrite ?E1; try done.
    - by injection E1 as -> ->. - by injection E1 as -> ->. }
  split. { exists g1, w1, s1. split; [exact Hstep|]. eapply vstep_mono; [exact Ht|exact S1]. }
  intros b0 s e s' w st' Y Ex Em. rewrite Hstep in Em. injection Em as <- <-. cbn [fst].
  assert (exists s1, m_ensure_all h (m_write_single h fuel) (operands gt) (s, wog) = (Err (EIo e), s1) /\ s1 = s') as (s2 & Ee & ->).
  { unfold m_write_pass1 in Ex. unfold st_bind at 1 in Ex. unfold m_io, i_circ in Ex. cbn [fst snd] in Ex. rewrite (sy_c _ _ _ Y), (vp_c _ _ _ _ _ Hp), E in Ex.
    unfold st_bind at 1 in Ex. unfold c_output_to_gate_id, st_lift in Ex. rewrite Eo in Ex. unfold st_bind at 1 in Ex. unfold c_get_gate in Ex. rewrite G in Ex. cbv zeta in Ex.
    destruct gt; try done; cbn [operands]; unfold st_bind in Ex; (destruct (m_ensure_all _ _ _ _) as [[?|e2|?|] s2]; try done; injection Ex as -> ->; by eexists). }
  destruct (midway_ensures fuel (operands gt) Hr wog st Hp b0 s e s' w1 s1 Y Ee E1) as [K1 K2]. split; (eapply kept_mono; [exact Ht|done]).
Qed.
Lemma midway_pass1 fuel : (K + N.to_nat (gate_index c) < fuel)%nat -> forall ks wog st acc, (forall k, k ∈ ks -> k < output_len c) -> vpre l c given wog st ->
  midway (used c) fst wog st (st_foldM (m_write_pass1 h (m_write_single h fuel)) acc ks) (st_foldM (write_pass1 h (write_single h fuel)) (wog, acc) ks).
Proof using D CI E HK.
  intros Hf. induction ks as [|k r IH]; intros wog st acc Hks Hp; [apply midway_quiet, quiet_ret|].
  destruct (wf_outputs c W k) as (o & Eo & gt & G); [apply Hks; left|].
  destruct (pass1_step fuel wog st k o gt acc Hf Hp Eo G) as [(gls & w1 & st1 & E1 & S1) M1]. assert (Hp1 : vpre l c given w1 st1) by (by eapply vpre_step).
  cbn [st_foldM]. eapply (midway_bind (used c) isacc fst fst); [apply agree_pass1, agree_single|apply sim_pass1|unfold isacc; intros a w b Hb; by rewrite Hb|exact M1| |].
  - unfold isacc. intros a w b st' Em HR. rewrite E1 in Em. injection Em as <- <-. injection HR as <- <-. split; [by eapply kept_step|]. split.
    + apply IH; [intros; apply Hks; by right|done].
    + intros b' st2 Eb. destruct (vpass1_ok h D CI l c E given K HK fuel Hf r w1 st1 (acc ++ [(o, gt)])) as (g2 & w2 & s2 & outs & E2 & S2 & _); [intros; apply Hks; by right|done|].
      rewrite E2 in Eb. injection Eb as <- <-. by eapply kept_step.
  - intros [w a] st' _. by exists a, w.
Qed.
Lemma midway_pass2 fuel : (K + N.to_nat (gate_index c) < fuel)%nat -> forall ks outs, outs_of c ks outs -> forall wog st, vpre l c given wog st ->
  midway (used c) id wog st (st_iterM (m_write_pass2 (m_write_single h fuel)) outs) (st_foldM (write_pass2 (write_single h fuel)) wog outs).
Proof using D CI E HK.
  intros Hf ks outs F. induction F as [|k p ks outs [Eo G] F IH]; intros wog st Hp; [apply midway_quiet, quiet_ret|]. cbn [st_iterM st_foldM].
  assert (exists g1 w1 s1, write_pass2 (write_single h fuel) wog p st = (Ok w1, s1) /\ vstep h c given (used c) wog st g1 w1 s1) as (g1 & w1 & s1 & E1 & S1).
  { destruct (vpass2_ok h D CI l c E given K HK fuel Hf [k] [p] ltac:(constructor; [done|constructor]) wog st Hp) as (g1 & w1 & s1 & E1 & S1 & _).
    exists g1, w1, s1. split; [|done]. cbn [st_foldM] in E1. unfold st_bind in E1. destruct (write_pass2 _ wog p st) as [[?|?|?|] ?]; by injection E1 as -> ->. }
  eapply midway_seq; [apply agree_pass2, agree_single|apply sim_pass2| |exact E1|exact S1| |].
  - intros b0 s e s' w st' Y Ex Em. unfold m_write_pass2 in Ex. unfold st_bind at 1 in Ex. cbn [m_get fst snd] in Ex. unfold write_pass2 in Em.
    destruct (wog !! p.1) as [v|] eqn:Ew; [done|]. pose proof (gm_lt c _ _ W G).
    destruct (mclaim_ok p.1 fuel ltac:(lia) p.2 wog st G Hp ltac:(intros [v Hv]; congruence) b0 s e s' w st' Y Ex Em) as [K1 K2].
    split; (eapply kept_mono; [|done]); intros x T; by exists k, p.1.
  - apply IH. by eapply vpre_step.
  - intros b' st2 Eb. destruct (vpass2_ok h D CI l c E given K HK fuel Hf ks outs F w1 s1 ltac:(by eapply vpre_step)) as (g2 & w2 & s2 & E2 & S2 & _).
    rewrite E2 in Eb. injection Eb as <- <-. by eapply kept_step.
Qed.
(** The map after the inputs and the constants. *)
Lemma base_ok fuel sA sB sC sD w1 w2 : w_c sA = l -> w_c sC = l -> w_cow sC = ∅ ->
  write_inputs h (N.to_nat (input_len c) + size (input_map c) + 1) (write_single h (Datatypes.S fuel)) (N.to_nat (input_len c)) 0 given sA = (Ok w1, sB) ->
  st_foldM (write_const h) w1 (const_gates c) sC = (Ok w2, sD) ->
  vpre l c given w2 sD /\ (forall g, (forall gt, gate_map c !! g = Some gt -> is_logic gt = true \/ is_module gt = true) -> w2 !! g = given !! g).
Proof using D E.
  intros HcA HcC Hcow E1 E2.
  destruct (inputs_ok h l c W E (N.to_nat (input_len c)) fuel (N.to_nat (input_len c) + size (input_map c) + 1) 0 given sA) as (w1' & E1' & H1);
    [lia|done|lia|]. rewrite E1 in E1'. injection E1' as <- _.
  assert (Hcg : forall x, x ∈ const_gates c <-> const_at' c x).
  { intros x. rewrite (wf_consts c W), elem_of_list_In, filter_In, <- elem_of_list_In, elem_of_nrange. unfold const_at, const_at'. split.
    - intros [_ H]. destruct (gate_map c !! x) as [[]|]; try done. by eexists.
    - intros [b Gb]. rewrite Gb. split; [by eapply gm_lt|done]. }
  assert (Hcnd : NoDup (const_gates c)). { rewrite (wf_consts c W). apply NoDup_ListNoDup, List.NoDup_filter, NoDup_ListNoDup, NoDup_nrange. }
  destruct (vconsts_ok h l c E (const_gates c) w1 sC Hcnd HcC ltac:(intros x; by apply Hcg)) as (w2' & s4 & E2' & M2 & L2 & O2 & V2).
  rewrite E2 in E2'. injection E2' as <- <-.
  assert (Hin : forall g i, gate_map c !! g = Some (GInput i) -> has w2 g).
  { intros g i G. unfold has. rewrite O2; [|intros [b Gb]%Hcg; congruence]. rewrite H1, G. destruct (N.leb_spec 0 i); [by eexists|lia]. }
  assert (Hcon : forall g, g ∈ const_gates c -> has w2 g).
  { intros g Hg. apply elem_of_list_lookup in Hg as [j Hj]. destruct (V2 j g Hj) as [Hw _]. unfold has. rewrite Hw. by eexists. }
  assert (Hgate : forall g, (forall gt, gate_map c !! g = Some gt -> is_logic gt = true \/ is_module gt = true) -> w2 !! g = given !! g).
  { intros g Hk. rewrite O2. { rewrite H1. destruct (gate_map c !! g) as [[]|] eqn:G; try done. by destruct (Hk _ eq_refl). }
    intros [b Gb]%Hcg. by destruct (Hk _ Gb). }
  split; [|exact Hgate]. split.
  - by rewrite (em_c _ _ _ _ _ M2).
  - eapply cowinv_emit; [exact M2|]. intros w [b Hb]. rewrite Hcow, lookup_empty in Hb. done.
  - intros x Hx. destruct (gate_map c !! x) as [gt|] eqn:G.
    + destruct gt as [i|b| | | | |]; [by eapply Hin|apply Hcon, Hcg; by eexists|..]; unfold has; (rewrite Hgate; [exact Hx|]); intros gt' G'; rewrite G in G'; injection G' as <-; (by left) || (by right).
    + unfold has. rewrite Hgate; [exact Hx|]. intros gt' G'. congruence.
  - intros g gt G [Hk|[w ->] ].
    + destruct gt; try done. apply Hcon, Hcg. by eexists.
    + by eapply Hin.
Qed.
End circ.

Lemma bind_fail {S A B} (x : ST S A) (k : A -> ST S B) s e s' : st_bind x k s = (Err e, s') -> x s = (Err e, s') \/ exists a s1, x s = (Ok a, s1) /\ k a s1 = (Err e, s').
Proof. unfold st_bind. destruct (x s) as [[a|e'|p|] s1]; try done; [right; eauto|intros [= -> ->]; by left]. Qed.
Lemma bind_done {S A B} (x : ST S A) (k : A -> ST S B) s b s' : st_bind x k s = (Ok b, s') -> exists a s1, x s = (Ok a, s1) /\ k a s1 = (Ok b, s').
Proof. unfold st_bind. destruct (x s) as [[a|e'|p|] s1]; try done. eauto. Qed.
Lemma inputs_quiet h l c fuel n : hinv h -> h_circ h !! l = Some c -> forall k w s, i_c s.1 = l ->
  ~ io_err (fst (m_write_inputs h n (m_write_single h (Datatypes.S fuel)) k w s)).
Proof.
  intros Hi E. pose proof (hi_circ h Hi l c E) as W. induction n as [|n IH]; intros [|k] w s Hc; cbn [m_write_inputs]; try (by intros [e He]).
  intros [e He]. match type of He with fst ?X = _ => destruct X as [r s'] eqn:Eb end. cbn [fst] in He. subst r.
  apply bind_fail in Eb as [Eb|(c' & s1 & Ec & Eb)]; [destruct (quiet_circ h s); rewrite Eb; by exists e|].
  unfold m_io, i_circ in Ec. rewrite Hc, E in Ec. injection Ec as <- <-. destruct s as [s wog]. cbn [fst snd] in *.
  apply bind_fail in Eb as [Eb|(o & s1 & Eo & Eb)]; [destruct (quiet_in c w (s, wog)); rewrite Eb; by exists e|].
  unfold st_lift in Eo. injection Eo as Eo <-. destruct o as [id|]; [|apply (IH (Datatypes.S k) (w + 1) (s, wog) Hc); rewrite Eb; by exists e].
  apply bind_fail in Eb as [Eb|(g & s1 & Eg & Eb)]; [destruct (quiet_gate c id (s, wog)); rewrite Eb; by exists e|].
  unfold st_lift in Eg. injection Eg as Eg <-.
  assert (exists i, g = GInput i) as [i ->].
  { unfold c_input_to_gate_id in Eo. destruct (input_map c !! w) as [o|] eqn:Ei; [|done]. injection Eo as ->.
    assert (w < input_len c). { destruct (decide (w < input_len c)); [done|]. rewrite (wf_inputs_none c W) in Ei by lia. done. }
    destruct (wf_inputs c W w) as (g' & Ei' & G'); [done|]. rewrite Ei in Ei'. injection Ei' as ->. unfold c_get_gate in Eg. rewrite G' in Eg. injection Eg as <-. by eexists. }
  apply bind_fail in Eb as [Eb|([] & s1 & Eu & Eb)]; [done|].
  assert (i_c s1.1 = l) by (by injection Eu as <-). apply (IH k (w + 1) s1); [done|]. rewrite Eb. by exists e.
Qed.
(** The state of a writer on a perfect sink. *)
Definition perfect (s : istate) : wstate := WState (i_c s) (i_num s) (i_const s) [] (i_cow s).
Lemma perfect_sync s : (String.length (b_buf (i_bw s)) <= b_cap (i_bw s))%nat -> sync (i_bw s) (perfect s) s.
Proof.
  intros Hb. split; cbn; [done|done|done|done|done|done|apply sprefix_refl|by rewrite sapp_nil|by exists []|]. intros _. split; [done|]. split; [done|]. by rewrite sapp_nil.
Qed.
Lemma io_step {A B A' B'} given wog (R : A -> wmap -> B -> Prop) (x : MM A) m mi (k : A -> MM A') (km : B -> WM B') b0 st s e s' b st' : agree wog R x mi -> sim eq m mi ->
  sync b0 st s -> given = wog -> leaves x -> st_bind x k (s, wog) = (Err (EIo e), s') -> st_bind m km st = (Ok b, st') ->
  s'.2 = given \/ exists a w1 b1 s1 st1, R a w1 b1 /\ m st = (Ok b1, st1) /\ sync b0 st1 s1 /\ k a (s1, w1) = (Err (EIo e), s') /\ km b1 st1 = (Ok b, st').
Proof.
  intros Ha Hs Y -> Hl Ex Em. apply bind_done in Em as (b1 & st1 & E1 & Em). apply bind_fail in Ex as [Ex|(a & [s1 w1] & Ex1 & Ex)].
  - left. specialize (Hl (s, wog)). by rewrite Ex in Hl.
  - right. destruct (same_ok wog R x m mi b0 st s a (s1, w1) Ha Hs Y Ex1) as (b2 & st2 & E2 & HR & Y2). rewrite E1 in E2. injection E2 as <- <-. by exists a, w1, b1, s1, st1.
Qed.
Lemma write_map_fail h l c : dinv h -> cinv h -> h_circ h !! l = Some c ->
  exists F, forall fuel s first given k s' r st', (F <= fuel)%nat -> i_c s = l -> (String.length (b_buf (i_bw s)) <= b_cap (i_bw s))%nat ->
    write_map h fuel first (s, given) = (Err (EIo k), s') -> write h fuel first given (perfect s) = (Ok r, st') ->
    s'.2 = given \/ exists w2 st2, vpre l c given w2 st2 /\
      (forall g, (forall gt, gate_map c !! g = Some gt -> is_logic gt = true \/ is_module gt = true) -> w2 !! g = given !! g) /\
      kept c (used c) w2 s'.2 /\ kept c (used c) s'.2 r.2.
Proof.
  intros D CI E. destruct (depth_of_calls h l c D CI E) as [K HK]. pose proof (hi_circ h (di_inv h D) l c E) as W.
  exists (K + N.to_nat (gate_index c) + 2)%nat. intros fuel s first given k s' r st' Hf Hc Hb Ex Em. destruct fuel as [|fuel]; [lia|].
  pose proof (perfect_sync s Hb) as Y. set (b0 := i_bw s) in *. clearbody b0. unfold write_map in Ex. unfold write in Em.
  assert (w_c (perfect s) = l) as Hcw by exact Hc. generalize dependent (perfect s). intros st Em Y Hcw.
  destruct (io_step given given (plain given) _ _ _ _ _ b0 _ _ _ _ _ _ (agree_io given _) (sim_circ h) Y eq_refl (leaves_io _) Ex Em) as [?|(c1 & w1 & c1' & s1 & st1 & [-> ->] & Ec & Y1 & Ex1 & Em1)]; [by left|].
  unfold w_circ in Ec. rewrite Hcw, E in Ec. injection Ec as <- <-. cbv zeta in Ex1, Em1. clear Ex Em.
  destruct (io_step given given (plain given) _ _ _ _ _ b0 _ _ _ _ _ _ (agree_io given _) (sim_put _) Y1 eq_refl (leaves_io _) Ex1 Em1) as [?|(? & w1 & ? & s2 & st2 & [_ ->] & Ec & Y2 & Ex2 & Em2)]; [by left|].
  injection Ec as <- <-. clear Ex1 Em1.
  destruct (N.leb_spec first (input_len c + num_const c)) as [Hfirst|]; [|done].
  unfold st_bind at 1 in Ex2. unfold st_bind at 1 in Em2. cbn [st_ret] in Ex2, Em2.
  destruct (io_step given given (plain given) _ _ _ _ _ b0 _ _ _ _ _ _ (agree_io given _) (sim_put _) Y2 eq_refl (leaves_io _) Ex2 Em2) as [?|(? & w1 & ? & s3 & st3 & [_ ->] & Ec & Y3 & Ex3 & Em3)]; [by left|].
  injection Ec as <- <-. clear Ex2 Em2.
  destruct (io_step given given (plain given) _ _ _ _ _ b0 _ _ _ _ _ _ (agree_io given _) (sim_put _) Y3 eq_refl (leaves_io _) Ex3 Em3) as [?|(? & w1 & ? & s4 & st4 & [_ ->] & Ec & Y4 & Ex4 & Em4)]; [by left|].
  injection Ec as <- <-. clear Ex3 Em3.
  destruct (io_step given given (plain given) _ _ _ _ _ b0 _ _ _ _ _ _ (agree_io given _) (sim_put _) Y4 eq_refl (leaves_io _) Ex4 Em4) as [?|(? & w1 & ? & s5 & st5 & [_ ->] & Ec & Y5 & Ex5 & Em5)]; [by left|].
  injection Ec as <- <-. clear Ex4 Em4.
  destruct (io_step given given (plain given) _ _ _ _ _ b0 _ _ _ _ _ _ (agree_io given _) (sim_set_cow _) Y5 eq_refl (leaves_io _) Ex5 Em5) as [?|(? & w1 & ? & s6 & st6 & [_ ->] & Ec & Y6 & Ex6 & Em6)]; [by left|].
  injection Ec as <- Ec. clear Ex5 Em5. assert (w_c st6 = l) as Hc6 by (by rewrite <- Ec). clear Y1 Y2 Y3 Y4 Y5.
  assert (w_cow st6 = ∅) as Hw6 by (by rewrite <- Ec). clear Ec.
  apply bind_done in Em6 as (wA & stA & EA & Em6). apply bind_fail in Ex6 as [Ex6|([] & [sA wA'] & ExA & Ex6)].
  { exfalso. eapply (inputs_quiet h l c fuel _ (di_inv h D) E _ _ (s6, given)); [|rewrite Ex6; by exists k]. cbn. by rewrite (sy_c _ _ _ Y6). }
  destruct (same_ok _ _ _ _ _ b0 _ _ _ _ (agree_inputs h _ _ _ _ _) (sim_inputs h _ _ _ _ _) Y6 ExA) as (wA2 & stA2 & EA2 & HwA & YA). rewrite EA in EA2. injection EA2 as <- <-.
  unfold ismap in HwA. cbn [snd] in HwA. subst wA'. cbn [fst] in YA.
  apply bind_fail in Ex6 as [Ex6|([] & [sB wB] & ExB & Ex7)]; [done|]. apply bind_done in Em6 as ([] & stB & EB & Em7).
  destruct (same_ok _ _ _ _ _ b0 _ _ _ _ (agree_io wA _) (sim_set_const _) YA ExB) as (? & ? & EB2 & [_ HwB] & YB). rewrite EB in EB2. injection EB2 as <- <-. cbn [fst snd] in *. subst wB.
  unfold st_bind at 1 in Ex7. cbn [m_io i_get fst snd] in Ex7. unfold st_bind at 1 in Em7. cbn [w_get] in Em7.
  rewrite (sy_num _ _ _ YB) in Ex7.
  apply bind_fail in Ex7 as [Ex7|([] & [sC wC] & ExC & Ex7)]; [done|]. apply bind_done in Em7 as ([] & stC & EC & Em7).
  destruct (same_ok _ _ _ _ _ b0 _ _ _ _ (agree_io wA _) (sim_set_num _) YB ExC) as (? & ? & EC2 & [_ HwC] & YC). rewrite EC in EC2. injection EC2 as <- <-. cbn [fst snd] in *. subst wC.
  apply bind_done in Em7 as (wF & stF & EF & Em8).
  assert (w_c stA = l /\ w_cow stA = ∅) as [HcA HwA].
  { destruct (inputs_ok h l c W E (N.to_nat (input_len c)) fuel (N.to_nat (input_len c) + size (input_map c) + 1) 0 given st6) as (w1' & E1' & H1);
      [lia|done|lia|]. rewrite EA in E1'. injection E1' as _ ->. by split. }
  assert (w_c stC = l /\ w_cow stC = ∅) as [HcC HwC]. { injection EB as <-. injection EC as <-. by split. }
  unfold write_all in EF. apply bind_done in EF as (c1 & stC' & Ec & EF). unfold w_circ in Ec. rewrite HcC, E in Ec. injection Ec as <- <-.
  apply bind_done in EF as (wD & stD & ED & EF). apply bind_done in EF as ([wE outs] & stE & EE & EF).
  destruct (base_ok h D l c E given fuel st6 stA stC stD wA wD Hc6 HcC HwC EA ED) as [Hp Hsame].
  destruct (vpass1_ok h D CI l c E given K HK (Datatypes.S fuel) ltac:(lia) (nrange (output_len c)) wD stD []) as (g2 & w3 & s5' & outs' & E3 & S3 & F3);
    [intros y Hy; by apply elem_of_nrange in Hy|done|].
  rewrite EE in E3. injection E3 as <- Eo <-. cbn [app] in Eo. subst outs'.
  assert (Hp3 : vpre l c given wE stE) by (by eapply vpre_step).
  destruct (vpass2_ok h D CI l c E given K HK (Datatypes.S fuel) ltac:(lia) _ outs F3 wE stE Hp3) as (g3 & w4 & s6' & E4 & S4 & H4).
  rewrite EF in E4. injection E4 as <- <-.
  assert (r.2 = wF) as ->.
  { apply bind_done in Em8 as (? & ? & _ & Em8). apply bind_done in Em8 as (vals & ? & _ & Em8). by injection Em8 as <- <-. }
  right. exists wD, stD. split; [exact Hp|]. split; [exact Hsame|].
  apply bind_fail in Ex7 as [Ex7|([] & [sF wF'] & ExF & Ex8)].
  2:{ exfalso. apply bind_fail in Ex8 as [Ex8|(st9 & s9 & Ex9 & Ex8)]; [done|]. clear - Ex8. unfold m_io in Ex8. 
    assert (forall (m : gmap N bool) xs z e z', st_mapM (i_key m) xs z = (Err e, z') -> False) as Hno.
    { intros m. induction xs as [|x xs IH]; intros z e z' Hz; [done|]. cbn [st_mapM] in Hz. apply bind_fail in Hz as [Hz|(a & z1 & _ & Hz)].
      - unfold i_key in Hz. by destruct (m !! x). - apply bind_fail in Hz as [Hz|(b & z2 & _ & Hz)]; [by eapply IH|done]. }
    destruct (st_mapM _ _ _) as [r1 z1] eqn:Ez. injection Ex8 as -> _. by eapply Hno. }
  unfold m_write_all in Ex7. apply bind_fail in Ex7 as [Ex7|(c2 & s9 & Ex9 & Ex7)]; [exfalso; eapply quiet_circ; rewrite Ex7; by exists k|].
  unfold m_io, i_circ in Ex9. cbn [fst snd] in Ex9. rewrite (sy_c _ _ _ YC), HcC, E in Ex9. injection Ex9 as <- <-.
  apply bind_fail in Ex7 as [Ex7|([] & [sD wD'] & ExD & Ex7)]; [exfalso; eapply (quiet_iter _ _ (quiet_const h)); rewrite Ex7; by exists k|].
  destruct (same_ok _ _ _ _ _ b0 _ _ _ _ (agree_iter _ _ _ (fun wog a => agree_const h wog a) wA) (sim_foldM _ _ _ (fun wog a => sim_const h wog a) wA) YC ExD) as (? & ? & ED2 & HwD & YD).
  unfold c_get_const_gates in ED, ED2. rewrite ED in ED2. injection ED2 as <- <-. unfold ismap in HwD. cbn [fst snd] in *. subst wD'.
  apply bind_fail in Ex7 as [Ex7|(outs2 & [sE wE'] & ExE & Ex7)].
  { destruct (midway_pass1 h D CI l c E given K HK (Datatypes.S fuel) ltac:(lia) (nrange (output_len c)) wD stD [] ltac:(intros y Hy; by apply elem_of_nrange in Hy) Hp b0 sD k s' _ _ YD Ex7 EE) as [K1 K2].
    split; [exact K1|]. eapply kept_trans; [exact K2|]. by eapply kept_step. }
  destruct (same_ok _ _ _ _ _ b0 _ _ _ _ (agree_pass1s h _ _ (agree_single h _) _ [] wD) (sim_foldM _ _ _ (fun acc i => sim_pass1 h (Datatypes.S fuel) acc i) (wD, [])) YD ExE) as (? & ? & EE2 & HwE & YE).
  rewrite EE in EE2. injection EE2 as <- <-. unfold isacc in HwE. injection HwE as Hw1 Hw2. cbn [fst snd] in *. subst wE' outs2.
  destruct (midway_pass2 h D CI l c E given K HK (Datatypes.S fuel) ltac:(lia) _ outs F3 wE stE Hp3 b0 sE k s' _ _ YE Ex7 EF) as [K1 K2].
  split; [|exact K2]. eapply kept_trans; [|exact K1]. by eapply kept_step.
Qed.

(** * The wires in the map *)
Lemma bw_res t b r b' : bw_write_all t b = (r, b') -> r = Ok tt \/ exists k, r = Err (EIo k).
Proof.
  unfold bw_write_all. destruct (_ <? _)%nat; [intros [= <- _]; by left|]. destruct (if (_ <? _)%nat then _ else _) as [r1 b1] eqn:E1.
  assert (r1 = Ok tt \/ exists k, r1 = Err (EIo k)) as Hr1.
  { destruct (_ <? _)%nat; [|injection E1 as <- <-; by left]. destruct (flush_buf_spec _ _ _ E1) as (_ & _ & _ & _ & u & _ & [(-> & _)|[? _] ]); [by left|by right]. }
  destruct Hr1 as [-> |[k ->] ]; [|intros [= <- _]; right; by exists k]. destruct (_ <=? _)%nat; [|intros [= <- _]; by left].
  destruct (push_all _ _ _) as [[[r2 ?] ?] ?] eqn:E2. intros [= <- _]. destruct (push_all_spec _ _ _ _ _ _ _ E2) as (_ & _ & _ & u & _ & [(-> & _)|[? _] ]); [by left|by right].
Qed.
Definition room (s : istate) : Prop := (String.length (b_buf (i_bw s)) <= b_cap (i_bw s))%nat.
(** Each wire of the map is one that [G] has, or was handed out. *)
Definition backed (G : N -> Prop) (s : istate) (m : wmap) : Prop := forall g v, m !! g = Some v -> G v \/ v < i_num s \/ v < i_const s.
Definition adv (s s' : istate) : Prop := i_num s <= i_num s' /\ i_const s <= i_const s' /\ (room s -> room s').
Lemma adv_refl s : adv s s. Proof. split; [lia|]. split; [lia|done]. Qed.
Lemma adv_trans a b d : adv a b -> adv b d -> adv a d.
Proof. intros (?&?&?) (?&?&?). split; [lia|]. split; [lia|auto]. Qed.
Lemma backed_adv G s s' m : adv s s' -> backed G s m -> backed G s' m.
Proof. intros (?&?&?) B g v Hv. destruct (B g v Hv) as [?|[?|?] ]; [by left|right; left; lia|right; right; lia]. Qed.
Lemma backed_insert G s m g v : backed G s m -> G v \/ v < i_num s \/ v < i_const s -> backed G s (<[g := v]> m).
Proof. intros B Hv x w Hw. destruct (decide (x = g)) as [->|Hn]; [rewrite lookup_insert in Hw; by injection Hw as <-|]. rewrite lookup_insert_ne in Hw by done. by eapply B. Qed.
(** The gate whose line could not be written has an entry all the same, and its wire is the next to be handed out. *)
Definition lost (G : N -> Prop) (l : nat) (c : circuit) (s : istate) (m : wmap) : Prop := i_c s = l /\
  exists g gt m0, gate_map c !! g = Some gt /\ is_logic gt = true /\ m = <[g := i_num s]> m0 /\ backed G s m0.
Definition hasmod (c : circuit) : Prop := exists g gt, gate_map c !! g = Some gt /\ is_module gt = true.
Definition wired {A} (G : N -> Prop) (l : nat) (c : circuit) (Q : A -> Prop) (x : MM A) : Prop := forall s m r s' m',
  i_c s = l -> backed G s m -> x (s, m) = (r, (s', m')) -> adv s s' /\
  match r with Ok a => backed G s' m' /\ i_c s' = l /\ Q a | _ => backed G s' m' /\ (io_err r -> hasmod c) \/ io_err r /\ lost G l c s' m' end.
Section wires.
Context (h : heap) (G : N -> Prop).
Lemma wired_bind {A B} l c Q R (x : MM A) (k : A -> MM B) : wired G l c Q x -> (forall a, Q a -> wired G l c R (k a)) -> wired G l c R (st_bind x k).
Proof.
  intros Hx Hk s m r s' m' Hc Hb Ex. unfold st_bind in Ex. destruct (x (s, m)) as [r1 [s1 m1]] eqn:E1. destruct (Hx s m r1 s1 m1 Hc Hb E1) as [A1 H1].
  destruct r1 as [a|e|p|].
  - destruct H1 as (B1 & C1 & Q1). destruct (Hk a Q1 s1 m1 r s' m' C1 B1 Ex) as [A2 H2]. split; [by eapply adv_trans|done].
  - injection Ex as <- <- <-. split; [done|]. destruct H1 as [[B1 M1]|[[k' Hk'] L1] ]; [left|right].
    + split; [done|]. intros [k' Hk']. injection Hk' as ->. apply M1. by exists k'.
    + split; [|done]. injection Hk' as ->. by exists k'.
  - injection Ex as <- <- <-. split; [done|]. left. destruct H1 as [[B1 _]|[[k' Hk'] _] ]; [|done]. split; [done|by intros [k' Hk'] ].
  - injection Ex as <- <- <-. split; [done|]. left. destruct H1 as [[B1 _]|[[k' Hk'] _] ]; [|done]. split; [done|by intros [k' Hk'] ].
Qed.
Lemma wired_mono {A} l c (Q R : A -> Prop) (x : MM A) : (forall a, Q a -> R a) -> wired G l c Q x -> wired G l c R x.
Proof. intros H Hx s m r s' m' Hc Hb Ex. destruct (Hx s m r s' m' Hc Hb Ex) as [A1 H1]. split; [done|]. destruct r as [a| | |]; try done. destruct H1 as (?&?&?); auto. Qed.
(** Steps that change nothing. *)
Lemma wired_same {A} l c (Q : A -> Prop) (x : MM A) : (forall s m, i_c s = l -> exists r, x (s, m) = (r, (s, m)) /\ ~ io_err r /\ forall a, r = Ok a -> Q a) -> wired G l c Q x.
Proof.
  intros H s m r s' m' Hc Hb Ex. destruct (H s m Hc) as (r1 & E1 & Hq & HQ). rewrite E1 in Ex. injection Ex as -> <- <-. split; [apply adv_refl|].
  destruct r as [a| | |]; [split; [done|]; split; [done|]; by apply HQ|left; by split..].
Qed.
Lemma wired_ret {A} l c (Q : A -> Prop) a : Q a -> wired G l c Q (st_ret a).
Proof. intros HQ. apply wired_same. intros s m _. exists (Ok a). split; [done|]. split; [by intros [k Hk]|]. by intros ? [= <-]. Qed.
Lemma wired_lift {A} l c (r : res A) : ~ io_err r -> wired G l c (fun a => r = Ok a) (st_lift r).
Proof. intros Hr. apply wired_same. intros s m _. exists r. by split. Qed.
Lemma wired_circ l c : h_circ h !! l = Some c -> wired G l c (fun a => a = c) (m_io (i_circ h)).
Proof. intros E. apply wired_same. intros s m Hc. unfold m_io, i_circ. cbn [fst snd]. rewrite Hc, E. exists (Ok c). split; [done|]. split; [by intros [k Hk]|]. by intros ? [= <-]. Qed.
Lemma gate_quiet c id : ~ io_err (c_get_gate c id).
Proof. unfold c_get_gate. intros [k Hk]. destruct (gate_map c !! id); done. Qed.
Lemma out_quiet c id : ~ io_err (c_output_to_gate_id c id).
Proof. unfold c_output_to_gate_id. intros [k Hk]. destruct (output_map c !! id); done. Qed.
Lemma wired_gate l c id : wired G l c (fun g => gate_map c !! id = Some g) (st_lift (c_get_gate c id)).
Proof. eapply wired_mono; [|apply wired_lift, gate_quiet]. intros g. unfold c_get_gate. destruct (gate_map c !! id); [by intros [= ->]|done]. Qed.
Lemma wired_igate l c id : h_circ h !! l = Some c -> wired G l c (fun g => gate_map c !! id = Some g) (m_io (i_gate h id)).
Proof.
  intros E. apply wired_same. intros s m Hc. unfold m_io, i_gate, st_bind, i_circ. cbn [fst snd]. rewrite Hc, E. unfold st_lift. exists (c_get_gate c id).
  split; [done|]. split; [apply gate_quiet|]. unfold c_get_gate. intros g. destruct (gate_map c !! id); [by intros [= ->]|done].
Qed.
Lemma wired_iter {A} l c (x : A -> MM unit) (P : A -> Prop) xs : Forall P xs -> (forall a, P a -> wired G l c (fun _ => True) (x a)) -> wired G l c (fun _ => True) (st_iterM x xs).
Proof. intros HF H. induction HF as [|a xs Pa HF IH]; cbn [st_iterM]; [by apply wired_ret|]. eapply wired_bind; [by apply H|by intros]. Qed.
(** [update_wire] *)
Lemma wired_update l c id g ws str : gate_map c !! id = Some g -> is_logic g = true \/ ws = None -> wired G l c (fun _ => True) (m_update_wire id ws str).
Proof.
  intros Hg Hl s m r s' m' Hc Hb Ex. unfold m_update_wire in Ex. cbv beta iota delta [st_bind m_io i_get m_insert fst snd] in Ex. destruct ws as [ws|].
  - destruct Hl as [Hl|?]; [|done]. unfold i_put in Ex at 1. destruct (bw_write_all _ _) as [r1 b1] eqn:Ew.
    assert (room s -> (String.length (b_buf b1) <= b_cap b1)%nat) as Hs. { intros Hr. destruct (bw_write_all_spec _ _ _ _ Hr Ew). by rewrite sk_cap. }
    destruct (bw_res _ _ _ _ Ew) as [-> |[k ->] ].
    + unfold i_set_num in Ex. cbn in Ex. injection Ex as <- <- <-. cbn. split; [split; [cbn; lia|]; split; [cbn; lia|]; exact Hs|].
      split; [|done]. apply backed_insert; [|cbn; right; left; lia]. eapply backed_adv; [|exact Hb]. split; [cbn; lia|]. split; [cbn; lia|]. exact Hs.
    + injection Ex as <- <- <-. assert (adv s {| i_c := i_c s; i_num := i_num s; i_const := i_const s; i_bw := b1; i_cow := i_cow s |}).
      { split; [cbn; lia|]. split; [cbn; lia|]. exact Hs. }
      split; [done|]. right. split; [by exists k|]. split; [done|]. exists id, g, m. split; [done|]. split; [done|]. split; [done|]. by eapply backed_adv.
  - unfold i_set_num in Ex. cbn in Ex. injection Ex as <- <- <-. assert (adv s {| i_c := i_c s; i_num := i_num s + 1; i_const := i_const s; i_bw := i_bw s; i_cow := i_cow s |}).
    { split; [cbn; lia|]. split; [cbn; lia|]. done. }
    split; [done|]. split; [|done]. apply backed_insert; [|cbn; right; left; lia]. by eapply backed_adv.
Qed.
Lemma wired_const l c id : h_circ h !! l = Some c -> wired G l c (fun _ => True) (m_write_const h id).
Proof.
  intros E. unfold m_write_const. eapply wired_bind; [by apply wired_igate|]. intros g _. destruct g; try by apply wired_ret.
  intros s m r s' m' Hc Hb Ex. cbn in Ex. injection Ex as <- <- <-. split; [split; [cbn; lia|]; split; [cbn; lia|done]|]. split; [|done].
  apply backed_insert; [|cbn; right; right; lia]. eapply backed_adv; [|exact Hb]. split; [cbn; lia|]. split; [cbn; lia|done].
Qed.
Definition swired (x : N -> gate -> MM unit) : Prop := forall l c id g, h_circ h !! l = Some c -> gate_map c !! id = Some g -> wired G l c (fun _ => True) (x id g).
Section rec.
Context (x : N -> gate -> MM unit) (Hx : swired x).
Lemma wired_ensure l c id : h_circ h !! l = Some c -> wired G l c (fun _ => True) (m_ensure h x id).
Proof using Hx.
  intros E. unfold m_ensure. eapply (wired_bind _ _ (fun _ => True)).
  { apply wired_same. intros s m _. eexists. split; [done|]. split; [by intros [k Hk]|done]. }
  intros [v|] _; [by apply wired_ret|]. eapply wired_bind; [by apply wired_igate|]. intros g Hg. by eapply Hx.
Qed.
Lemma wired_ensures l c ids : h_circ h !! l = Some c -> wired G l c (fun _ => True) (m_ensure_all h x ids).
Proof using Hx. intros E. unfold m_ensure_all. apply (wired_iter l c _ (fun _ => True)); [by apply Forall_true|]. intros. by apply wired_ensure. Qed.
Definition held (c : circuit) (acc : list (N * gate)) : Prop := Forall (fun p => gate_map c !! p.1 = Some p.2) acc.
Lemma wired_pass1 l c acc i : h_circ h !! l = Some c -> held c acc -> wired G l c (held c) (m_write_pass1 h x acc i).
Proof using Hx.
  intros E Ha. unfold m_write_pass1. eapply wired_bind; [by apply wired_circ|]. intros c' ->. eapply (wired_bind _ _ (fun _ => True)); [eapply wired_mono; [|apply wired_lift, out_quiet]; done|].
  intros id _. eapply wired_bind; [apply wired_gate|]. intros g Hg. cbv zeta. assert (held c (acc ++ [(id, g)])) by (apply Forall_app; split; [done|by constructor]).
  destruct g; try (by apply wired_ret); (eapply wired_bind; [by apply wired_ensures|intros _ _; by apply wired_ret]).
Qed.
Lemma wired_pass1s l c is : h_circ h !! l = Some c -> forall acc, held c acc -> wired G l c (held c) (st_foldM (m_write_pass1 h x) acc is).
Proof using Hx.
  intros E. induction is as [|i is IH]; intros acc Ha; cbn [st_foldM]; [by apply wired_ret|]. eapply wired_bind; [by apply wired_pass1|]. intros a Hb. by apply IH.
Qed.
Lemma wired_all l c : h_circ h !! l = Some c -> wired G l c (fun _ => True) (m_write_all h x).
Proof using Hx.
  intros E. unfold m_write_all. eapply wired_bind; [by apply wired_circ|]. intros c' ->. eapply (wired_bind _ _ (fun _ => True)).
  { apply (wired_iter l c _ (fun _ => True)); [by apply Forall_true|]. intros. by apply wired_const. }
  intros _ _. eapply wired_bind; [apply wired_pass1s; [done|constructor]|]. intros outs Ho. eapply wired_iter; [exact Ho|]. intros [id g] Hg. cbn [fst snd] in Hg.
  unfold m_write_pass2. eapply (wired_bind _ _ (fun _ => True)).
  { apply wired_same. intros s m _. eexists. split; [done|]. split; [by intros [k Hk]|done]. }
  intros [v|] _; [by apply wired_ret|]. by eapply Hx.
Qed.
(** A call. *)
Lemma args_same m fuel : forall ids w new s wog, exists r, m_bind_args fuel m ids w new (s, wog) = (r, (s, wog)) /\ ~ io_err r /\
  forall new', backed G s wog -> backed G s new -> r = Ok new' -> backed G s new'.
Proof using.
  induction fuel as [|f IH]; intros [|id ids] w new s wog; cbn [m_bind_args].
  1,3: (exists (Ok new); split; [done|]; split; [by intros [k Hk]|]; by intros new' _ Hb [= <-]).
  - exists NoFuel. split; [done|]. split; [by intros [k Hk]|done].
  - unfold st_bind at 1. unfold st_lift. destruct (c_input_to_gate_id m w) as [o|e|p|] eqn:Eo.
    2-4: eexists; (split; [done|]); split; [|done]; intros [k Hk]; unfold c_input_to_gate_id in Eo; destruct (input_map m !! w); done || (injection Eo as <-; done).
    destruct o as [g|]; [|apply IH]. unfold st_bind, m_key. cbn [snd]. destruct (wog !! id) as [v|] eqn:Ev.
    + destruct (IH ids (w + 1) (<[g := v]> new) s wog) as (r & Er & Hr & Hb). exists r. split; [done|]. split; [done|]. intros new' B1 B2. apply Hb; [done|].
      apply backed_insert; [done|]. by eapply B1.
    + exists (Panic PKey). split; [done|]. split; [by intros [k Hk]|done].
Qed.
Lemma wired_copies l m new first is s wog r s' m' : i_c s = l -> backed G s new -> backed G s wog -> st_iterM (m_copy_out m new first) is (s, wog) = (r, (s', m')) ->
  s' = s /\ backed G s m' /\ ~ io_err r.
Proof using.
  intros Hc Hn. revert wog. induction is as [|i is IH]; intros wog Hb Ex; cbn [st_iterM] in Ex.
  { injection Ex as <- <- <-. split; [done|]. split; [done|]. by intros [k Hk]. }
  unfold st_bind at 1 in Ex. unfold m_copy_out at 1 in Ex. unfold st_bind at 1, st_lift in Ex. pose proof (out_quiet m i) as Q.
  destruct (c_output_to_gate_id m i) as [o|e|p|] eqn:Eo.
  2-4: injection Ex as <- <- <-; split; [done|]; split; [done|]; intros [k Hk]; apply Q; exists k; congruence.
  unfold st_bind, m_io, i_key in Ex. cbn [fst snd] in Ex. destruct (new !! o) as [v|] eqn:Ev.
  - cbn [m_insert fst snd] in Ex. apply (IH (<[first + i := v]> wog)); [|done]. apply backed_insert; [done|]. by eapply Hn.
  - injection Ex as <- <- <-. split; [done|]. split; [done|]. by intros [k Hk].
Qed.
Lemma wired_body l c id g : h_circ h !! l = Some c -> gate_map c !! id = Some g -> wired G l c (fun _ => True) (m_single_body h x id g).
Proof using Hx.
  intros E Hg. assert (Hkey : forall a, wired G l c (fun _ => True) (m_key a)).
  { intros a. apply wired_same. intros s m _. unfold m_key. cbn [snd]. destruct (m !! a); eexists; (split; [done|]); split; try done; by intros [k Hk]. }
  unfold m_single_body. destruct g as [i|b|a|a b|a b|a b|il ol ids oi mid].
  - eapply wired_update; [exact Hg|by right].
  - by apply wired_ret.
  - eapply wired_bind; [by apply wired_ensures|intros _ _]. eapply wired_bind; [apply Hkey|intros v _]. eapply wired_update; [exact Hg|by left].
  - eapply wired_bind; [by apply wired_ensures|intros _ _]. eapply wired_bind; [apply Hkey|intros v _]. eapply wired_bind; [apply Hkey|intros v' _]. eapply wired_update; [exact Hg|by left].
  - eapply wired_bind; [by apply wired_ensures|intros _ _]. eapply wired_bind; [apply Hkey|intros v _]. eapply wired_bind; [apply Hkey|intros v' _]. eapply wired_update; [exact Hg|by left].
  - eapply wired_bind; [by apply wired_ensures|intros _ _]. eapply wired_bind; [apply Hkey|intros v _]. eapply wired_bind; [apply Hkey|intros v' _]. eapply wired_update; [exact Hg|by left].
  - eapply wired_bind; [by apply wired_ensures|intros _ _]. eapply wired_bind; [by apply wired_circ|]. intros c' ->.
    eapply (wired_bind _ _ (fun _ => True)).
    { apply wired_same. intros s m _. destruct (h_stor h !! c_storage c) as [y|]; [destruct (module_map y !! mid)|]; eexists; (split; [done|]); split; try done; by intros [k Hk]. }
    intros l' _. eapply (wired_bind _ _ (fun m => h_circ h !! l' = Some m)).
    { apply wired_same. intros s m _. destruct (h_circ h !! l') as [m1|]; eexists; (split; [done|]); (split; [by intros [k Hk]|]); [by intros ? [= <-]|done]. }
    intros mm El'. intros s wog r s' m' Hc Hb Ex. unfold st_bind at 1 in Ex.
    destruct (args_same mm (List.length ids + size (input_map mm) + 1) ids 0 ∅ s wog) as (r1 & E1 & Q1 & B1). rewrite E1 in Ex.
    destruct r1 as [new|e|p|].
    2-4: injection Ex as <- <- <-; split; [apply adv_refl|]; left; split; [done|]; intros [k Hk]; exfalso; apply Q1; exists k; congruence.
    assert (Hn : backed G s new) by (apply B1; [done|intros ?? Hv; by rewrite lookup_empty in Hv|done]).
    unfold st_bind at 1 in Ex. cbn [m_io i_get fst snd] in Ex. unfold st_bind at 1 in Ex. cbn [m_io i_set_c fst snd] in Ex. unfold st_bind at 1 in Ex. unfold m_frame in Ex. cbn [fst snd] in Ex.
    set (s1 := {| i_c := l'; i_num := i_num s; i_const := i_const s; i_bw := i_bw s; i_cow := i_cow s |}) in *.
    assert (Hs1 : adv s s1) by (split; [cbn; lia|]; split; [cbn; lia|done]).
    destruct (m_write_all h x (s1, new)) as [r2 [s2 new2]] eqn:E2.
    destruct (wired_all l' mm El' s1 new r2 s2 new2 eq_refl (backed_adv _ _ _ _ Hs1 Hn) E2) as [A2 H2]. cbn [fst snd] in Ex.
    assert (Hs2 : adv s s2) by (by eapply adv_trans). assert (hasmod c) by (eexists id, _; split; [exact Hg|done]).
    destruct r2 as [[]|e|p|]; cbn [fst snd] in Ex.
    2-4: injection Ex as <- <- <-; split; [done|]; left; split; [by eapply backed_adv|done].
    destruct H2 as (B2 & _ & _). unfold st_bind at 1 in Ex. cbn [m_io i_set_c fst snd] in Ex.
    set (s3 := {| i_c := i_c s; i_num := i_num s2; i_const := i_const s2; i_bw := i_bw s2; i_cow := i_cow s2 |}) in *.
    assert (Hs3 : adv s2 s3) by (split; [cbn; lia|]; split; [cbn; lia|done]).
    destruct (wired_copies l mm new2 (id - oi) (nrange ol) s3 wog r s' m') as (-> & B3 & Q3); [by cbn|by eapply backed_adv|apply (backed_adv _ s); [by eapply adv_trans|done]|done|].
    split; [by eapply adv_trans|]. destruct r; [by split|left; split; done..].
Qed.
End rec.
Lemma wired_single fuel : swired (m_write_single h fuel).
Proof using. induction fuel as [|f IH]; intros l c id g E Hg; [|by apply wired_body]. apply wired_same. intros s m _. exists NoFuel. split; [done|]. split; [by intros [k Hk]|done]. Qed.
End wires.
(** Before the constants the wires are below the counter of the other wires. *)
Definition backed_num (G : N -> Prop) (s : istate) (m : wmap) : Prop := forall g v, m !! g = Some v -> G v \/ v < i_num s.
Definition same_bw (s s' : istate) : Prop := i_num s <= i_num s' /\ (room s -> room s') /\ i_c s' = i_c s.
Lemma same_bw_trans a b d : same_bw a b -> same_bw b d -> same_bw a d.
Proof. intros (?&?&?) (?&?&?). split; [lia|]. split; [auto|congruence]. Qed.
Lemma inputs_wires h l c G fuel n : hinv h -> h_circ h !! l = Some c -> forall k w s m r s' m', i_c s = l -> backed_num G s m ->
  m_write_inputs h n (m_write_single h fuel) k w (s, m) = (r, (s', m')) -> same_bw s s' /\ backed_num G s' m' /\ ~ io_err r.
Proof.
  intros Hi E. pose proof (hi_circ h Hi l c E) as W.
  assert (Hid : forall s m (r : res unit), ~ io_err r -> backed_num G s m -> same_bw s s /\ backed_num G s m /\ ~ io_err r) by (intros; split; [split; [lia|done]|done]).
  induction n as [|n IH]; intros [|k] w s m r s' m' Hc Hb Ex; cbn [m_write_inputs] in Ex.
  1,3: (injection Ex as <- <- <-; apply Hid; [by intros [e He]|done]).
  - injection Ex as <- <- <-. apply Hid; [by intros [e He]|done].
  - unfold st_bind at 1, m_io, i_circ in Ex. cbn [fst snd] in Ex. rewrite Hc, E in Ex. unfold st_bind at 1, st_lift at 1 in Ex.
    destruct (c_input_to_gate_id c w) as [o|e|p|] eqn:Eo.
    2-4: injection Ex as <- <- <-; apply Hid; [|done]; unfold c_input_to_gate_id in Eo; destruct (input_map c !! w); intros [e' He']; (done || by simplify_eq).
    destruct o as [id|]; [|by eapply IH]. unfold st_bind at 1, st_lift in Ex. pose proof (gate_quiet c id) as Q. destruct (c_get_gate c id) as [g|e|p|] eqn:Eg.
    2-4: injection Ex as <- <- <-; apply Hid; [|done]; intros [e' He']; apply Q; exists e'; congruence.
    assert (exists i, g = GInput i) as [i ->].
    { unfold c_input_to_gate_id in Eo. destruct (input_map c !! w) as [o|] eqn:Ei; [|done]. injection Eo as ->.
      assert (w < input_len c). { destruct (decide (w < input_len c)); [done|]. rewrite (wf_inputs_none c W) in Ei by lia. done. }
      destruct (wf_inputs c W w) as (g' & Ei' & G'); [done|]. rewrite Ei in Ei'. injection Ei' as ->. unfold c_get_gate in Eg. rewrite G' in Eg. injection Eg as <-. by eexists. }
    destruct fuel as [|fuel]; [injection Ex as <- <- <-; apply Hid; [by intros [e He]|done]|]. unfold st_bind at 1 in Ex.
    destruct (m_write_single h (Datatypes.S fuel) id (GInput i) (s, m)) as [r1 [s1 m1]] eqn:E1. cbn in E1. injection E1 as <- <- <-.
    match type of Ex with m_write_inputs _ _ _ _ _ (?S1, ?M1) = _ => assert (same_bw s S1 /\ backed_num G S1 M1) as [Hs1 Hb1] end.
    { split; [split; [cbn; lia|done]|]. intros x v Hv. cbn. destruct (decide (x = id)) as [->|Hn]; [rewrite lookup_insert in Hv; injection Hv as <-; right; lia|].
      rewrite lookup_insert_ne in Hv by done. destruct (Hb x v Hv); [by left|right; lia]. }
    eapply IH in Ex as (H1 & H2 & H3); [|exact Hc|exact Hb1]. split; [by eapply same_bw_trans|done].
Qed.
Lemma put_wires t s m r s' m' : m_io (i_put t) (s, m) = (r, (s', m')) -> m' = m /\ same_bw s s' /\ i_num s' = i_num s /\ (r = Ok tt \/ io_err r).
Proof.
  unfold m_io, i_put. cbn [fst snd]. destruct (bw_write_all t (i_bw s)) as [r1 b1] eqn:Ew. intros [= <- <- <-]. split; [done|].
  split; [split; [cbn; lia|]; split; [|done]; intros Hr; unfold room; cbn; destruct (bw_write_all_spec _ _ _ _ Hr Ew); by rewrite sk_cap|]. split; [done|].
  destruct (bw_res _ _ _ _ Ew) as [-> |[k ->] ]; [by left|right; by exists k].
Qed.
Definition has_wire (given : wmap) (v : N) : Prop := exists g, given !! g = Some v.
Definition wires_ok (l : nat) (c : circuit) (given : wmap) (s : istate) {A} (r : res A) (s' : mstate) : Prop := i_num s <= i_num s'.1 /\ (room s -> room s'.1) /\
  (i_num s'.1 = i_num s /\ s'.2 = given /\ is_ok r = false \/ backed (has_wire given) s'.1 s'.2 /\ (io_err r -> hasmod c) \/ io_err r /\ lost (has_wire given) l c s'.1 s'.2).
Lemma header_step {A} l c given s s0 t (k : MM A) r s' : same_bw s s0 -> i_num s0 = i_num s -> (forall s1, same_bw s s1 -> i_num s1 = i_num s -> k (s1, given) = (r, s') -> wires_ok l c given s r s') ->
  (_ <- m_io (i_put t) ;; k) (s0, given) = (r, s') -> wires_ok l c given s r s'.
Proof.
  intros Hs Hn Hk Ex. unfold st_bind in Ex. destruct (m_io (i_put t) (s0, given)) as [r1 [s1 m1]] eqn:E1. destruct (put_wires _ _ _ _ _ _ E1) as (-> & H1 & H2 & H3).
  assert (Hs1 : same_bw s s1) by (by eapply same_bw_trans). destruct H3 as [-> |[e ->] ]; [apply (Hk s1); [done|congruence|done]|].
  injection Ex as <- <-. split; [apply Hs1|]. split; [apply Hs1|]. left. cbn. split; [congruence|done].
Qed.
Lemma write_map_wires h l c fuel first given s r s' : hinv h -> h_circ h !! l = Some c -> i_c s = l -> write_map h fuel first (s, given) = (r, s') -> wires_ok l c given s r s'.
Proof.
  intros Hi E Hc Ex. unfold write_map in Ex. unfold st_bind at 1, m_io at 1, i_circ in Ex. cbn [fst snd] in Ex. rewrite Hc, E in Ex.
  assert (Hs : same_bw s s) by (split; [lia|done]). revert Ex. apply header_step; [done|done|]. intros s1 H1 N1. cbv zeta. unfold st_bind at 1. destruct (first <=? _).
  2:{ intros Ex. injection Ex as <- <-. split; [apply H1|]. split; [apply H1|]. by left. }
  cbn [st_ret]. apply header_step; [done|done|]. intros s2 H2 N2. apply header_step; [done|done|]. intros s3 H3 N3. apply header_step; [done|done|]. intros s4 H4 N4 Ex.
  unfold st_bind at 1 in Ex. cbn [m_io i_set_cow fst snd] in Ex.
  match type of Ex with st_bind _ _ (?S5, _) = _ => set (s5 := S5) in * end. assert (H5 : same_bw s s5) by (eapply same_bw_trans; [exact H4|]; split; [cbn; lia|done]).
  clearbody s5. clear s1 s2 s3 s4 H1 H2 H3 H4 N1 N2 N3 N4. unfold st_bind at 1 in Ex. set (G := has_wire given) in *.
  assert (Hg : backed_num G s5 given) by (intros g v Hv; left; by exists g).
  destruct (m_write_inputs _ _ _ _ _ _) as [r1 [s6 m6]] eqn:E6. destruct (inputs_wires h l c G _ _ Hi E _ _ _ _ _ _ _ ltac:(destruct H5 as (_ & _ & ->); exact Hc) Hg E6) as (H6 & B6 & Q6).
  assert (Hs6 : same_bw s s6) by (by eapply same_bw_trans). assert (B6' : backed G s6 m6) by (intros g v Hv; destruct (B6 g v Hv); [by left|right; by left]).
  destruct r1 as [[]|e|p|].
  2-4: injection Ex as <- <-; split; [apply Hs6|]; split; [apply Hs6|]; right; left; split; [exact B6'|]; intros [k Hk]; exfalso; apply Q6; exists k; congruence.
  unfold st_bind at 1 in Ex. cbn [m_io i_set_const fst snd] in Ex. unfold st_bind at 1 in Ex. cbn [m_io i_get fst snd i_num] in Ex. unfold st_bind at 1 in Ex. cbn [m_io i_set_num fst snd] in Ex.
  match type of Ex with st_bind _ _ (?S7, _) = _ => set (s7 := S7) in * end. assert (H7 : same_bw s s7) by (eapply same_bw_trans; [exact Hs6|]; split; [cbn; lia|done]).
  assert (B7 : backed G s7 m6). { intros g v Hv. destruct (B6 g v Hv); [by left|right; left; cbn; lia]. }
  clearbody s7. clear s5 H5 Hg E6 s6 H6 B6 Q6 Hs6 B6'. unfold st_bind at 1 in Ex. destruct (m_write_all h (m_write_single h fuel) (s7, m6)) as [r8 [s8 m8]] eqn:E8.
  destruct (wired_all h G _ (wired_single h G fuel) l c E s7 m6 r8 s8 m8 ltac:(destruct H7 as (_ & _ & ->); exact Hc) B7 E8) as [(A1 & A2 & A3) H8].
  assert (i_num s <= i_num s8 /\ (room s -> room s8)) as [N8 R8] by (destruct H7 as (?&?&?); split; [lia|auto]).
  destruct r8 as [[]|e|p|].
  2-4: injection Ex as <- <-; split; [done|]; split; [done|]; right; destruct H8 as [[B8 Q8]|[[k Hk] L8] ]; [left; split; [exact B8|]; intros [k Hk]; apply Q8; exists k; congruence|right; split; [exists k; congruence|exact L8]].
  destruct H8 as (B8 & _). unfold st_bind at 1 in Ex. cbn [m_io i_get fst snd] in Ex. unfold m_io in Ex. cbn [fst snd] in Ex.
  assert (forall (m : gmap N bool) xs z, exists r, st_mapM (i_key m) xs z = (r, z) /\ ~ io_err r) as Hno.
  { intros m. induction xs as [|y xs IH]; intros z; cbn [st_mapM]; [eexists; split; [done|]; by intros [k Hk]|]. unfold st_bind at 1, i_key at 1. destruct (m !! y); [|eexists; split; [done|]; by intros [k Hk]].
    unfold st_bind. destruct (IH z) as (r1 & -> & Q1). destruct r1; eexists; (split; [done|]); intros [k Hk]; (done || (apply Q1; exists k; congruence)). }
  destruct (Hno (i_cow s8) (map (fun i => input_len c + i) (nrange (i_const s8 - input_len c))) s8) as (r9 & E9 & Q9). rewrite E9 in Ex. injection Ex as <- <-.
  split; [done|]. split; [done|]. right. left. by split.
Qed.

(** * C91 *)
(** The map that a failed [write] leaves, compared with the one that it was given and with the one of the call with a sink that takes everything. *)
Record part (c : circuit) (given wog m : wmap) : Prop := {
  pt_ext : forall g, is_Some (given !! g) -> is_Some (m !! g);
  pt_known : forall g, is_Some (m !! g) -> is_Some (wog !! g);
  pt_base : forall g gt, gate_map c !! g = Some gt -> is_logic gt = false -> is_module gt = false -> is_Some (m !! g) /\ wog !! g = m !! g;
  pt_same : forall g, settled given c g \/ gate_map c !! g = None -> m !! g = given !! g;
  pt_new : forall g gt, gate_map c !! g = Some gt -> is_logic gt = true \/ is_module gt = true -> ~ used c g -> m !! g = given !! g;
  pt_fits : forall g, (forall x, together c g x -> is_Some (m !! x)) -> wog !! g = m !! g;
}.
Lemma together_whole c m g : (forall x, together c g x -> is_Some (m !! x)) -> whole c m g.
Proof.
  intros H. apply Forall_forall. intros x Hx. apply H. unfold blk in Hx. destruct (gate_map c !! g) as [[| | | | | |il ol ids oi mid]|] eqn:Gx; try (apply elem_of_list_singleton in Hx as ->; by left).
  apply elem_of_list_fmap in Hx as (j & -> & Hj%elem_of_nrange). right. by exists il, ol, ids, oi, mid, j.
Qed.
Lemma used_gate h l c g : dinv h -> h_circ h !! l = Some c -> used c g -> is_Some (gate_map c !! g).
Proof.
  intros D E (k & o & Eo & T). pose proof (hi_circ h (di_inv h D) l c E) as W. assert (is_Some (gate_map c !! o)) as Hso.
  { assert (k < output_len c). { destruct (decide (k < output_len c)); [done|]. rewrite (wf_outputs_none c W) in Eo by lia. done. }
    destruct (wf_outputs c W k) as (o' & Eo' & Hs); [lia|]. congruence. }
  clear - T Hso E D W. induction T as [a x Hx|a gt a' x Ga Ha T IH].
  - destruct Hso as [gt Gt]. destruct (blk_member c W a gt x Gt Hx) as (gx & -> & _). by eexists.
  - apply IH. by eapply (operand_exists h l c (di_inv h D) E (di_disc h D l c E)).
Qed.
Lemma part_ok h l c given w2 st2 m wog : dinv h -> h_circ h !! l = Some c -> vpre l c given w2 st2 ->
  (forall g, (forall gt, gate_map c !! g = Some gt -> is_logic gt = true \/ is_module gt = true) -> w2 !! g = given !! g) ->
  kept c (used c) w2 m -> kept c (used c) m wog -> part c given wog m.
Proof.
  intros D E Hp Hs [X1 K1] [X2 K2]. split.
  - intros g Hg. apply X1. by apply (vp_given _ _ _ _ _ Hp).
  - exact X2.
  - intros g gt G L M. assert (has m g) as Hm. { apply X1. eapply (vp_base _ _ _ _ _ Hp); [exact G|]. destruct gt; try done; [right; by eexists|by left]. }
    split; [exact Hm|]. destruct (K2 g) as [?|[_ Hn] ]; [done|]. destruct Hn. unfold whole. rewrite (blk_logic c g gt G M). constructor; [done|constructor].
  - intros g Hg. destruct (K1 g) as [Eg|[Hu Hn] ].
    + rewrite Eg. apply Hs. intros gt G. destruct Hg as [[(gt' & G' & Hk) _]|Hg]; [|congruence]. rewrite G in G'. by injection G' as <-.
    + exfalso. destruct Hg as [[_ Hg]|Hg].
      * apply Hn, together_whole. intros x Hx. by apply (vp_given _ _ _ _ _ Hp), Hg.
      * destruct (used_gate h l c g D E Hu) as [? ?]. congruence.
  - intros g gt G Hk Hu. destruct (K1 g) as [Eg|[Hu' _] ]; [|done]. rewrite Eg. apply Hs. intros gt' G'. rewrite G in G'. by injection G' as <-.
  - intros g Hg. destruct (K2 g) as [?|[_ Hn] ]; [done|]. by destruct Hn; apply together_whole.
Qed.
(** [write_map] is [write] of Io.v, on every heap and with every result; it also says what the map is after a failure. *)
Theorem C91_same h fuel first given s : let (r, s') := write_map h fuel first (s, given) in
  write_io h fuel first given s = (match r with Ok v => Ok (v, s'.2) | Err e => Err e | Panic p => Panic p | NoFuel => NoFuel end, s'.1).
Proof.
  pose proof (agree_write h fuel first given s) as H. destruct (write_map _ _ _ _) as [r [s' m]]. destruct (write_io _ _ _ _ _) as [r' st]. destruct H as [<- H]. cbn [fst snd] in *. f_equal.
  destruct r, r'; try done; congruence.
Qed.
(** On a disciplined circuit the call gives the result of the call with a sink that takes everything, or an error of the sink. After the error the
    map is the one given, when the header failed; or it holds all the inputs and constants and a part of the gates. *)
Theorem C91_part md ops l c first given s : disciplined md heap_empty ops -> let h := run md ops in h_circ h !! l = Some c -> i_c s = l ->
  first <= input_len c + num_const c -> room s ->
  exists gls vals wog F, given_ok h c given (i_num s) gls vals wog /\ forall fuel, (F <= fuel)%nat ->
    let (r, s') := write_map h fuel first (s, given) in
    r = Ok vals /\ s'.2 = wog /\ accepted (i_bw s'.1) = (accepted (i_bw s) ++ show_prog (wprog c first gls))%string \/
    exists k, r = Err (EIo k) /\ Exists bad (b_script (i_bw s)) /\ (s'.2 = given \/ part c given wog s'.2).
Proof.
  intros Hd h E Hc Hf Hr. pose proof (dinv_run md ops Hd) as D. pose proof (cinv_run md ops Hd) as CI. fold h in D, CI.
  destruct (write_given h l c D CI E) as [F HF]. destruct (write_map_fail h l c D CI E) as [F2 HF2].
  destruct (HF F (perfect s) first given ltac:(lia) Hc Hf) as (gls & vals & wog & st' & Ew & Ho & _ & _ & Ok').
  exists gls, vals, wog, (F + F2)%nat. split; [exact Ok'|]. intros fuel Hfuel. assert (Ew' : write h fuel first given (perfect s) = (Ok (vals, wog), st')) by (eapply write_mono; [|exact Ew|done]; lia).
  pose proof (C91_same h fuel first given s) as Hsame. destruct (write_map h fuel first (s, given)) as [r s'] eqn:Em.
  destruct (sim_write h fuel first given) as [_ H]. specialize (H (i_bw s) (perfect s) s (perfect_sync s Hr)). rewrite Ew', Hsame in H. cbn [fst snd] in H. destruct H as [[H1 H2]|[[k H1] H2] ].
  - left. destruct r as [v| | |]; cbn in H1; try done. injection H1 as -> ->. split; [done|]. split; [done|]. rewrite (sy_acc _ _ _ H2). f_equal. unfold written. rewrite Ho. cbn [perfect w_out app]. apply header_text.
  - right. destruct r as [v|e|p|]; try done. injection H1 as ->. exists k. split; [done|]. split; [apply H2|].
    destruct (HF2 fuel s first given k s' (vals, wog) st' ltac:(lia) Hc Hr Em Ew') as [Hg|(w2 & st2 & Hp & Hs & K1 & K2)]; [by left|right; by eapply part_ok].
Qed.
(** The wires of the map on circuits of any history and whatever the result. Each is from the given map or was handed out by the writer; but when the
    line of a gate of the circuit itself cannot be written, the entry of this gate, which was made before, has the wire that is handed out next. If no gate
    of the circuit is a call, this happens whenever the sink fails after the header. *)
Theorem C91_wires md ops l c fuel first given s : let h := run md ops in h_circ h !! l = Some c -> i_c s = l ->
  let (r, s') := write_map h fuel first (s, given) in
  let known m := forall g v, m !! g = Some v -> (exists g', given !! g' = Some v) \/ v < i_num s'.1 \/ v < i_const s'.1 in
  let lost := exists g gt m, gate_map c !! g = Some gt /\ is_logic gt = true /\ s'.2 = <[g := i_num s'.1]> m /\ known m in
  i_num s <= i_num s'.1 /\ (known s'.2 \/ (exists k, r = Err (EIo k)) /\ i_c s'.1 = l /\ lost) /\
  ((forall g gt, gate_map c !! g = Some gt -> is_module gt = false) -> (exists k, r = Err (EIo k)) -> s'.2 = given /\ i_num s'.1 = i_num s \/ i_c s'.1 = l /\ lost).
Proof.
  intros h E Hc. destruct (write_map h fuel first (s, given)) as [r s'] eqn:Em. destruct (write_map_wires h l c fuel first given s r s' (run_hinv md ops) E Hc Em) as (H1 & _ & H2).
  intros known lost. split; [done|]. split.
  - destruct H2 as [(_ & -> & _)|[[B _]|[K [Lc L] ] ] ]; [left|by left|right; by split].
    intros g v Hv. left. by exists g.
  - intros Hm K. destruct H2 as [(Hn & Hg & _)|[[_ Q]|[_ [Lc L] ] ] ]; [by left| |by right]. destruct (Q K) as (g & gt & G & M). by rewrite (Hm g gt G) in M.
Qed.
(** The caller tries once more, with the same writer and the same map, on a circuit without calls. Whatever failed, the call succeeds if the sink does not
    fail again; and unless the header had failed there is a gate which is not written, and whose wire is that of the first input. *)
Theorem C91_retry md ops l c fuel first given s k s1 m1 : disciplined md heap_empty ops -> let h := run md ops in h_circ h !! l = Some c -> i_c s = l ->
  room s -> (forall g gt, gate_map c !! g = Some gt -> is_module gt = false) -> 0 < input_len c ->
  write_map h fuel first (s, given) = (Err (EIo k), (s1, m1)) -> Forall good (b_script (i_bw s1)) ->
  m1 = given \/ exists g gt gls, gate_map c !! g = Some gt /\ is_logic gt = true /\ (forall k gl, gls !! k = Some gl -> i_num s1 ∉ gl_outs gl) /\
    exists F, forall fuel', (F <= fuel')%nat -> exists vals s2 m2, write_map h fuel' first (s1, m1) = (Ok vals, (s2, m2)) /\
      accepted (i_bw s2) = (accepted (i_bw s1) ++ show_prog (wprog c first gls))%string /\ m2 !! g = Some (i_num s1) /\
      exists g0, gate_map c !! g0 = Some (GInput 0) /\ m2 !! g0 = Some (i_num s1).
Proof.
  intros Hd h E Hc Hr Hm Hin Em Hgood. destruct (N.le_gt_cases first (input_len c + num_const c)) as [Hf|Hf].
  2:{ left. unfold write_map in Em. unfold st_bind at 1, m_io at 1, i_circ in Em. cbn [fst snd] in Em. rewrite Hc, E in Em. unfold st_bind at 1 in Em.
    destruct (m_io _ _) as [r1 [s2 m2]] eqn:E1. destruct (put_wires _ _ _ _ _ _ E1) as (-> & _ & _ & [-> |[e ->] ]); [|by injection Em].
    cbv zeta in Em. rewrite (proj2 (N.leb_gt _ _) Hf) in Em. done. }
  destruct (write_map_wires h l c fuel first given s _ _ (run_hinv md ops) E Hc Em) as (_ & H2 & H3). cbn [fst snd] in *.
  destruct H3 as [(_ & -> & _)|[[_ Q]|(_ & Lc & g & gt & m & G & Lg & -> & _)] ]; [by left| |right].
  { destruct Q as (g & gt & G & M); [by exists k|]. by rewrite (Hm g gt G) in M. }
  destruct (C91_part md ops l c first (<[g := i_num s1]> m) s1 Hd E Lc Hf (H2 Hr)) as (gls & vals & wog & F & Ok' & HF). fold h in Ok', HF.
  exists g, gt, gls. split; [done|]. split; [done|]. split.
  { intros k' gl Hk. rewrite (gk_lines _ _ _ _ _ _ _ Ok' k' gl Hk). intros ?%elem_of_list_singleton. lia. }
  exists F. intros fuel' Hf'. specialize (HF fuel' Hf'). destruct (write_map h fuel' first (s1, _)) as [r [s2 m2]]. destruct HF as [(-> & Hw & Ha)|(k' & _ & Hx & _)].
  - cbn [fst snd] in *. subst m2. exists vals, s2, wog. split; [done|]. split; [done|]. split.
    + rewrite (gk_same _ _ _ _ _ _ _ Ok'); [by rewrite lookup_insert|]. left. split; [exists gt; by split; [|left]|].
      intros x [->|(il & ol & ids & oi & mid & j & G' & _)]; [rewrite lookup_insert; by eexists|]. rewrite G in G'. injection G' as ->. done.
    + destruct (wf_inputs c (hi_circ h (run_hinv md ops) l c E) 0 Hin) as (g0 & _ & G0). exists g0. split; [done|]. rewrite (gk_inputs _ _ _ _ _ _ _ Ok' _ _ G0). f_equal. lia.
  - exfalso. apply Exists_exists in Hx as (a & Ha & Hb). exact (proj1 (Forall_forall _ _) Hgood a Ha Hb).
Qed.

(** ** Examples *)
(** Two calls with one writer and one map, behind a buffer of 8 bytes: the result, the map and the next wire after the first call, the result and the map
    of the second, and the lines that the sink has in the end. *)
Definition twice (md : mode) (ops : list op) (given : list (N * N)) (script : list answer) (n : N) :
    (res (list bool) * list (option N) * N) * (res (list bool) * list (option N)) * string :=
  let '(r1, (s1, m1)) := write_map (run md ops) 9 2 (iwriter_new 0 (BufW 8 "" "" script), list_to_map given) in
  let '(r2, (s2, m2)) := write_map (run md ops) 9 2 (s1, m1) in
  ((r1, map (fun g => m1 !! g) (nrange n), i_num s1), (r2, map (fun g => m2 !! g) (nrange n)), b_sink (bw_drop (i_bw s2))).
(** [three] has the gates 2 (and), 3 (xor of 2 and 0) and 4 (or of 3 and 2). The line of 2 fails: its entry stays, with wire 2, which the second call
    gives to the input 0. The line of 2 is missing in the second text, and the xor is one of the input with itself. *)
Example C91_retried md : twice md three [] [Take 100; Take 100; Take 100; Fail 28] 6 =
  ((Err (EIo (IoOther 28)), [Some 0; Some 1; Some 2; None; None; None], 2), (Ok [], [Some 2; Some 3; Some 2; Some 4; Some 5; None]),
   unlines ["3 5"; "2 2 0"; "1 1"; ""; "3 5"; "2 2 0"; "1 1"; ""; "2 1 2 2 4 XOR"; "2 1 4 2 5 OR"]%string).
Proof. destruct md; vm_compute; reflexivity. Qed.
(** The header fails: the map is as given, and the second call is as the first should have been. The last line fails: the second text has no lines. *)
Example C91_header md :
  twice md three [(5, 7)] [Take 100; Fail 28] 6 =
    ((Err (EIo (IoOther 28)), [None; None; None; None; None; Some 7], 0), (Ok [], [Some 0; Some 1; Some 2; Some 3; Some 4; Some 7]),
     unlines ["3 5"; "2 2 0"; "3 5"; "2 2 0"; "1 1"; ""; "2 1 0 1 2 AND"; "2 1 2 0 3 XOR"; "2 1 3 2 4 OR"]%string) /\
  twice md three [] [Take 100; Take 100; Take 100; Take 100; Take 100; Fail 28] 6 =
    ((Err (EIo (IoOther 28)), [Some 0; Some 1; Some 2; Some 3; Some 4; None], 4), (Ok [], [Some 4; Some 5; Some 2; Some 3; Some 4; None]),
     unlines ["3 5"; "2 2 0"; "1 1"; ""; "2 1 0 1 2 AND"; "2 1 2 0 3 XOR"; "3 5"; "2 2 0"; "1 1"; ""]%string).
Proof. split; destruct md; vm_compute; reflexivity. Qed.
(** A line of a call fails: the map has no entry for its outputs, and all wires in it were handed out. *)
Example C91_inside md : twice md halves [] [Take 100; Take 100; Take 100; Take 100; Fail 28] 6 =
  ((Err (EIo (IoOther 28)), [Some 0; Some 1; None; None; None; None], 3), (Ok [], [Some 3; Some 4; Some 5; Some 6; None; None]),
   unlines ["3 5"; "2 2 0"; "1 1"; ""; "2 1 0 1 2 XOR"; "2 4"; "2 2 0"; "1 2"; ""; "2 1 3 4 5 XOR"; "2 1 3 4 6 AND"]%string).
Proof. destruct md; vm_compute; reflexivity. Qed.
(** [three] meets the hypotheses of the theorems. *)
Definition plain_at (h : heap) (l : nat) : bool := match h_circ h !! l with
  | Some c => forallb (fun p => negb (is_module p.2)) (map_to_list (gate_map c)) && (0 <? input_len c)
  | None => false end.
Example C91_meets md : disciplined md heap_empty three /\ plain_at (run md three) 0 = true /\ room (iwriter_new 0 (BufW 8 "" "" [Take 100; Take 100; Take 100; Fail 28])) /\ Exists bad [Fail 28].
Proof. split; [apply three_disciplined|]. split; [destruct md; vm_compute; reflexivity|]. split; [unfold room; cbn; lia|by left]. Qed.
