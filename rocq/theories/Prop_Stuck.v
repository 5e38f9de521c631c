(** Property C84: the writer after a write that failed. *)
From Verif Require Export Prop_Io Disc Prop_Circuit.
Open Scope N_scope.
Open Scope list_scope.

(** The circuit at [l] contains a call of the circuit at [l']. *)
Definition calls_at (h : heap) (l l' : nat) : Prop := exists c, h_circ h !! l = Some c /\ calls h c l'.

Section whereabouts.
Context (h : heap).
(** While the circuit at [k] is written; [Q] holds of the results. *)
Definition stays (k : nat) {A} (Q : A -> Prop) (m : IM A) : Prop := forall st, i_c st = k ->
  match m st with (Ok a, s) => Q a /\ i_c s = k | (_, s) => rtc (calls_at h) k (i_c s) end.
Definition anything {A} : A -> Prop := fun _ => True.
Lemma stays_bind k {A B} (Q : A -> Prop) (Q2 : B -> Prop) m f : stays k Q m -> (forall a, Q a -> stays k Q2 (f a)) -> stays k Q2 (st_bind m f).
Proof.
  intros Hm Hf st E. unfold st_bind. specialize (Hm st E). destruct (m st) as [[a|e|q|] s]; try done. destruct Hm as [Qa Es]. by apply Hf.
Qed.
Lemma stays_ret k {A} (Q : A -> Prop) a : Q a -> stays k Q (st_ret a). Proof. by intros H st E. Qed.
Lemma stays_lift k {A} (Q : A -> Prop) (r : res A) : (forall a, r = Ok a -> Q a) -> stays k Q (st_lift r).
Proof. intros H st E. unfold st_lift. destruct r; rewrite E; auto; apply rtc_refl. Qed.
Lemma stays_err k {A} (Q : A -> Prop) e : stays k Q (st_err e). Proof. intros st E. cbn. rewrite E. apply rtc_refl. Qed.
Lemma stays_panic k {A} (Q : A -> Prop) e : stays k Q (st_panic e). Proof. intros st E. cbn. rewrite E. apply rtc_refl. Qed.
Lemma stays_fuel k {A} (Q : A -> Prop) : stays k Q (fun st => (NoFuel, st)). Proof. intros st E. rewrite E. apply rtc_refl. Qed.
Lemma stays_put k s : stays k anything (i_put s).
Proof. intros st E. unfold i_put. destruct (bw_write_all s (i_bw st)) as [[[]|e|p|] b]; cbn; rewrite E; try apply rtc_refl. by split. Qed.
Lemma stays_num k n : stays k anything (i_set_num n). Proof. by intros st E. Qed.
Lemma stays_const k n : stays k anything (i_set_const n). Proof. by intros st E. Qed.
Lemma stays_cow k n : stays k anything (i_set_cow n). Proof. by intros st E. Qed.
Lemma stays_get k : stays k (fun st => i_c st = k) i_get. Proof. by intros st E. Qed.
Lemma stays_key k {A} (m : gmap N A) i : stays k anything (i_key m i).
Proof. intros st E. unfold i_key. destruct (m !! i); [done|]. rewrite E. apply rtc_refl. Qed.
Lemma stays_foldM k {A B} (Q : B -> Prop) (f : B -> A -> IM B) xs : forall b, Q b -> (forall b a, a ∈ xs -> Q b -> stays k Q (f b a)) -> stays k Q (st_foldM f b xs).
Proof.
  induction xs as [|x xs IH]; intros b Hb Hf; cbn; [by apply stays_ret|]. eapply stays_bind; [apply Hf; [left|done]|].
  intros b' Hb'. apply IH; [done|]. intros b2 a Ha. apply Hf. by right.
Qed.
Lemma stays_mapM k {A B} (f : A -> IM B) xs : (forall x, stays k anything (f x)) -> stays k anything (st_mapM f xs).
Proof.
  intros H. induction xs as [|x xs IH]; cbn; [by apply stays_ret|]. eapply stays_bind; [apply H|]. intros y _. eapply stays_bind; [apply IH|]. intros ys _. by apply stays_ret.
Qed.
Lemma stays_update k gid ws gs wog : stays k anything (i_update_wire gid ws gs wog).
Proof.
  unfold i_update_wire. eapply stays_bind; [apply stays_get|]. intros st _. eapply stays_bind; [destruct ws; [apply stays_put|by apply stays_ret]|]. intros _ _.
  eapply stays_bind; [apply stays_num|]. intros _ _. by apply stays_ret.
Qed.
Lemma stays_circ k : stays k (fun c => h_circ h !! k = Some c) (i_circ h).
Proof. intros st E. unfold i_circ. rewrite E. destruct (h_circ h !! k) eqn:Ec; [done|]. rewrite E. apply rtc_refl. Qed.
Definition of_circ (k : nat) (id : N) (g : gate) : Prop := exists c, h_circ h !! k = Some c /\ gate_map c !! id = Some g.
Lemma of_circ_get k c id g : h_circ h !! k = Some c -> c_get_gate c id = Ok g -> of_circ k id g.
Proof. intros E. unfold c_get_gate. destruct (gate_map c !! id) as [g'|] eqn:Eg; [|done]. intros [= ->]. by exists c. Qed.
Lemma stays_gate k id : stays k (of_circ k id) (i_gate h id).
Proof. unfold i_gate. eapply stays_bind; [apply stays_circ|]. intros c E. apply stays_lift. intros g. by apply of_circ_get. Qed.
Section rec.
Context (k : nat) (single : N -> gate -> wmap -> IM wmap).
Context (Hs : forall id g wog, of_circ k id g -> stays k anything (single id g wog)).
Lemma stays_ensure_all wog ids : stays k anything (i_ensure_all h single wog ids).
Proof using Hs.
  apply stays_foldM; [done|]. intros b a _ _. unfold i_ensure. destruct (b !! a); [by apply stays_ret|]. eapply stays_bind; [apply stays_gate|]. intros g Hg. by apply Hs.
Qed.
Lemma stays_wconst wog id : stays k anything (i_write_const h wog id).
Proof.
  unfold i_write_const. eapply stays_bind; [apply stays_gate|]. intros g _. destruct g; try by apply stays_ret.
  eapply stays_bind; [apply stays_get|]. intros st _. eapply stays_bind; [apply stays_cow|]. intros _ _. eapply stays_bind; [apply stays_const|]. intros _ _. by apply stays_ret.
Qed.
Definition outs_of (acc : wmap * list (N * gate)) : Prop := forall p, p ∈ acc.2 -> of_circ k p.1 p.2.
Lemma stays_pass1 acc i : outs_of acc -> stays k outs_of (i_write_pass1 h single acc i).
Proof using Hs.
  intros Ho. unfold i_write_pass1. eapply stays_bind; [apply stays_circ|]. intros c E. eapply (stays_bind k anything); [by apply stays_lift|]. intros id _.
  eapply (stays_bind k (of_circ k id)); [apply stays_lift; intros g; by apply of_circ_get|]. intros g Hg.
  assert (forall wog, outs_of (wog, acc.2 ++ [(id, g)])) as Ho'.
  { intros wog p. cbn. intros [Hp|Hp%elem_of_list_singleton]%elem_of_app; [by apply Ho|]. by subst p. }
  destruct g; cbv zeta; first [by apply stays_ret | eapply stays_bind; [apply stays_ensure_all|]; intros wog _; by apply stays_ret].
Qed.
Lemma stays_all wog : stays k anything (i_write_all h single wog).
Proof using Hs.
  unfold i_write_all. eapply stays_bind; [apply stays_circ|]. intros c E.
  eapply stays_bind; [apply stays_foldM; [by instantiate (1 := anything)|intros b a _ _; apply stays_wconst]|]. intros wog1 _.
  eapply stays_bind; [apply (stays_foldM k outs_of)|].
  - intros p. cbn. by intros ?%elem_of_nil.
  - intros b a _. apply stays_pass1.
  - intros [wog2 outs] Ho. apply stays_foldM; [done|]. intros b a Ha _. unfold i_write_pass2. destruct (b !! a.1); [by apply stays_ret|]. apply Hs. by apply (Ho a).
Qed.
End rec.
Lemma stays_args k m wog : forall fuel ids w new, stays k anything (i_bind_args fuel m wog ids w new).
Proof.
  induction fuel as [|f IH]; intros ids w new; destruct ids as [|id r]; cbn; [by apply stays_ret|apply stays_fuel|by apply stays_ret|].
  eapply (stays_bind k anything); [by apply stays_lift|]. intros [g|] _; [|apply IH]. eapply stays_bind; [apply stays_key|]. intros x _. apply IH.
Qed.
Lemma stays_single fuel : forall k id g wog, of_circ k id g -> stays k anything (i_write_single h fuel id g wog).
Proof.
  induction fuel as [|f IH]; intros k id g wog Hg; [apply stays_fuel|]. cbn [i_write_single]. unfold i_single_body.
  assert (forall id g wog, of_circ k id g -> stays k anything (i_write_single h f id g wog)) as Hs by (intros; by apply IH).
  destruct g as [w|b|a|a b|a b|a b|il ol ids oi mid].
  - apply stays_update.
  - by apply stays_ret.
  - eapply stays_bind; [by apply stays_ensure_all|]. intros wog1 _. eapply stays_bind; [apply stays_key|]. intros x _. apply stays_update.
  - eapply stays_bind; [by apply stays_ensure_all|]. intros wog1 _. eapply stays_bind; [apply stays_key|]. intros x _. eapply stays_bind; [apply stays_key|]. intros y _. apply stays_update.
  - eapply stays_bind; [by apply stays_ensure_all|]. intros wog1 _. eapply stays_bind; [apply stays_key|]. intros x _. eapply stays_bind; [apply stays_key|]. intros y _. apply stays_update.
  - eapply stays_bind; [by apply stays_ensure_all|]. intros wog1 _. eapply stays_bind; [apply stays_key|]. intros x _. eapply stays_bind; [apply stays_key|]. intros y _. apply stays_update.
  - eapply stays_bind; [by apply stays_ensure_all|]. intros wog1 _. eapply stays_bind; [by apply stays_circ|]. intros c Ec.
    destruct Hg as (c' & Ec' & Eg). rewrite Ec in Ec'. injection Ec' as <-.
    eapply (stays_bind k (calls_at h k)).
    { destruct (h_stor h !! c_storage c) as [x|] eqn:Ex; [|apply stays_panic]. destruct (module_map x !! mid) as [l'|] eqn:El; [|apply stays_err].
      apply stays_ret. exists c. split; [done|]. by exists id, il, ol, ids, oi, mid, x. }
    intros l' Hl'. eapply (stays_bind k anything); [destruct (h_circ h !! l'); [by apply stays_ret|apply stays_panic]|]. intros m _.
    eapply stays_bind; [apply stays_args|]. intros new _. eapply stays_bind; [apply stays_get|]. intros s0 E0.
    intros st E. unfold st_bind at 1. cbn [i_set_c]. unfold st_bind at 1.
    pose proof (stays_all l' (i_write_single h f) (fun id g wog => IH l' id g wog) new (IState l' (i_num st) (i_const st) (i_bw st) (i_cow st)) eq_refl) as Hin.
    destruct (i_write_all _ _ _ _) as [[new1|e|q|] s1]; try (by eapply rtc_l).
    unfold st_bind at 1. cbn [i_set_c]. refine (stays_foldM k anything _ _ _ _ _ (IState (i_c s0) (i_num s1) (i_const s1) (i_bw s1) (i_cow s1)) E0); [done|].
    intros b a _ _. unfold i_copy_out. eapply (stays_bind k anything); [by apply stays_lift|]. intros o _. eapply stays_bind; [apply stays_key|]. intros y _. by apply stays_ret.
Qed.
Lemma stays_inputs k single : (forall id g wog, of_circ k id g -> stays k anything (single id g wog)) ->
  forall fuel n w wog, stays k anything (i_write_inputs h fuel single n w wog).
Proof.
  intros Hs. induction fuel as [|f IH]; intros n w wog; destruct n as [|n]; cbn; [by apply stays_ret|apply stays_fuel|by apply stays_ret|].
  eapply stays_bind; [apply stays_circ|]. intros c E. eapply (stays_bind k anything); [by apply stays_lift|]. intros [id|] _; [|apply IH].
  eapply (stays_bind k (of_circ k id)); [apply stays_lift; intros g; by apply of_circ_get|]. intros g Hg. eapply stays_bind; [by apply Hs|]. intros wog1 _. apply IH.
Qed.
Lemma stays_write k fuel first given : stays k anything (write_io h fuel first given).
Proof.
  assert (forall id g wog, of_circ k id g -> stays k anything (i_write_single h fuel id g wog)) as Hs by (intros; by apply stays_single).
  unfold write_io. eapply stays_bind; [apply stays_circ|]. intros c E. eapply stays_bind; [apply stays_put|]. intros _ _. cbv zeta.
  eapply (stays_bind k anything); [destruct (first <=? input_len c + num_const c)%N; [by apply stays_ret|apply stays_panic]|]. intros _ _.
  do 3 (eapply stays_bind; [apply stays_put|intros _ _]). eapply stays_bind; [apply stays_cow|]. intros _ _. eapply stays_bind; [by apply stays_inputs|]. intros wog _.
  eapply stays_bind; [apply stays_const|]. intros _ _. eapply stays_bind; [apply stays_get|]. intros st _. eapply stays_bind; [apply stays_num|]. intros _ _.
  eapply stays_bind; [by apply stays_all|]. intros wog1 _. eapply stays_bind; [apply stays_get|]. intros st1 _.
  eapply stays_bind; [apply stays_mapM; intros; apply stays_key|]. intros vals _. by apply stays_ret.
Qed.
End whereabouts.

(** * The theorems *)
(** A write that succeeds leaves the writer at its circuit; any other leaves it at a circuit reached by calls. *)
Theorem C84_where h fuel first given st r s : write_io h fuel first given st = (r, s) ->
  rtc (calls_at h) (i_c st) (i_c s) /\ (forall v, r = Ok v -> i_c s = i_c st).
Proof.
  intros E. pose proof (stays_write h (i_c st) fuel first given st eq_refl) as H. rewrite E in H. destruct r; [destruct H as [_ ->]|..]; (split; [|done || by intros]); done || apply rtc_refl.
Qed.

(** A call of a module whose gates cannot all be written ends with the writer as the failure left it: not at the circuit being written. *)
Lemma acyclic h k l : dinv h -> rtc (calls_at h) k l -> forall k0, calls_at h k0 k -> l <> k0.
Proof.
  intros D H k0 (c0 & E0 & C0) ->. destruct (di_rank h D) as [rank Hr].
  assert (rank k0 <= rank k)%nat as Hle.
  { clear C0. induction H as [|a b d (c & E & C) _ IH]; [done|]. specialize (IH E0). specialize (Hr _ _ _ E C). lia. }
  specialize (Hr _ _ _ E0 C0). lia.
Qed.
Theorem C84_inside h fuel k c id il ol ids oi mid x l' m wog new st r s : dinv h -> i_c st = k -> h_circ h !! k = Some c ->
  gate_map c !! id = Some (GModule il ol ids oi mid) -> h_stor h !! c_storage c = Some x -> module_map x !! mid = Some l' -> h_circ h !! l' = Some m ->
  (forall a, a ∈ ids -> is_Some (wog !! a)) ->
  fst (i_bind_args (List.length ids + size (input_map m) + 1) m wog ids 0 ∅ st) = Ok new ->
  i_write_all h (i_write_single h fuel) new (IState l' (i_num st) (i_const st) (i_bw st) (i_cow st)) = (r, s) -> (forall v, r <> Ok v) ->
  i_write_single h (Datatypes.S fuel) id (GModule il ol ids oi mid) wog st = (r, s) /\ i_c s <> k /\ rtc (calls_at h) l' (i_c s).
Proof.
  intros D Hk E Eg Ex El Em Hids Hb Hall Hr.
  assert (rtc (calls_at h) l' (i_c s)) as Hin.
  { pose proof (stays_all h l' (i_write_single h fuel) (fun id g wog => stays_single h fuel l' id g wog) new (IState l' (i_num st) (i_const st) (i_bw st) (i_cow st)) eq_refl) as Hin.
    rewrite Hall in Hin. destruct r as [v|e|q|]; [by destruct (Hr v)|done..]. }
  split; [|split; [|done]]; [|eapply acyclic; [done|exact Hin|]; exists c; split; [done|]; by exists id, il, ol, ids, oi, mid, x].
  cbn [i_write_single]. unfold i_single_body. unfold st_bind at 1.
  assert (i_ensure_all h (i_write_single h fuel) wog ids st = (Ok wog, st)) as ->.
  { clear -Hids. unfold i_ensure_all. induction ids as [|a r IH]; [done|]. cbn [st_foldM]. unfold st_bind, i_ensure. destruct (Hids a) as [w ->]; [by left|]. cbn. apply IH. intros b Hb. apply Hids. by right. }
  unfold st_bind at 1, i_circ. rewrite Hk, E. unfold st_bind at 1. rewrite Ex, El. cbn [st_ret]. unfold st_bind at 1. rewrite Em. cbn [st_ret]. unfold st_bind at 1.
  assert (forall n is w acc, snd (i_bind_args n m wog is w acc st) = st) as Hsnd.
  { clear. induction n as [|n IH]; intros is w acc; destruct is as [|i r]; cbn; try done. unfold st_bind, st_lift. destruct (c_input_to_gate_id m w) as [[g|]| | |]; try done; try apply IH.
    unfold i_key. destruct (wog !! i); [apply IH|done]. }
  specialize (Hsnd (List.length ids + size (input_map m) + 1)%nat ids 0 ∅). destruct (i_bind_args _ _ _ _ _ _ _) as [rb sb]. cbn [fst snd] in Hb, Hsnd. subst rb sb.
  unfold st_bind at 1, i_get. unfold st_bind at 1. cbn [i_set_c]. unfold st_bind at 1. rewrite Hall. destruct r as [v|e|q|]; [by destruct (Hr v)|done..].
Qed.

(** Whatever state a writer is in, the next text is that of the circuit it is at, with its wires counted on from where it stopped. *)
Theorem C84_retry md ops st c first : disciplined md heap_empty ops -> h_circ (run md ops) !! i_c st = Some c -> first <= input_len c + num_const c ->
  (String.length (b_buf (i_bw st)) <= b_cap (i_bw st))%nat ->
  exists F, forall fuel r s, (F <= fuel)%nat -> write_io (run md ops) fuel first ∅ st = (r, s) ->
    (exists k, r = Err (EIo k)) \/
    exists vals wog gls, r = Ok (vals, wog) /\ accepted (i_bw s) = (accepted (i_bw st) ++ show_prog (wprog c first gls))%string /\ i_c s = i_c st /\
      written_ok (run md ops) (i_c st) c (i_num st) gls vals wog.
Proof.
  intros D E Hf Hb. set (w := WState (i_c st) (i_num st) (i_const st) [] (i_cow st)).
  destruct (writes_ok (run md ops) (i_c st) c first w) as (gls & vals & wog & w' & (F & HF) & Hc & _ & Hok); [by apply dinv_run|by apply cinv_run|done|done|done|].
  exists F. intros fuel r s Hfuel E'. destruct (HF fuel Hfuel) as [Ew Et].
  destruct (sim_write (run md ops) fuel first ∅) as [_ H]. specialize (H (i_bw st) w st). rewrite Ew, E' in H. cbn [fst snd] in H. destruct H as [[Hr Y]|[K _]]; [| |by left].
  { split; cbn; [done|done|done|done|done|done|apply sprefix_refl|by rewrite sapp_nil|by exists []|]. intros _. split; [done|]. split; [done|]. by rewrite sapp_nil. }
  right. exists vals, wog, gls. split; [destruct r; cbn in Hr; by subst|]. split; [rewrite (sy_acc _ _ _ Y), Et; done|]. split; [by rewrite (sy_c _ _ _ Y), Hc|done].
Qed.

(** The caller can put it right: with the public fields [c_ref] and [num_wire] set again the writer does what a new one on the same [BufWriter] does. *)
Definition like (b : bool) (s s' : istate) : Prop := i_c s = i_c s' /\ i_num s = i_num s' /\ i_bw s = i_bw s' /\ (b = true -> i_cow s = i_cow s').
Definition alike (b : bool) {A} (m : IM A) : Prop := forall s s', like b s s' -> fst (m s) = fst (m s') /\ like b (snd (m s)) (snd (m s')).
Lemma alike_bind b {A B} (m : IM A) (f : A -> IM B) : alike b m -> (forall a, alike b (f a)) -> alike b (st_bind m f).
Proof.
  intros Hm Hf s s' L. unfold st_bind. specialize (Hm s s' L). destruct (m s) as [r t], (m s') as [r' t']. cbn [fst snd] in Hm. destruct Hm as [<- L'].
  destruct r; try done. by apply Hf.
Qed.
Lemma alike_ret b {A} (a : A) : alike b (st_ret a). Proof. by intros s s' L. Qed.
Lemma alike_lift b {A} (a : res A) : alike b (st_lift a). Proof. by intros s s' L. Qed.
Lemma alike_panic b {A} q : alike b (st_panic q : IM A). Proof. by intros s s' L. Qed.
Lemma alike_fuel b {A} : alike b ((fun s => (NoFuel, s)) : IM A). Proof. by intros s s' L. Qed.
Lemma alike_put b t : alike b (i_put t).
Proof. intros s s' (L1 & L2 & L3 & L4). unfold i_put. rewrite L3. destruct (bw_write_all t (i_bw s')). done. Qed.
Lemma alike_circ b h {A} (f : circuit -> IM A) : (forall l c, h_circ h !! l = Some c -> alike b (f c)) -> alike b (st_bind (i_circ h) f).
Proof. intros Hf s s' L. unfold st_bind, i_circ. rewrite (proj1 L). destruct (h_circ h !! i_c s') as [c|] eqn:E; [|done]. by eapply Hf. Qed.
Lemma alike_get b {A} (f : istate -> IM A) : (forall s s', like b s s' -> f s = f s') -> (forall s, alike b (f s)) -> alike b (st_bind i_get f).
Proof. intros H Hf s s' L. unfold st_bind, i_get. rewrite (H s s' L). by apply Hf. Qed.
Lemma alike_cow {A} m (f : IM A) : alike true f -> alike false (st_bind (i_set_cow m) (fun _ => f)).
Proof.
  intros H s s' (L1 & L2 & L3 & _). unfold st_bind, i_set_cow. edestruct H as [E (M1 & M2 & M3 & _)]; [|split; [exact E|by split]]. by split.
Qed.
Lemma alike_const {A} n (f : IM A) : alike true (st_bind (i_set_const n) (fun _ => f)).
Proof. intros s s' (L1 & L2 & L3 & L4). unfold st_bind, i_set_const. rewrite L1, L2, L3, (L4 eq_refl). by split. Qed.
Lemma alike_lift_bind b {A B} (a : A) (f : A -> IM B) : alike b (f a) -> alike b (st_bind (st_lift (Ok a)) f).
Proof. done. Qed.
Lemma alike_update b id ws gs wog : alike b (i_update_wire id ws gs wog).
Proof.
  unfold i_update_wire. apply alike_get; [intros s s' L; by rewrite (proj1 (proj2 L))|]. intros s.
  apply alike_bind; [destruct ws; [apply alike_put|apply alike_ret]|]. intros _. apply alike_bind; [|intros _; apply alike_ret]. by intros t t' (M1 & M2 & M3).
Qed.
Lemma alike_inputs b h fuel : hinv h -> forall n k w wog, alike b (i_write_inputs h n (i_write_single h fuel) k w wog).
Proof.
  intros Hh. induction n as [|n IH]; intros k w wog; destruct k as [|k]; cbn [i_write_inputs]; [apply alike_ret|apply alike_fuel|apply alike_ret|].
  apply alike_circ. intros l c E. pose proof (hi_circ h Hh l c E) as W. unfold c_input_to_gate_id. destruct (input_map c !! w) as [o|] eqn:Ei; [|by intros s s' L].
  assert (exists id, o = Some id /\ gate_map c !! id = Some (GInput w)) as (id & -> & Eg).
  { destruct (N.lt_ge_cases w (input_len c)) as [Hw|Hw]; [|by rewrite (wf_inputs_none c W w Hw) in Ei]. destruct (wf_inputs c W w Hw) as (id & E1 & E2). rewrite E1 in Ei. injection Ei as <-. by exists id. }
  apply alike_lift_bind. unfold c_get_gate. rewrite Eg. apply alike_lift_bind.
  apply alike_bind; [|intros wog'; apply IH]. destruct fuel; [apply alike_fuel|]. apply alike_update.
Qed.
Theorem C84_repair h fuel first given st l : hinv h ->
  fst (write_io h fuel first given (IState l 0 (i_const st) (i_bw st) (i_cow st))) = fst (write_io h fuel first given (iwriter_new l (i_bw st))) /\
  i_bw (snd (write_io h fuel first given (IState l 0 (i_const st) (i_bw st) (i_cow st)))) = i_bw (snd (write_io h fuel first given (iwriter_new l (i_bw st)))).
Proof.
  intros Hh. assert (alike false (write_io h fuel first given)) as H; [|destruct (H (IState l 0 (i_const st) (i_bw st) (i_cow st)) (iwriter_new l (i_bw st))) as [H1 (_ & _ & H2 & _)]; [by split|by split]].
  unfold write_io. apply alike_circ. intros l0 c E. apply alike_bind; [apply alike_put|intros _]. cbv zeta.
  apply alike_bind; [destruct (first <=? input_len c + num_const c)%N; [apply alike_ret|apply alike_panic]|intros _]. do 3 (apply alike_bind; [apply alike_put|intros _]).
  apply alike_cow. apply alike_bind; [by apply alike_inputs|]. intros wog. apply alike_const.
Qed.

(** * Examples *)
(** A circuit that calls a module, a buffer of 17 bytes, a sink that fails the second time. The write fails inside the module. The caller frees some
    space and writes again: the call succeeds, and the text is the module's, on wires counted from 4. With the two fields set again it is right. *)
Definition full : istate := snd (write_io (run Debug demo) 9 1 ∅ (iwriter_new 0 (BufW 17 "" "" [Take 99; Fail 28]))).
Definition next_text (st : istate) : res (list bool) * string :=
  let (r, s) := write_io (run Debug demo) 9 1 ∅ (IState (i_c st) (i_num st) (i_const st) (BufW 17 "" "" []) (i_cow st)) in (ok_bits r, b_sink (bw_drop (i_bw s))).
Example C84_example : disciplined Debug heap_empty demo /\
  fst (write_io (run Debug demo) 9 1 ∅ (iwriter_new 0 (BufW 17 "" "" [Take 99; Fail 28]))) = Err (EIo (IoOther 28)) /\ i_c full = 1%nat /\ i_num full = 4 /\
  next_text full = (Ok [true], unlines ["3 7"; "2 1 2"; "1 1"; ""; "2 1 4 5 7 XOR"; "1 1 7 8 INV"; "2 1 8 2 9 AND"]%string) /\
  next_text (IState 0 0 (i_const full) (i_bw full) (i_cow full)) =
    (Ok [true], unlines ["4 8"; "2 1 2"; "1 1"; ""; "2 1 0 1 3 XOR"; "1 1 3 4 INV"; "2 1 4 2 5 AND"; "2 1 0 5 6 OR"]%string).
Proof. split; [apply disciplined_b_sound; vm_compute; reflexivity|]. vm_compute. done. Qed.
(** The gate of the call, with wires for its operands and a sink that refuses the first line of the module. *)
Definition refusing (l : nat) : istate := IState l 2 2 (BufW 4 "" "" [Fail 28]) ∅.
Definition two_wires : wmap := <[0 := 0]> (<[1 := 1]> ∅).
Definition inner : res unit :=
  match h_circ (run Debug demo) !! 1%nat with
  | Some m => match fst (i_bind_args (2 + size (input_map m) + 1) m two_wires [0; 1] 0 ∅ (refusing 0)) with
              | Ok new => res_bind (fst (i_write_all (run Debug demo) (i_write_single (run Debug demo) 8) new (refusing 1))) (fun _ => Ok tt)
              | _ => Ok tt end
  | None => Ok tt end.
Example C84_example_inside :
  inner = Err (EIo (IoOther 28)) /\ get_gate (run Debug demo) 0 2 = Ok (GModule 2 1 [0; 1] 0 0) /\ get_module (run Debug demo) 0 0 = Ok 1%nat /\
  fst (i_write_single (run Debug demo) 9 2 (GModule 2 1 [0; 1] 0 0) two_wires (refusing 0)) = Err (EIo (IoOther 28)) /\
  i_c (snd (i_write_single (run Debug demo) 9 2 (GModule 2 1 [0; 1] 0 0) two_wires (refusing 0))) = 1%nat.
Proof. split; [|split; [|split; [|split]]]; vm_compute; reflexivity. Qed.
