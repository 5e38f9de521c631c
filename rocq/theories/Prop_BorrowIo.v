(** Property C83: reading and writing while guards are held. *)
From Verif Require Export CellsIo Prop_Borrow.
Open Scope N_scope.
Open Scope list_scope.

(** * Reading *)
Section read.
Context (l : nat).
(** The circuit is not borrowed. *)
Definition free_sim {A} (m : RBM A) (m' : RM A) : Prop := forall gw s, ce_c s !! l = Some 0%Z ->
  m (gw, s) = let (r, t) := m' (gw, ce_heap s) in (r, (fst t, Cells (snd t) (ce_c s) (ce_s s))).
Lemma free_bind {A B} (m : RBM A) (m' : RM A) (k : A -> RBM B) (k' : A -> RM B) : free_sim m m' -> (forall a, free_sim (k a) (k' a)) ->
  free_sim (st_bind m k) (st_bind m' k').
Proof.
  intros Hm Hk gw s E. unfold st_bind. rewrite (Hm gw s E). destruct (m' (gw, ce_heap s)) as [[a|e|p|] [gw1 h1]]; cbn; try done.
  rewrite (Hk a gw1 (Cells h1 (ce_c s) (ce_s s)) E). done.
Qed.
Lemma free_ret {A} (a : A) : free_sim (st_ret a) (st_ret a). Proof. by intros gw [h cs ss] E. Qed.
Lemma free_lift {A} (r : res A) : free_sim (st_lift r) (st_lift r). Proof. by intros gw [h cs ss] E. Qed.
Lemma free_err {A} e : free_sim (A:=A) (st_err e) (st_err e). Proof. by intros gw [h cs ss] E. Qed.
Lemma free_panic {A} p : free_sim (A:=A) (st_panic p) (st_panic p). Proof. by intros gw [h cs ss] E. Qed.
Lemma free_nth {A} (v : list A) i : free_sim (st_nth v i) (st_nth v i).
Proof. intros gw [h cs ss] E. unfold st_nth. by destruct (v !! i). Qed.
Lemma free_map : free_sim rb_map rd_map. Proof. by intros gw [h cs ss] E. Qed.
Lemma free_insert w g : free_sim (rb_insert w g) (rd_insert w g). Proof. by intros gw [h cs ss] E. Qed.
Lemma free_h {A} (m : M A) : free_sim (rb_h l m) (rd_h m).
Proof.
  intros gw s E. unfold rb_h, rd_h. cbn [fst snd]. rewrite with_c_free by done. unfold on_heap. cbn. destruct (m (ce_heap s)) as [r h]. cbn.
  do 2 f_equal. unfold drop_c. cbn. rewrite list_lookup_insert by (by eapply lookup_lt_Some). unfold set_c. cbn.
  rewrite list_insert_insert, list_insert_id by done. done.
Qed.
Local Ltac fs := repeat first [apply free_ret | apply free_lift | apply free_err | apply free_panic | apply free_nth | apply free_map
  | apply free_insert | apply free_h | apply free_bind; [|intros ?]].
Lemma free_inputs k : forall w, free_sim (rb_inputs l k w) (rd_inputs l k w).
Proof. induction k as [|k IH]; intros w; cbn; fs. apply IH. Qed.
Lemma free_groups toks : forall k sum, free_sim (rb_groups l toks k sum) (rd_groups l toks k sum).
Proof. induction toks as [|t ts IH]; intros k sum; cbn; destruct (k =? 0); fs; [apply free_inputs|apply IH]. Qed.
Lemma free_gate ty gs os : free_sim (rb_gate l ty gs os) (rd_gate l ty gs os).
Proof. unfold rb_gate, rd_gate. repeat (case_match; [by fs|]). fs. Qed.
Lemma free_line toks : free_sim (rb_line l toks) (rd_line l toks).
Proof. unfold rb_line, rd_line. repeat (first [apply free_gate | apply free_bind; [by fs|]; intros ?; try case_match]). Qed.
Lemma free_lines ls : free_sim (rb_lines l ls) (rd_lines l ls).
Proof. induction ls as [|x r IH]; cbn; [fs|]. destruct (String.eqb x ""); [fs|]. apply free_bind; [apply free_line|]. intros _. apply IH. Qed.
Lemma free_outputs k : forall w, free_sim (rb_outputs l k w) (rd_outputs l k w).
Proof.
  induction k as [|k IH]; intros w; cbn; [fs|]. apply free_bind; [fs|]. intros gw. destruct (gw !! w) as [g|]; [|fs]. apply free_bind; [fs|]. intros _. apply IH.
Qed.
Lemma free_read md text : free_sim (rb_read md l text) (read md l text).
Proof.
  unfold rb_read, read. repeat (first [apply free_outputs | apply free_bind; [first [apply free_groups | apply free_lines | by fs]|]; intros ?; try case_match]).
Qed.

(** The circuit is borrowed. *)
Definition held_sim {A} (m : RBM A) (m' : RM A) : Prop := forall gw s, held (ce_c s) l ->
  m (gw, s) = (Panic PBorrow, (gw, s)) \/ exists r, m (gw, s) = (r, (gw, s)) /\ m' (gw, ce_heap s) = (r, (gw, ce_heap s)).
Lemma held_bind {A B} (m : RBM A) (m' : RM A) (k : A -> RBM B) (k' : A -> RM B) : held_sim m m' -> (forall a, held_sim (k a) (k' a)) ->
  held_sim (st_bind m k) (st_bind m' k').
Proof.
  intros Hm Hk gw s E. unfold st_bind. destruct (Hm gw s E) as [->|(r & -> & ->)]; [by left|]. destruct r as [a|e|p|]; [by apply Hk|right; eauto..].
Qed.
Lemma held_ret {A} (a : A) : held_sim (st_ret a) (st_ret a). Proof. intros gw s E. right. eexists. done. Qed.
Lemma held_lift {A} (r : res A) : held_sim (st_lift r) (st_lift r). Proof. intros gw s E. right. eexists. done. Qed.
Lemma held_err {A} e : held_sim (A:=A) (st_err e) (st_err e). Proof. intros gw s E. right. eexists. done. Qed.
Lemma held_panic {A} p : held_sim (A:=A) (st_panic p) (st_panic p). Proof. intros gw s E. right. eexists. done. Qed.
Lemma held_nth {A} (v : list A) i : held_sim (st_nth v i) (st_nth v i).
Proof. intros gw s E. right. unfold st_nth. destruct (v !! i); by eexists. Qed.
Lemma held_map : held_sim rb_map rd_map. Proof. intros gw s E. right. eexists. done. Qed.
Lemma held_h {A B} (m : M A) (k : A -> RBM B) (m' : RM B) : held_sim (st_bind (rb_h l m) k) m'.
Proof. intros gw s E. left. unfold st_bind, rb_h. cbn. by rewrite with_c_held. Qed.
Local Ltac hs := repeat first [apply held_ret | apply held_lift | apply held_err | apply held_panic | apply held_nth | apply held_map
  | apply held_h | apply held_bind; [|intros ?]].
Lemma held_inputs k : forall w, held_sim (rb_inputs l k w) (rd_inputs l k w).
Proof. destruct k as [|k]; intros w; cbn; hs. Qed.
Lemma held_groups toks : forall k sum, held_sim (rb_groups l toks k sum) (rd_groups l toks k sum).
Proof. induction toks as [|t ts IH]; intros k sum; cbn; destruct (k =? 0); hs; [apply held_inputs|apply IH]. Qed.
Lemma held_gate ty gs os : held_sim (rb_gate l ty gs os) (rd_gate l ty gs os).
Proof. unfold rb_gate, rd_gate. repeat (case_match; [by hs|]). hs. Qed.
Lemma held_line toks : held_sim (rb_line l toks) (rd_line l toks).
Proof. unfold rb_line, rd_line. repeat (first [apply held_gate | apply held_bind; [by hs|]; intros ?; try case_match]). Qed.
Lemma held_lines ls : held_sim (rb_lines l ls) (rd_lines l ls).
Proof. induction ls as [|x r IH]; cbn; [hs|]. destruct (String.eqb x ""); [hs|]. apply held_bind; [apply held_line|]. intros _. apply IH. Qed.
Lemma held_outputs k : forall w, held_sim (rb_outputs l k w) (rd_outputs l k w).
Proof. destruct k as [|k]; intros w; cbn; [hs|]. apply held_bind; [hs|]. intros gw. destruct (gw !! w) as [g|]; hs. Qed.
Lemma held_read md text : held_sim (rb_read md l text) (read md l text).
Proof.
  unfold rb_read, read. repeat (first [apply held_outputs | apply held_bind; [first [apply held_groups | apply held_lines | by hs]|]; intros ?; try case_match]).
Qed.
End read.

(** Without a guard on the circuit read into, other guards do not matter: the reading does what it does without flags, and leaves all flags as they are. *)
Theorem C83_read md l text gw s c : fit s -> h_circ (ce_heap s) !! l = Some c -> ~ held (ce_c s) l ->
  rb_read md l text (gw, s) = let (r, t) := read md l text (gw, ce_heap s) in (r, (fst t, Cells (snd t) (ce_c s) (ce_s s))).
Proof.
  intros F E H. apply free_read. destruct (fit_flag_c s l c F E) as (f & Ef & _). destruct (decide (f = 0%Z)) as [->|]; [done|].
  destruct H. by exists f.
Qed.
(** With a guard of either kind on it, the first gate, input or output the reader makes panics: nothing is changed, neither the circuit nor the reader. A
    reading that comes to its end before that gives the same error as without guards. *)
Theorem C83_read_held md l text gw s : held (ce_c s) l ->
  rb_read md l text (gw, s) = (Panic PBorrow, (gw, s)) \/
  exists r, rb_read md l text (gw, s) = (r, (gw, s)) /\ read md l text (gw, ce_heap s) = (r, (gw, ce_heap s)).
Proof. intros H. by apply held_read. Qed.
Corollary C83_read_changes md l text gw s r t : held (ce_c s) l -> read md l text (gw, ce_heap s) = (r, t) -> t <> (gw, ce_heap s) ->
  rb_read md l text (gw, s) = (Panic PBorrow, (gw, s)).
Proof. intros H E N. destruct (C83_read_held md l text gw s H) as [|(r' & _ & E')]; [done|]. destruct N. congruence. Qed.

(** * Writing *)
Section write.
Context (P : Prop) (lc ls : nat -> bool) (h : heap) (l0 : nat).
Context (HP : forall l' c, rtc (contains_call h) l0 l' -> h_circ h !! l' = Some c -> lc l' = true \/ ls (c_storage c) = true -> P).
Context (HN : forall l', h_circ h !! l' = None -> lc l' = false).
(** While the circuit at [k] is written; [Q] holds of the results. *)
Definition wsim (k : nat) {A} (Q : A -> Prop) (m m' : WM A) : Prop := forall st, w_c st = k ->
  (m st = m' st /\ forall a st', m' st = (Ok a, st') -> Q a /\ w_c st' = k) \/ (P /\ fst (m st) = Panic PBorrow).
Lemma wsim_bind k {A B} (Q : A -> Prop) (Q2 : B -> Prop) (m m' : WM A) (f f' : A -> WM B) :
  wsim k Q m m' -> (forall a, Q a -> wsim k Q2 (f a) (f' a)) -> wsim k Q2 (st_bind m f) (st_bind m' f').
Proof.
  intros Hm Hf st E. unfold st_bind. destruct (Hm st E) as [[-> Hq]|[p Ep]].
  - destruct (m' st) as [[a|e|q|] st'] eqn:Em; try (left; split; [done|]; intros ? ?; congruence).
    destruct (Hq a st' eq_refl) as [Qa E']. by apply Hf.
  - right. split; [done|]. destruct (m st) as [[a|e|q|] st']; cbn in *; by simplify_eq.
Qed.
Definition any {A} : A -> Prop := fun _ => True.
Lemma wsim_ret k {A} (Q : A -> Prop) a : Q a -> wsim k Q (st_ret a) (st_ret a).
Proof. intros H st E. left. split; [done|]. intros a' st' [= <- <-]. done. Qed.
Lemma wsim_lift k {A} (Q : A -> Prop) (r : res A) : (forall a, r = Ok a -> Q a) -> wsim k Q (st_lift r) (st_lift r).
Proof. intros H st E. left. split; [done|]. intros a' st' [= -> <-]. auto. Qed.
Lemma wsim_err k {A} (Q : A -> Prop) e : wsim k Q (st_err e) (st_err e). Proof. left. done. Qed.
Lemma wsim_panic k {A} (Q : A -> Prop) e : wsim k Q (st_panic e) (st_panic e). Proof. left. done. Qed.
Lemma wsim_fuel k {A} (Q : A -> Prop) : wsim k Q (fun st => (NoFuel, st)) (fun st => (NoFuel, st)). Proof. left. done. Qed.
Lemma wsim_write k s : wsim k any (w_write s) (w_write s). Proof. left. split; [done|]. intros a st' [= <- <-]. done. Qed.
Lemma wsim_num k s : wsim k any (w_set_num s) (w_set_num s). Proof. left. split; [done|]. intros a st' [= <- <-]. done. Qed.
Lemma wsim_const k s : wsim k any (w_set_const s) (w_set_const s). Proof. left. split; [done|]. intros a st' [= <- <-]. done. Qed.
Lemma wsim_cow k s : wsim k any (w_set_cow s) (w_set_cow s). Proof. left. split; [done|]. intros a st' [= <- <-]. done. Qed.
Lemma wsim_get k : wsim k (fun st => w_c st = k) w_get w_get. Proof. left. split; [done|]. intros a st' [= <- <-]. done. Qed.
Lemma wsim_key k {A} (m : gmap N A) i : wsim k any (w_key m i) (w_key m i).
Proof. left. split; [done|]. unfold w_key. destruct (m !! i); [|done]. intros a' st' [= <- <-]. done. Qed.
Lemma wsim_foldM k {A B} (Q : B -> Prop) (f f' : B -> A -> WM B) xs : forall b, Q b -> (forall b a, a ∈ xs -> Q b -> wsim k Q (f b a) (f' b a)) ->
  wsim k Q (st_foldM f b xs) (st_foldM f' b xs).
Proof.
  induction xs as [|x xs IH]; intros b Hb Hf; cbn; [by apply wsim_ret|]. eapply wsim_bind; [apply Hf; [left|done]|].
  intros b' Hb'. apply IH; [done|]. intros b2 a Ha. apply Hf. by right.
Qed.
Lemma wsim_mapM k {A B} (f : A -> WM B) xs : (forall x, wsim k any (f x) (f x)) -> wsim k any (st_mapM f xs) (st_mapM f xs).
Proof.
  intros H. induction xs as [|x xs IH]; cbn; [by apply wsim_ret|]. eapply wsim_bind; [apply H|]. intros y _. eapply wsim_bind; [apply IH|]. intros ys _. by apply wsim_ret.
Qed.
Lemma wsim_weak k {A} (Q Q' : A -> Prop) m m' : (forall a, Q a -> Q' a) -> wsim k Q m m' -> wsim k Q' m m'.
Proof. intros H S1 st E. destruct (S1 st E) as [[-> Hq]|]; [left; split; [done|]|by right]. intros a st' X. destruct (Hq a st' X). auto. Qed.
Lemma wsim_update k gid ws gs wog : wsim k any (update_wire gid ws gs wog) (update_wire gid ws gs wog).
Proof.
  unfold update_wire. eapply wsim_bind; [apply wsim_get|]. intros st _. eapply wsim_bind; [destruct ws; [apply wsim_write|by apply wsim_ret]|]. intros _ _.
  eapply wsim_bind; [apply wsim_num|]. intros _ _. by apply wsim_ret.
Qed.
(** Looks at circuits. *)
Section at_k.
Context (k : nat) (Hk : rtc (contains_call h) l0 k).
Lemma wsim_touch k' l' {A} (m : WM A) (Q : A -> Prop) : rtc (contains_call h) l0 l' -> wsim k' Q m m -> wsim k' Q (st_bind (wb_touch lc l') (fun _ => m)) m.
Proof using HP HN.
  intros R H st E. unfold st_bind, wb_touch. destruct (lc l') eqn:El; cbn; [|by apply H]. right. split; [|done].
  destruct (h_circ h !! l') as [c|] eqn:Ec; [|rewrite HN in El; done]. eapply HP; eauto.
Qed.
Lemma wsim_circ : wsim k (fun c => h_circ h !! k = Some c) (wb_circ lc h) (w_circ h).
Proof using HP HN Hk.
  intros st E. unfold wb_circ, st_bind, w_get. cbn. unfold wb_touch. rewrite E. destruct (lc k) eqn:El.
  - right. split; [|done]. destruct (h_circ h !! k) as [c|] eqn:Ec; [|rewrite HN in El; done]. eapply HP; eauto.
  - left. split; [done|]. unfold w_circ. rewrite E. destruct (h_circ h !! k); [|done]. intros a st' [= <- <-]. done.
Qed.
Definition gate_at (id : N) (g : gate) : Prop := exists c, h_circ h !! k = Some c /\ gate_map c !! id = Some g.
Lemma get_gate_at c id g : h_circ h !! k = Some c -> c_get_gate c id = Ok g -> gate_at id g.
Proof. intros E. unfold c_get_gate. destruct (gate_map c !! id) as [g'|] eqn:Eg; [|done]. intros [= ->]. by exists c. Qed.
Lemma wsim_gate id : wsim k (gate_at id) (wb_gate lc h id) (w_gate h id).
Proof using HP HN Hk.
  unfold wb_gate, w_gate. eapply wsim_bind; [apply wsim_circ|]. intros c E. apply wsim_lift. intros g. by apply get_gate_at.
Qed.
(** A second look at the same circuit. *)
Lemma wsim_again c {A} (f f' : gate -> WM A) (Q : A -> Prop) id : h_circ h !! k = Some c -> (forall g, gate_at id g -> wsim k Q (f g) (f' g)) ->
  wsim k Q (st_bind (wb_gate lc h id) f) (st_bind (st_lift (c_get_gate c id)) f').
Proof using HP HN Hk.
  intros E H st Es. 
  pose proof (wsim_bind k (gate_at id) Q (wb_gate lc h id) (w_gate h id) f f' (wsim_gate id) H st Es) as X.
  unfold w_gate in X. replace (st_bind (st_bind (w_circ h) (fun c => st_lift (c_get_gate c id))) f' st) with (st_bind (st_lift (c_get_gate c id)) f' st) in X; [done|].
  unfold st_bind, w_circ. by rewrite Es, E.
Qed.

Section rec.
Context (single single' : N -> gate -> wmap -> WM wmap).
Context (Hs : forall id g wog, gate_at id g -> wsim k any (single id g wog) (single' id g wog)).
Lemma wsim_ensure wog id : wsim k any (wb_ensure lc h single wog id) (ensure h single' wog id).
Proof using HP HN Hk Hs.
  unfold wb_ensure, ensure. destruct (wog !! id); [by apply wsim_ret|]. eapply wsim_bind; [apply wsim_gate|]. intros g Hg. by apply Hs.
Qed.
Lemma wsim_ensure_all wog ids : wsim k any (wb_ensure_all lc h single wog ids) (ensure_all h single' wog ids).
Proof using HP HN Hk Hs. apply wsim_foldM; [done|]. intros b a _ _. apply wsim_ensure. Qed.
Lemma wsim_wconst wog id : wsim k any (wb_const lc h wog id) (write_const h wog id).
Proof using HP HN Hk.
  unfold wb_const, write_const. eapply wsim_bind; [apply wsim_gate|]. intros g _. destruct g; try by apply wsim_ret.
  eapply wsim_bind; [apply wsim_get|]. intros st _. eapply wsim_bind; [apply wsim_cow|]. intros _ _. eapply wsim_bind; [apply wsim_const|]. intros _ _. by apply wsim_ret.
Qed.
Definition outs_ok (acc : wmap * list (N * gate)) : Prop := forall p, p ∈ acc.2 -> gate_at p.1 p.2.
Lemma wsim_pass1 acc i : outs_ok acc -> wsim k outs_ok (wb_pass1 lc h single acc i) (write_pass1 h single' acc i).
Proof using HP HN Hk Hs.
  intros Ho. unfold wb_pass1, write_pass1. eapply wsim_bind; [apply wsim_circ|]. intros c E. eapply (wsim_bind k any); [by apply wsim_lift|]. intros id _.
  apply wsim_again; [done|]. intros g Hg.
  assert (forall wog, outs_ok (wog, acc.2 ++ [(id, g)])) as Ho'.
  { intros wog p. cbn. intros [Hp|Hp%elem_of_list_singleton]%elem_of_app; [by apply Ho|]. by subst p. }
  destruct g; cbv zeta; first [by apply wsim_ret | eapply wsim_bind; [apply wsim_ensure_all|]; intros wog _; by apply wsim_ret].
Qed.
Lemma wsim_pass2 wog p : gate_at p.1 p.2 -> wsim k any (wb_pass2 single wog p) (write_pass2 single' wog p).
Proof using HP HN Hk Hs. intros H. unfold wb_pass2, write_pass2. destruct (wog !! p.1); [by apply wsim_ret|by apply Hs]. Qed.
Lemma wsim_all wog : wsim k any (wb_all lc h single wog) (write_all h single' wog).
Proof using HP HN Hk Hs.
  unfold wb_all, write_all. eapply wsim_bind; [apply wsim_circ|]. intros c E.
  eapply wsim_bind; [apply wsim_foldM; [by instantiate (1 := any)|intros b a _ _; apply wsim_wconst]|]. intros wog1 _.
  assert (forall A (Q : A -> Prop) (m m' : WM A), wsim k Q m m' -> wsim k Q (st_bind (wb_circ lc h) (fun _ => m)) m') as Hc.
  { intros A Q m m' H st Es. destruct (wsim_circ st Es) as [[X _]|[p X]].
    - unfold st_bind. rewrite X. unfold w_circ. rewrite Es, E. by apply H.
    - right. split; [done|]. unfold st_bind. destruct (wb_circ lc h st) as [[]]; cbn in *; by simplify_eq. }
  apply Hc. eapply wsim_bind; [apply (wsim_foldM k outs_ok)|].
  - intros p. cbn. by intros ?%elem_of_nil.
  - intros b a _. apply wsim_pass1.
  - intros [wog2 outs] Ho. apply wsim_foldM; [done|]. intros b a Ha _. apply wsim_pass2. by apply (Ho a).
Qed.
End rec.
End at_k.
Lemma wsim_args k l' m wog : rtc (contains_call h) l0 l' -> forall fuel ids w new,
  wsim k any (wb_args lc fuel l' m wog ids w new) (bind_args fuel m wog ids w new).
Proof using HP HN.
  intros R. induction fuel as [|f IH]; intros ids w new; destruct ids as [|id r]; cbn; try by apply wsim_ret; try apply wsim_fuel.
  - apply wsim_fuel.
  - intros st E. destruct (wsim_touch k l' (st_ret tt) any R (wsim_ret k any tt Logic.I) st E) as [_|[p X]].
    2:{ right. split; [done|]. unfold st_bind at 1. unfold wb_touch in *. destruct (lc l'); [done|]. cbn in X. done. }
    unfold wb_touch. destruct (lc l') eqn:El.
    { right. cbn. split; [|done]. destruct (h_circ h !! l') as [c|] eqn:Ec; [|rewrite HN in El; done]. eapply HP; eauto. }
    change (st_bind (st_ret tt) ?f st) with (f tt st). revert st E. change (wsim k any
      (o <- st_lift (c_input_to_gate_id m w) ;; match o with Some g => x <- w_key wog id ;; wb_args lc f l' m wog r (w + 1) (<[g:=x]> new) | None => wb_args lc f l' m wog (id :: r) (w + 1) new end)
      (o <- st_lift (c_input_to_gate_id m w) ;; match o with Some g => x <- w_key wog id ;; bind_args f m wog r (w + 1) (<[g:=x]> new) | None => bind_args f m wog (id :: r) (w + 1) new end)).
    eapply (wsim_bind k any); [by apply wsim_lift|]. intros [g|] _; [|apply IH]. eapply wsim_bind; [apply wsim_key|]. intros x _. apply IH.
Qed.
Lemma wsim_copy k l' m new first wog i : rtc (contains_call h) l0 l' -> wsim k any (wb_copy lc l' m new first wog i) (copy_out m new first wog i).
Proof using HP HN.
  intros R. unfold wb_copy, copy_out. apply wsim_touch; [done|]. eapply (wsim_bind k any); [by apply wsim_lift|]. intros o _.
  eapply wsim_bind; [apply wsim_key|]. intros x _. by apply wsim_ret.
Qed.
(** Work on another circuit in between. *)
Lemma wsim_other k k' {A B} (m m' : WM A) (f f' : A -> WM B) (Q : B -> Prop) : wsim k' any m m' -> (forall a, wsim k Q (f a) (f' a)) ->
  wsim k Q (w_set_c k' ;; a <- m ;; w_set_c k ;; f a) (w_set_c k' ;; a <- m' ;; w_set_c k ;; f' a).
Proof.
  intros Hm Hf st E. unfold st_bind. cbn. destruct (Hm (WState k' (w_num st) (w_const st) (w_out st) (w_cow st)) eq_refl) as [[-> _]|[p X]].
  - destruct (m' _) as [[a|e|q|] st'] eqn:Em; try (left; split; [done|]; intros ? ?; congruence). by apply Hf.
  - right. split; [done|]. destruct (m _) as [[a|e|q|] st']; cbn in *; by simplify_eq.
Qed.
Lemma wsim_single fuel : forall k id g wog, rtc (contains_call h) l0 k -> gate_at k id g ->
  wsim k any (wb_single lc ls h fuel id g wog) (write_single h fuel id g wog).
Proof using HP HN.
  induction fuel as [|f IH]; intros k id g wog Hk Hg; [apply wsim_fuel|]. cbn [wb_single write_single]. unfold wb_body, single_body.
  assert (forall id g wog, gate_at k id g -> wsim k any (wb_single lc ls h f id g wog) (write_single h f id g wog)) as Hs by (intros; by apply IH).
  destruct g as [w|b|a|a b|a b|a b|il ol ids oi mid].
  - apply wsim_update.
  - by apply wsim_ret.
  - eapply wsim_bind; [by apply wsim_ensure_all|]. intros wog1 _. eapply wsim_bind; [apply wsim_key|]. intros x _. apply wsim_update.
  - eapply wsim_bind; [by apply wsim_ensure_all|]. intros wog1 _. eapply wsim_bind; [apply wsim_key|]. intros x _. eapply wsim_bind; [apply wsim_key|]. intros y _. apply wsim_update.
  - eapply wsim_bind; [by apply wsim_ensure_all|]. intros wog1 _. eapply wsim_bind; [apply wsim_key|]. intros x _. eapply wsim_bind; [apply wsim_key|]. intros y _. apply wsim_update.
  - eapply wsim_bind; [by apply wsim_ensure_all|]. intros wog1 _. eapply wsim_bind; [apply wsim_key|]. intros x _. eapply wsim_bind; [apply wsim_key|]. intros y _. apply wsim_update.
  - eapply wsim_bind; [by apply wsim_ensure_all|]. intros wog1 _. eapply wsim_bind; [by apply wsim_circ|]. intros c Ec.
    destruct Hg as (c' & Ec' & Eg). rewrite Ec in Ec'. injection Ec' as <-.
    assert (forall A (m m' : WM A) Q, wsim k Q m m' -> wsim k Q ((if ls (c_storage c) then st_panic PBorrow else st_ret tt) ;; m) m') as Hl.
    { intros A m m' Q H st E. destruct (ls (c_storage c)) eqn:El; [|by apply H]. right. split; [|done]. eapply HP; [exact Hk|exact Ec|by right]. }
    apply Hl. clear Hl. destruct (h_stor h !! c_storage c) as [x|] eqn:Ex; [|intros st E; by left].
    destruct (module_map x !! mid) as [l'|] eqn:Em; [|intros st E; by left].
    assert (rtc (contains_call h) l0 l') as R. { eapply rtc_r; [exact Hk|]. by exists c, id, il, ol, ids, oi, mid, x. }
    eapply (wsim_bind k (fun y => y = l')); [by apply wsim_ret|]. intros ? ->.
    destruct (h_circ h !! l') as [m|] eqn:Ecm; [|intros st E; by left].
    eapply (wsim_bind k (fun y => y = m)); [by apply wsim_ret|]. intros ? ->.
    eapply wsim_bind; [by apply wsim_args|]. intros new _. eapply wsim_bind; [apply wsim_get|]. intros st Est. rewrite Est.
    apply wsim_other.
    + apply wsim_all; [done|]. intros; by apply IH.
    + intros new'. apply wsim_foldM; [done|]. intros; by apply wsim_copy.
Qed.
Lemma wsim_inputs single single' : rtc (contains_call h) l0 l0 -> (forall id g wog, gate_at l0 id g -> wsim l0 any (single id g wog) (single' id g wog)) ->
  forall fuel k w wog, wsim l0 any (wb_inputs lc h fuel single k w wog) (write_inputs h fuel single' k w wog).
Proof using HP HN.
  intros R Hs. induction fuel as [|f IH]; intros k w wog; destruct k as [|k]; cbn; try by apply wsim_ret; try apply wsim_fuel.
  - apply wsim_fuel.
  - eapply wsim_bind; [by apply wsim_circ|]. intros c Ec. eapply (wsim_bind l0 any); [by apply wsim_lift|]. intros [id|] _; [|apply IH].
    apply wsim_again; [done|done|]. intros g Hg. eapply wsim_bind; [by apply Hs|]. intros wog1 _. apply IH.
Qed.
Lemma wsim_written fuel n given : wsim l0 any (wb_write lc ls h fuel n given) (write h fuel n given).
Proof using HP HN.
  unfold wb_write, write. assert (rtc (contains_call h) l0 l0) as R by apply rtc_refl.
  eapply wsim_bind; [by apply wsim_circ|]. intros c Ec. eapply wsim_bind; [apply wsim_write|]. intros _ _. cbv zeta.
  eapply (wsim_bind l0 any); [case_match; [by apply wsim_ret|apply wsim_panic]|]. intros _ _.
  do 3 (eapply wsim_bind; [apply wsim_write|]; intros _ _). eapply wsim_bind; [apply wsim_cow|]. intros _ _.
  eapply wsim_bind; [apply wsim_inputs; [done|]; intros; by apply wsim_single|]. intros wog _.
  eapply wsim_bind; [apply wsim_const|]. intros _ _. eapply wsim_bind; [apply wsim_get|]. intros st _. eapply wsim_bind; [apply wsim_num|]. intros _ _.
  eapply wsim_bind; [apply wsim_all; [done|]; intros; by apply wsim_single|]. intros wog2 _. eapply wsim_bind; [apply wsim_get|]. intros st2 _.
  eapply wsim_bind; [apply wsim_mapM; intros; apply wsim_key|]. intros vals _. by apply wsim_ret.
Qed.
End write.
Definition w_write_b (s : cells) := wb_write (writing (ce_c s)) (writing (ce_s s)) (ce_heap s).
Definition w_single_b (s : cells) := wb_single (writing (ce_c s)) (writing (ce_s s)) (ce_heap s).

(** Guards of [borrow] do not disturb the writer. One of [borrow_mut] on the circuit written, on a circuit called in it, directly or not, or on the
    storage of one of them can only make it panic: it never writes or returns something else. *)
Theorem C83_write s fuel n given st : fit s ->
  w_write_b s fuel n given st = write (ce_heap s) fuel n given st \/ (blocked s (w_c st) /\ fst (w_write_b s fuel n given st) = Panic PBorrow).
Proof.
  intros F. assert (wsim (blocked s (w_c st)) (w_c st) any (w_write_b s fuel n given) (write (ce_heap s) fuel n given)) as X.
  { apply wsim_written.
    - intros l' c R E [H|H]; exists l', c; (split; [done|split; [done|]]); [left|right]; apply writing_mut; try done; apply F.
    - intros l' E. unfold writing. by rewrite (fit_none_c s l' F E). }
  destruct (X st eq_refl) as [[? _]|?]; auto.
Qed.
Corollary C83_write_shared s fuel n given st : fit s -> (forall l, ~ held_mut (ce_c s) l) -> (forall l, ~ held_mut (ce_s s) l) ->
  w_write_b s fuel n given st = write (ce_heap s) fuel n given st.
Proof. intros F H1 H2. destruct (C83_write s fuel n given st F) as [|[(l' & c & _ & _ & [H|H]) _]]; [done|by destruct (H1 l')|by destruct (H2 (c_storage c))]. Qed.
(** Held on the circuit itself, nothing is written at all. *)
Theorem C83_write_held s fuel n given st : held_mut (ce_c s) (w_c st) -> w_write_b s fuel n given st = (Panic PBorrow, st).
Proof. intros H. unfold w_write_b, wb_write, wb_circ, wb_touch, st_bind, w_get, writing. rewrite H. done. Qed.
(** Held on the storage, or on the called circuit, the writing of every call whose operands have wires is stopped before anything of it is written. *)
Theorem C83_write_call s fuel id il ol ids oi mid wog st c x l' : h_circ (ce_heap s) !! w_c st = Some c -> ~ held_mut (ce_c s) (w_c st) -> fit s ->
  h_stor (ce_heap s) !! c_storage c = Some x -> module_map x !! mid = Some l' -> is_Some (h_circ (ce_heap s) !! l') ->
  held_mut (ce_s s) (c_storage c) \/ held_mut (ce_c s) l' -> Forall (fun i => is_Some (wog !! i)) ids ->
  exists st', w_single_b s (S fuel) id (GModule il ol ids oi mid) wog st = (Panic PBorrow, st') /\ w_out st' = w_out st.
Proof.
  intros Ec Hc F Ex Em [m Hm] H Hw. unfold w_single_b. cbn [wb_single]. unfold wb_body.
  assert (forall single, wb_ensure_all (writing (ce_c s)) (ce_heap s) single wog ids st = (Ok wog, st)) as Ho.
  { intros single. unfold wb_ensure_all. clear -Hw. induction Hw as [|i ids [y Hi] Hw IH]; [done|]. cbn [st_foldM]. erewrite st_bind_ok; [exact IH|].
    unfold wb_ensure. rewrite Hi. done. }
  assert (writing (ce_c s) (w_c st) = false) as Wc.
  { destruct (writing _ _) eqn:W; [|done]. destruct Hc. apply writing_mut; [apply F|done]. }
  erewrite st_bind_ok; [|apply Ho].
  assert (wb_circ (writing (ce_c s)) (ce_heap s) st = (Ok c, st)) as Hcirc by (unfold wb_circ, st_bind, w_get, wb_touch; rewrite Wc; cbn; unfold w_circ; by rewrite Ec).
  erewrite st_bind_ok; [|apply Hcirc]. destruct (writing (ce_s s) (c_storage c)) eqn:Ws; [by exists st|].
  destruct H as [H|H]; [apply (writing_mut (ce_s s)) in H; [congruence|apply F]|].
  assert (writing (ce_c s) l' = true) as Wl by (apply writing_mut; [apply F|done]).
  change (st_bind (st_ret tt) ?f st) with (f tt st). cbv beta. rewrite Ex, Em. change (st_bind (st_ret l') ?f st) with (f l' st). cbv beta.
  rewrite Hm. change (st_bind (st_ret m) ?f st) with (f m st). cbv beta. destruct ids as [|i ids].
  - destruct (length [] + size (input_map m) + 1)%nat; cbn [wb_args]; unfold wb_all, wb_circ, wb_touch, st_bind, st_ret, w_get, w_set_c; cbn; rewrite Wl; cbn; by eexists.
  - replace (length (i :: ids) + size (input_map m) + 1)%nat with (Datatypes.S (length ids + size (input_map m) + 1)) by (cbn; lia). cbn [wb_args].
    unfold st_bind, wb_touch. rewrite Wl. cbn. by eexists.
Qed.

(** * Examples *)
Definition nl_of (ls : list string) : string := String.concat nl ls ++ nl.
(** A text of one gate, read into circuit 1 of the history [two] of Prop_Borrow.v. *)
Definition inv_text : string := nl_of ["1 2"; "1 1"; "1 1"; ""; "1 1 0 1 INV"]%string.
Definition read_after (es : list event) (l : nat) (text : string) : res unit * option N :=
  let (r, t) := rb_read Debug l text (∅, b_run Debug es) in (r, gate_index <$> h_circ (ce_heap (snd t)) !! l).
Example C83_example_read :
  read_after two 1 inv_text = (Ok tt, Some 4) /\ read_after (two ++ [EvHoldC true 0; EvHoldS true 0]) 1 inv_text = (Ok tt, Some 4)
  /\ read_after (two ++ [EvHoldC false 1]) 1 inv_text = (Panic PBorrow, Some 2) /\ read_after (two ++ [EvHoldC true 1]) 1 inv_text = (Panic PBorrow, Some 2)
  /\ read_after (two ++ [EvHoldC true 1]) 1 (nl_of ["1 x"]%string) = read_after two 1 (nl_of ["1 x"]%string).
Proof. vm_compute. done. Qed.
Definition called : list event := two ++ [EvCall call_it; EvCall (OpOutput 0 1)].
Definition write_after (es : list event) : res (list bool) * string :=
  let (r, st) := w_write_b (b_run Debug es) 9 0 ∅ (writer_new 0) in (res_bind r (fun p => Ok p.1), written st).
Example C83_example_write :
  write_after called = (Ok [], nl_of ["1 2"; "2 0 1"; "1 1"; ""; "1 1 0 1 INV"]%string)
  /\ write_after (called ++ [EvHoldC false 0; EvHoldC false 1; EvHoldS false 0]) = write_after called
  /\ write_after (called ++ [EvHoldC true 0]) = (Panic PBorrow, ""%string)
  /\ write_after (called ++ [EvHoldC true 1]) = (Panic PBorrow, nl_of ["1 2"; "2 0 1"; "1 1"; ""]%string)
  /\ write_after (called ++ [EvHoldS true 0]) = (Panic PBorrow, nl_of ["1 2"; "2 0 1"; "1 1"; ""]%string).
Proof. vm_compute. done. Qed.
