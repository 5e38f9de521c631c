(** Property C89: how [write] ends on circuits of any history, disciplined or not. *)
From Verif Require Export Prop_Depth Prop_Faults.
Open Scope N_scope.
Open Scope list_scope.

(** * Specification *)
(** The gate of a circuit is needed for the outputs of the circuit at [l]. *)
Definition reach (h : heap) (l : nat) (p : nat * N) : Prop := exists c k o, h_circ h !! l = Some c /\ output_map c !! k = Some o /\ rtc (needs h) (l, o) p.
(** There is no such gate. *)
Definition missing (h : heap) (p : nat * N) : Prop := exists c, h_circ h !! p.1 = Some c /\ gate_map c !! p.2 = None.
(** The gate is a call with more arguments than the module, which has [w] inputs, takes. *)
Definition overfull (h : heap) (p : nat * N) (w : N) : Prop := exists c il ol ids oi mid x l' m, h_circ h !! p.1 = Some c /\
  gate_map c !! p.2 = Some (GModule il ol ids oi mid) /\ h_stor h !! c_storage c = Some x /\ module_map x !! mid = Some l' /\ h_circ h !! l' = Some m /\
  w = input_len m /\ input_len m < N.of_nat (length ids).
Definition sound (h : heap) (p : nat * N) : Prop := ~ missing h p /\ forall w, ~ overfull h p w.
(** What an outcome says about the gates in [R] and those they need. *)
Definition blame (h : heap) (R : nat * N -> Prop) {A} (r : res A) : Prop :=
  match r with
  | Ok _ | NoFuel => True
  | Err (EUnknownGate g) => exists p l', R p /\ rtc (needs h) p (l', g) /\ missing h (l', g)
  | Err (EUnknownInput w) => exists p q, R p /\ rtc (needs h) p q /\ overfull h q w
  | _ => False
  end.

(** * The writer *)
Definition ext (wog wog' : wmap) : Prop := forall x, is_Some (wog !! x) -> is_Some (wog' !! x).
Lemma ext_refl w : ext w w. Proof. by intros x. Qed.
Lemma ext_trans w1 w2 w3 : ext w1 w2 -> ext w2 w3 -> ext w1 w3. Proof. intros H1 H2 x Hx. auto. Qed.
Lemma ext_insert w k v : ext w (<[k := v]> w).
Proof. intros x Hx. destruct (decide (x = k)) as [->|]; [rewrite lookup_insert; eauto|by rewrite lookup_insert_ne by done]. Qed.
Lemma insert_some (w : wmap) k v x : is_Some ((<[k := v]> w) !! x) -> x = k \/ is_Some (w !! x).
Proof. destruct (decide (x = k)) as [->|]; [by left|rewrite lookup_insert_ne by done; by right]. Qed.

Section any.
Context (h : heap) (Hi : hinv h) (base : N).
(** With [Ex] it is also shown that everything written is sound; for this the caller's map has to be empty. *)
Context (Ex : Prop).
Definition okay (l : nat) (g : N) : Prop := (forall q, rtc (needs h) (l, g) q -> sound h q) /\ Acc (fun q p => needs h p q) (l, g).
Definition allok (l : nat) (wog : wmap) : Prop := Ex -> forall x, is_Some (wog !! x) -> okay l x.
Definition cin (c : circuit) (wog : wmap) : Prop := forall x b, gate_map c !! x = Some (GConst b) -> is_Some (wog !! x).
Record J (l : nat) (s : wstate) : Prop := {
  j_c : w_c s = l;
  j_k : forall i, base <= i -> i < w_const s -> is_Some (w_cow s !! i);
}.
Lemma blame_mono (R R' : nat * N -> Prop) {A B} (r : res A) (r' : res B) :
  match r, r' with Err e, Err e' => e = e' | Panic p, Panic p' => p = p' | NoFuel, NoFuel => True | _, _ => False end ->
  (forall p, R p -> exists p', R' p' /\ rtc (needs h) p' p) -> blame h R r -> blame h R' r'.
Proof.
  intros E H B0. destruct r as [?|e|p|], r' as [?|e'|p'|]; try done; subst. destruct e'; try done; cbn in *.
  - destruct B0 as (p & l' & Rp & Rt & Hm). destruct (H p Rp) as (p' & ? & ?). exists p', l'. split; [done|]. split; [by etrans|done].
  - destruct B0 as (p & q & Rp & Rt & Hm). destruct (H p Rp) as (p' & ? & ?). exists p', q. split; [done|]. split; [by etrans|done].
Qed.
(** A success of [m] from [s] ends in [Q], a failure has a cause among [R] and what these need. *)
Definition wt (R : nat * N -> Prop) {A} (m : WM A) (s : wstate) (Q : A -> wstate -> Prop) : Prop :=
  match m s with (Ok a, s') => Q a s' | (r, _) => blame h R r end.
Lemma wt_bind R {A B} (m : WM A) (k : A -> WM B) s Q Q' : wt R m s Q -> (forall a s', Q a s' -> wt R (k a) s' Q') -> wt R (st_bind m k) s Q'.
Proof. unfold wt, st_bind. intros H K. destruct (m s) as [[a|e|p|] s']; try done. by apply K. Qed.
Lemma wt_mono (R R' : nat * N -> Prop) {A} (m : WM A) s (Q Q' : A -> wstate -> Prop) : wt R m s Q -> (forall p, R p -> exists p', R' p' /\ rtc (needs h) p' p) ->
  (forall a s', Q a s' -> Q' a s') -> wt R' m s Q'.
Proof.
  unfold wt. intros H HR HQ. destruct (m s) as [[a|e|p|] s']; [by apply HQ| | |].
  - by eapply (blame_mono R R' (Err e)). - by eapply (blame_mono R R' (Panic p)). - done.
Qed.
Lemma wt_ret R {A} (a : A) s (Q : A -> wstate -> Prop) : Q a s -> wt R (st_ret a) s Q. Proof. done. Qed.
Lemma wt_circ R l c s : h_circ h !! l = Some c -> J l s -> wt R (w_circ h) s (fun c' s' => c' = c /\ s' = s).
Proof. intros E Hs. unfold wt, w_circ. by rewrite (j_c _ _ Hs), E. Qed.
Lemma wt_key R {A} (m : gmap N A) k s : is_Some (m !! k) -> wt R (w_key m k) s (fun _ s' => s' = s).
Proof. intros [v Hv]. unfold wt, w_key. by rewrite Hv. Qed.
Lemma wt_update R gid iw str wog l s : J l s -> wt R (update_wire gid iw str wog) s (fun wog' s' => J l s' /\ exists v, wog' = <[gid := v]> wog).
Proof. intros [H1 H2]. unfold wt, update_wire, st_bind, w_get. destruct iw; cbn; (split; [by split|eauto]). Qed.

(** A gate whose requirements are sound. *)
Lemma okay_step l g : sound h (l, g) -> (forall l' g', needs h (l, g) (l', g') -> okay l' g') -> okay l g.
Proof.
  intros Hs Hn. split.
  - intros q Hq. inversion Hq as [|? [l' g'] ? N R]; subst; [done|]. by apply (Hn l' g' N).
  - constructor. intros [l' g'] N. by apply (Hn l' g' N).
Qed.
Lemma plain_sound l c g gt : h_circ h !! l = Some c -> gate_map c !! g = Some gt -> (forall il ol ids oi mid, gt <> GModule il ol ids oi mid) -> sound h (l, g).
Proof.
  intros E G Hm. split; [intros (c' & E' & G'); cbn in *; congruence|]. intros w (c' & il & ol & ids & oi & mid & x & l' & m & E' & G' & _). cbn in *.
  rewrite E in E'. injection E' as <-. rewrite G in G'. injection G' as Hg. by eapply Hm.
Qed.
Lemma okay_plain l c g gt : h_circ h !! l = Some c -> gate_map c !! g = Some gt -> (forall il ol ids oi mid, gt <> GModule il ol ids oi mid) ->
  (forall a, a ∈ operands gt -> okay l a) -> okay l g.
Proof.
  intros E G Hm Ha. apply okay_step; [by eapply plain_sound|]. intros l' g' N. inversion N as [? ? ? ? ? E0 G0 H0|? ? ? ? ? ? ? ? ? ? ? ? ? E0 G0]; subst;
    rewrite E in E0; injection E0 as <-; rewrite G in G0; injection G0 as Hg; subst; [auto|by exfalso; eapply Hm].
Qed.

Definition good_single (single : N -> gate -> wmap -> WM wmap) : Prop := forall l c id g wog s, h_circ h !! l = Some c -> gate_map c !! id = Some g -> J l s -> cin c wog -> allok l wog ->
  wt (eq (l, id)) (single id g wog) s (fun wog' s' => J l s' /\ ext wog wog' /\ is_Some (wog' !! id) /\ allok l wog').
Section rec.
Context (single : N -> gate -> wmap -> WM wmap) (Hsg : good_single single).
Lemma cin_ext c w w' : cin c w -> ext w w' -> cin c w'. Proof. intros H E x b Hx. eapply E, H, Hx. Qed.
Lemma wt_ensure l c id wog s : h_circ h !! l = Some c -> J l s -> cin c wog -> allok l wog ->
  wt (eq (l, id)) (ensure h single wog id) s (fun wog' s' => J l s' /\ ext wog wog' /\ is_Some (wog' !! id) /\ allok l wog').
Proof using Hsg.
  intros E Hs Hc Ha. unfold ensure. destruct (wog !! id) as [v|] eqn:Ev; [apply wt_ret; rewrite Ev; eauto using ext_refl|].
  unfold w_gate. eapply (wt_bind _ _ _ _ (fun g s' => gate_map c !! id = Some g /\ s' = s)).
  - eapply wt_bind; [by apply (wt_circ _ l c)|]. intros ? ? [-> ->]. unfold wt, st_lift, c_get_gate. destruct (gate_map c !! id) eqn:G; [done|].
    exists (l, id), l. split; [done|]. split; [apply rtc_refl|]. by exists c.
  - intros g ? [G ->]. by eapply Hsg.
Qed.
Lemma wt_ensure_all l c ids wog s : h_circ h !! l = Some c -> J l s -> cin c wog -> allok l wog ->
  wt (fun p => exists a, a ∈ ids /\ p = (l, a)) (ensure_all h single wog ids) s
     (fun wog' s' => J l s' /\ ext wog wog' /\ (forall a, a ∈ ids -> is_Some (wog' !! a)) /\ allok l wog').
Proof using Hsg.
  intros E. unfold ensure_all. revert wog s. induction ids as [|id ids IH]; intros wog s Hs Hc Ha; cbn [st_foldM].
  - apply wt_ret. split; [done|]. split; [apply ext_refl|]. split; [|done]. by intros a H%elem_of_nil.
  - eapply wt_bind.
    + eapply wt_mono; [by apply (wt_ensure l c id)| |].
      * intros p <-. exists (l, id). split; [exists id; split; [left|done]|apply rtc_refl].
      * intros w' s' H. exact H.
    + intros w' s' (H1 & H2 & H3 & H4). eapply wt_mono; [apply (IH w' s'); [done|by eapply cin_ext|done]| |].
      * intros p (a & Hin & ->). exists (l, a). split; [exists a; split; [by right|done]|apply rtc_refl].
      * intros w2 s2 (K1 & K2 & K3 & K4). split; [done|]. split; [by eapply ext_trans|]. split; [|done]. intros a [->|Hin]%elem_of_cons; [by apply K2|auto].
Qed.
(** The constants of a circuit. *)
Lemma wt_consts l c cs wog s : h_circ h !! l = Some c -> (forall x, x ∈ cs -> exists b, gate_map c !! x = Some (GConst b)) -> J l s -> allok l wog ->
  wt (fun _ => False) (st_foldM (write_const h) wog cs) s (fun wog' s' => J l s' /\ ext wog wog' /\ (forall x, x ∈ cs -> is_Some (wog' !! x)) /\ allok l wog').
Proof using.
  intros E. revert wog s. induction cs as [|x cs IH]; intros wog s Hc Hs Ha; cbn [st_foldM].
  - apply wt_ret. split; [done|]. split; [apply ext_refl|]. split; [|done]. by intros a H%elem_of_nil.
  - destruct (Hc x ltac:(by left)) as [b G].
    eapply (wt_bind _ _ _ _ (fun w' s' => J l s' /\ ext wog w' /\ is_Some (w' !! x) /\ allok l w')).
    + unfold wt, write_const, w_gate, st_bind, w_circ. rewrite (j_c _ _ Hs), E. unfold st_lift, c_get_gate. rewrite G. cbn.
      split; [|split; [apply ext_insert|split; [rewrite lookup_insert; eauto|] ] ].
      * destruct Hs as [H1 H2]. split; cbn; [done|]. intros i Hb Hlt. destruct (decide (i = w_const s)) as [->|]; [rewrite lookup_insert; eauto|]. rewrite lookup_insert_ne by done. apply H2; lia.
      * intros X y [->|Hy]%insert_some; [|by apply Ha]. eapply okay_plain; [done|done|done|]. by intros a Hn%elem_of_nil.
    + intros w' s' (H1 & H2 & H3 & H4). eapply wt_mono; [apply (IH w' s'); [intros y Hy; apply Hc; by right|done|done]|done|].
      intros w2 s2 (K1 & K2 & K3 & K4). split; [done|]. split; [by eapply ext_trans|]. split; [|done]. intros a [->|Hin]%elem_of_cons; [by apply K2|auto].
Qed.
Lemma consts_of c x : cwf c -> x ∈ const_gates c <-> exists b, gate_map c !! x = Some (GConst b).
Proof.
  intros W. rewrite (wf_consts c W), elem_of_list_In, filter_In, <- elem_of_list_In, elem_of_nrange. unfold const_at. split.
  - intros [_ H]. destruct (gate_map c !! x) as [[]|]; try done. eauto.
  - intros [b G]. split; [by eapply gm_lt|]. by rewrite G.
Qed.
(** Outputs of the circuit at [l]. *)
Definition outs (l : nat) (p : nat * N) : Prop := exists c k o, h_circ h !! l = Some c /\ output_map c !! k = Some o /\ p = (l, o).
Lemma wt_pass1 l c acc i s : h_circ h !! l = Some c -> i < output_len c -> J l s -> cin c acc.1 -> allok l acc.1 ->
  wt (outs l) (write_pass1 h single acc i) s (fun acc' s' => J l s' /\ ext acc.1 acc'.1 /\ allok l acc'.1 /\
    exists o g, output_map c !! i = Some o /\ gate_map c !! o = Some g /\ acc'.2 = acc.2 ++ [(o, g)]).
Proof using Hi Hsg.
  intros E Hk Hs Hc Ha. unfold write_pass1. eapply wt_bind; [by apply (wt_circ _ l c)|]. intros ? ? [-> ->].
  destruct (wf_outputs c (hi_circ h Hi l c E) i Hk) as (o & Eo & [g G]).
  eapply (wt_bind _ _ _ _ (fun a s' => a = o /\ s' = s)); [unfold wt, st_lift, c_output_to_gate_id; by rewrite Eo|]. intros ? ? [-> ->].
  eapply (wt_bind _ _ _ _ (fun a s' => a = g /\ s' = s)); [unfold wt, st_lift, c_get_gate; by rewrite G|]. intros ? ? [-> ->].
  assert (forall ids, (forall a, a ∈ ids -> a ∈ operands g) -> wt (outs l) (wog <- ensure_all h single acc.1 ids ;; st_ret (wog, acc.2 ++ [(o, g)])) s
    (fun acc' s' => J l s' /\ ext acc.1 acc'.1 /\ allok l acc'.1 /\ exists o g, output_map c !! i = Some o /\ gate_map c !! o = Some g /\ acc'.2 = acc.2 ++ [(o, g)])) as K.
  { intros ids Hids. eapply wt_bind.
    - eapply wt_mono; [by apply (wt_ensure_all l c ids)| |intros a s' H; exact H].
      intros p (a & Hin & ->). exists (l, o). split; [by exists c, i, o|]. apply rtc_once. econstructor; eauto.
    - intros w' s' (H1 & H2 & _ & H4). apply wt_ret. cbn. split; [done|]. split; [done|]. split; [done|]. by exists o, g. }
  assert (J l s /\ ext acc.1 acc.1 /\ allok l acc.1 /\ exists o' g', output_map c !! i = Some o' /\ gate_map c !! o' = Some g' /\ acc.2 ++ [(o, g)] = acc.2 ++ [(o', g')]) as K0
    by (split; [done|]; split; [apply ext_refl|]; split; [done|]; by exists o, g).
  destruct g; cbn in K; [by apply wt_ret|by apply wt_ret|apply K; auto..].
Qed.
Lemma wt_pass1s l c is acc s : h_circ h !! l = Some c -> (forall i, i ∈ is -> i < output_len c) -> J l s -> cin c acc.1 -> allok l acc.1 ->
  (forall o g, (o, g) ∈ acc.2 -> gate_map c !! o = Some g /\ exists k, output_map c !! k = Some o) ->
  wt (outs l) (st_foldM (write_pass1 h single) acc is) s (fun acc' s' => J l s' /\ ext acc.1 acc'.1 /\ allok l acc'.1 /\
    (forall o g, (o, g) ∈ acc'.2 -> gate_map c !! o = Some g /\ exists k, output_map c !! k = Some o) /\ (forall p, p ∈ acc.2 -> p ∈ acc'.2) /\
    forall i, i ∈ is -> exists o g, output_map c !! i = Some o /\ (o, g) ∈ acc'.2).
Proof using Hi Hsg.
  intros E. revert acc s. induction is as [|i is IH]; intros acc s Hk Hs Hc Ha Hg; cbn [st_foldM].
  - apply wt_ret. split; [done|]. split; [apply ext_refl|]. split; [done|]. split; [done|]. split; [done|]. by intros a H%elem_of_nil.
  - eapply wt_bind; [apply (wt_pass1 l c acc i s E); [apply Hk; by left|done..]|].
    intros acc' s' (H1 & H2 & H3 & (o & g & Eo & G & E2)). eapply wt_mono; [apply (IH acc' s')| |].
    + intros j Hj. apply Hk. by right. + done. + by eapply cin_ext. + done.
    + rewrite E2. intros o' g' [Hin|Hin]%elem_of_app; [by apply Hg|]. apply elem_of_list_singleton in Hin. injection Hin as -> ->. eauto.
    + intros p Hp. exists p. split; [done|apply rtc_refl].
    + intros a2 s2 (K1 & K2 & K3 & K4 & K5 & K6). split; [done|]. split; [by eapply ext_trans|]. split; [done|]. split; [done|]. split.
      * intros p Hp. apply K5. rewrite E2. apply elem_of_app. by left.
      * intros j [->|Hj]%elem_of_cons; [|by apply K6]. exists o, g. split; [done|]. apply K5. rewrite E2. apply elem_of_app. right. apply elem_of_list_singleton. done.
Qed.
Lemma wt_pass2s l c ps wog s : h_circ h !! l = Some c -> (forall o g, (o, g) ∈ ps -> gate_map c !! o = Some g /\ exists k, output_map c !! k = Some o) ->
  J l s -> cin c wog -> allok l wog ->
  wt (outs l) (st_foldM (write_pass2 single) wog ps) s (fun wog' s' => J l s' /\ ext wog wog' /\ allok l wog' /\ forall o g, (o, g) ∈ ps -> is_Some (wog' !! o)).
Proof using Hsg.
  intros E. revert wog s. induction ps as [|[o g] ps IH]; intros wog s Hg Hs Hc Ha; cbn [st_foldM].
  - apply wt_ret. split; [done|]. split; [apply ext_refl|]. split; [done|]. by intros a b H%elem_of_nil.
  - destruct (Hg o g ltac:(by left)) as [G [k Ek]].
    eapply (wt_bind _ _ _ _ (fun w' s' => J l s' /\ ext wog w' /\ is_Some (w' !! o) /\ allok l w')).
    + unfold write_pass2. cbn. destruct (wog !! o) as [v|] eqn:Ev; [apply wt_ret; rewrite Ev; eauto using ext_refl|].
      eapply wt_mono; [by apply (Hsg l c o g wog s E G)| |done]. intros p <-. exists (l, o). split; [by exists c, k, o|apply rtc_refl].
    + intros w' s' (H1 & H2 & H3 & H4). eapply wt_mono; [apply (IH w' s'); [intros o' g' Hin; apply Hg; by right|done|by eapply cin_ext|done]| |].
      * intros p Hp. exists p. split; [done|apply rtc_refl].
      * intros w2 s2 (K1 & K2 & K3 & K4). split; [done|]. split; [by eapply ext_trans|]. split; [done|]. intros o' g' [Hin|Hin]%elem_of_cons; [injection Hin as -> ->; by apply K2|by eapply K4].
Qed.
Lemma wt_write_all l c wog s : h_circ h !! l = Some c -> J l s -> allok l wog ->
  wt (outs l) (write_all h single wog) s (fun wog' s' => J l s' /\ ext wog wog' /\ allok l wog' /\ forall k o, output_map c !! k = Some o -> is_Some (wog' !! o)).
Proof using Hi Hsg.
  intros E Hs Ha. pose proof (hi_circ h Hi l c E) as W. unfold write_all. eapply wt_bind; [by apply (wt_circ _ l c)|]. intros ? ? [-> ->].
  eapply wt_bind. { eapply wt_mono; [apply (wt_consts l c (const_gates c) wog s E); [intros x; by apply consts_of|done|done]|done|intros a s' H; exact H]. }
  intros w1 s1 (H1 & H2 & H3 & H4). assert (cin c w1) as Hc by (intros x b Hx; apply H3, consts_of; eauto).
  eapply wt_bind. { apply (wt_pass1s l c (nrange (output_len c)) (w1, []) s1 E); [intros i; by rewrite elem_of_nrange|done|done|done|by intros o g H%elem_of_nil]. }
  intros [w2 os] s2 (K1 & K2 & K3 & K4 & _ & K6). cbn in *. eapply wt_mono; [apply (wt_pass2s l c os w2 s2 E K4 K1); [by eapply cin_ext|done]| |].
  - intros p Hp. exists p. split; [done|apply rtc_refl].
  - intros w3 s3 (L1 & L2 & L3 & L4). split; [done|]. split; [eauto using ext_trans|]. split; [done|]. intros k o Eo.
    destruct (decide (k < output_len c)) as [Hk|Hk]; [|rewrite (wf_outputs_none c W) in Eo by lia; done].
    destruct (K6 k) as (o' & g & Eo' & Hin); [by apply elem_of_nrange|]. rewrite Eo in Eo'. injection Eo' as <-. by eapply L4.
Qed.
Lemma wt_args l' m n wog s : h_circ h !! l' = Some m -> forall fuel ids w new,
  (length ids <= fuel)%nat -> w + N.of_nat (length ids) = n -> w <= input_len m -> (forall a, a ∈ ids -> is_Some (wog !! a)) -> allok l' new ->
  match bind_args fuel m wog ids w new s with
  | (Ok new', s') => s' = s /\ allok l' new' /\ n <= input_len m
  | (Err (EUnknownInput v), s') => v = input_len m /\ input_len m < n
  | _ => False
  end.
Proof using Hi.
  intros E. pose proof (hi_circ h Hi l' m E) as W. induction fuel as [|fuel IH]; intros [|id ids] w new Hf Hn Hw Hk Ha; cbn [bind_args length] in *; try lia.
  - split; [done|]. split; [done|lia].
  - split; [done|]. split; [done|lia].
  - unfold st_bind at 1, st_lift at 1, c_input_to_gate_id. destruct (decide (w < input_len m)) as [Hlt|Hge].
    + destruct (wf_inputs m W w Hlt) as (g & -> & G). cbn. unfold st_bind, w_key. destruct (Hk id) as [v ->]; [by left|].
      apply (IH ids (w + 1) (<[g := v]> new)); [lia|lia|lia|intros a Hin; apply Hk; by right|].
      intros X x [->|Hx]%insert_some; [|by apply Ha]. eapply okay_plain; [done|done|done|]. by intros a Hin%elem_of_nil.
    + rewrite (wf_inputs_none m W) by lia. cbn. lia.
Qed.
Lemma wt_copy R m new first n l s : (forall i, i < n -> exists o, output_map m !! i = Some o /\ is_Some (new !! o)) -> J l s ->
  forall wog is, (forall i, i ∈ is -> i < n) -> wt R (st_foldM (copy_out m new first) wog is) s
    (fun wog' s' => s' = s /\ ext wog wog' /\ (forall i, i ∈ is -> is_Some (wog' !! (first + i))) /\
      forall x, is_Some (wog' !! x) -> is_Some (wog !! x) \/ exists i, i ∈ is /\ x = first + i).
Proof using.
  intros Hm Hs wog is. revert wog. induction is as [|i is IH]; intros wog Hn; cbn [st_foldM].
  - apply wt_ret. split; [done|]. split; [apply ext_refl|]. split; [by intros i H%elem_of_nil|by left].
  - destruct (Hm i) as (o & Eo & [v Ev]); [apply Hn; by left|].
    eapply (wt_bind _ _ _ _ (fun w' s' => w' = <[first + i := v]> wog /\ s' = s)).
    { unfold wt, copy_out, st_bind, st_lift, c_output_to_gate_id, w_key. rewrite Eo. cbn. by rewrite Ev. }
    intros w' s' [-> ->]. eapply wt_mono; [apply IH; intros j Hj; apply Hn; by right|intros p Hp; exists p; split; [done|apply rtc_refl]|].
    intros w2 s2 (-> & H2 & H3 & H4). split; [done|]. split; [eapply ext_trans; [apply ext_insert|done]|]. split.
    + intros j [->|Hj]%elem_of_cons; [apply H2; rewrite lookup_insert; eauto|auto].
    + intros x Hx. destruct (H4 x Hx) as [[->|H]%insert_some|(j & Hj & ->)]; [right; exists i; split; [left|done]|by left|right; exists j; split; [by right|done] ].
Qed.
Lemma good_body : good_single (single_body h single).
Proof using Hi Hsg.
  intros l c id g wog s E G Hs Hc Ha.
  assert (forall gt ids str, g = gt -> operands gt = ids -> (forall il ol js oi mid, gt <> GModule il ol js oi mid) -> forall w1 s1 iw, J l s1 -> ext wog w1 -> allok l w1 ->
    (forall a, a ∈ ids -> is_Some (w1 !! a)) ->
    wt (eq (l, id)) (update_wire id iw str w1) s1 (fun wog' s' => J l s' /\ ext wog wog' /\ is_Some (wog' !! id) /\ allok l wog')) as Hup.
  { intros gt ids str <- <- Hm w1 s1 iw Hs1 He Ha1 Hin. eapply wt_mono; [by apply wt_update|intros p Hp; exists p; split; [done|apply rtc_refl]|].
    intros w2 s2 (H1 & v & ->). split; [done|]. split; [eapply ext_trans; [done|apply ext_insert]|]. split; [rewrite lookup_insert; eauto|].
    intros X x [->|Hx]%insert_some; [|by apply Ha1]. eapply okay_plain; [done|done|done|]. intros a Ha'. apply Ha1; auto. }
  assert (forall ids, (forall a, a ∈ ids -> a ∈ operands g) -> wt (eq (l, id)) (ensure_all h single wog ids) s
     (fun wog' s' => J l s' /\ ext wog wog' /\ (forall a, a ∈ ids -> is_Some (wog' !! a)) /\ allok l wog')) as Hens.
  { intros ids Hids. eapply wt_mono; [by apply (wt_ensure_all l c ids)| |done]. intros p (a & Hin & ->). exists (l, id). split; [done|]. apply rtc_once. econstructor; eauto. }
  destruct g as [w|b|a|a b|a b|a b|il ol ids oi mid]; cbn [single_body].
  - eapply (Hup _ []); try done. apply ext_refl. by intros a H%elem_of_nil.
  - apply wt_ret. split; [done|]. split; [apply ext_refl|]. split; [by eapply Hc|done].
  - eapply wt_bind; [apply Hens; auto|]. intros w1 s1 (H1 & H2 & H3 & H4).
    eapply wt_bind; [apply wt_key, H3; by left|]. intros x ? ->. by eapply (Hup _ [a]).
  - eapply wt_bind; [apply Hens; auto|]. intros w1 s1 (H1 & H2 & H3 & H4).
    eapply wt_bind; [apply wt_key, H3; by left|]. intros x ? ->. eapply wt_bind; [apply wt_key, H3; right; by left|]. intros y ? ->. by eapply (Hup _ [a; b]).
  - eapply wt_bind; [apply Hens; auto|]. intros w1 s1 (H1 & H2 & H3 & H4).
    eapply wt_bind; [apply wt_key, H3; by left|]. intros x ? ->. eapply wt_bind; [apply wt_key, H3; right; by left|]. intros y ? ->. by eapply (Hup _ [a; b]).
  - eapply wt_bind; [apply Hens; auto|]. intros w1 s1 (H1 & H2 & H3 & H4).
    eapply wt_bind; [apply wt_key, H3; by left|]. intros x ? ->. eapply wt_bind; [apply wt_key, H3; right; by left|]. intros y ? ->. by eapply (Hup _ [a; b]).
  - destruct (hi_calls h Hi l c id il ol ids oi mid E G) as (x & l' & m & Exs & Em & El' & Hil & Hol).
    pose proof (hi_circ h Hi l c E) as W. pose proof (hi_circ h Hi l' m El') as W'.
    destruct (wf_blocks c W id il ol ids oi mid G) as (Ho1 & Ho2 & Hblk).
    eapply wt_bind; [apply Hens; auto|]. intros w1 s1 (H1 & H2 & H3 & H4).
    eapply wt_bind; [by apply (wt_circ _ l c)|]. intros ? ? [-> ->].
    eapply (wt_bind _ _ _ _ (fun a s' => a = l' /\ s' = s1)); [unfold wt; by rewrite Exs, Em|]. intros ? ? [-> ->].
    eapply (wt_bind _ _ _ _ (fun a s' => a = m /\ s' = s1)); [unfold wt; by rewrite El'|]. intros ? ? [-> ->].
    eapply (wt_bind _ _ _ _ (fun new s' => s' = s1 /\ allok l' new /\ N.of_nat (length ids) <= input_len m)).
    { pose proof (wt_args l' m (N.of_nat (length ids)) w1 s1 El' (length ids + size (input_map m) + 1) ids 0 ∅) as K.
      unfold wt. destruct (bind_args (length ids + size (input_map m) + 1) m w1 ids 0 ∅ s1) as [[new|e|p|] s'].
      - apply K; try lia; [done|]. intros X y Hy. rewrite lookup_empty in Hy. by destruct Hy.
      - destruct e; try (exfalso; apply K; try lia; [done|intros X y Hy; rewrite lookup_empty in Hy; by destruct Hy]).
        destruct K as [-> Hlt]; try lia; [done|intros X y Hy; rewrite lookup_empty in Hy; by destruct Hy|].
        exists (l, id), (l, id). split; [done|]. split; [apply rtc_refl|]. exists c, il, ol, ids, oi, mid, x, l', m. auto 10.
      - apply K; try lia; [done|intros X y Hy; rewrite lookup_empty in Hy; by destruct Hy].
      - done. }
    intros new ? (-> & Hnew & Hfit).
    eapply (wt_bind _ _ _ _ (fun st s' => st = s1 /\ s' = s1)); [done|]. intros ? ? [-> ->].
    eapply (wt_bind _ _ _ _ (fun _ s' => J l' s')); [destruct H1; by split|]. intros _ s2 Hs2.
    eapply wt_bind. { eapply wt_mono; [apply (wt_write_all l' m new s2 El' Hs2 Hnew)| |intros a s' H; exact H].
      intros p (m' & k & o & E' & Eo & ->). exists (l, id). split; [done|]. apply rtc_once. eapply needs_callee; eauto. }
    intros new' s3 (K1 & K2 & K3 & K4).
    eapply (wt_bind _ _ _ _ (fun _ s' => J l s')); [destruct K1, H1; by split|]. intros _ s4 Hs4.
    eapply wt_mono; [apply (wt_copy (eq (l, id)) m new' (id - oi) ol l s4)| |].
    + intros i Hlt. destruct (wf_outputs m W' i) as (o & Eo & _); [lia|]. exists o. split; [done|]. by eapply K4.
    + done.
    + intros i. by rewrite elem_of_nrange.
    + intros p <-. exists (l, id). split; [done|apply rtc_refl].
    + intros w5 s5 (-> & L2 & L3 & L4). split; [done|]. split; [by eapply ext_trans|]. split.
      * specialize (L3 oi ltac:(by apply elem_of_nrange)). by replace (id - oi + oi) with id in L3 by lia.
      * intros X y Hy. destruct (L4 y Hy) as [Hy'|(i & Hin & ->)]; [by apply H4|]. apply elem_of_nrange in Hin. specialize (Hblk i Hin).
        apply okay_step.
        -- split; [intros (c' & E' & G'); cbn in *; congruence|].
           intros w (c' & il' & ol' & ids' & oi' & mid' & x' & l2 & m' & E' & G' & X1 & X2 & X3 & X4 & X5). cbn in *.
           rewrite E in E'. injection E' as <-. rewrite Hblk in G'. injection G' as <- <- <- <- <-. rewrite Exs in X1. injection X1 as <-. rewrite Em in X2. injection X2 as <-.
           rewrite El' in X3. injection X3 as <-. lia.
        -- intros l2 g2 N. inversion N as [? ? ? ? ? E0 G0 Hop|? ? ? ? ? ? ? ? ? ? ? ? ? E0 G0 X1 X2 X3 X4]; subst.
           ++ rewrite E in E0. injection E0 as <-. rewrite Hblk in G0. injection G0 as <-. apply H4; [done|]. by apply H3.
           ++ rewrite E in E0. injection E0 as <-. rewrite Hblk in G0. injection G0 as <- <- <- <- <-. rewrite Exs in X1. injection X1 as <-. rewrite Em in X2. injection X2 as <-.
              rewrite El' in X3. injection X3 as <-. apply K3; [done|]. by eapply K4.
Qed.
End rec.
Lemma good_write_single fuel : good_single (write_single h fuel).
Proof using Hi. induction fuel as [|fuel IH]; [by intros l c id g wog s|]. cbn [write_single]. by apply good_body. Qed.
Lemma wt_inputs R fuel l c : h_circ h !! l = Some c -> forall n k w wog s, w + N.of_nat k = input_len c -> (k <= n)%nat -> J l s -> allok l wog ->
  wt R (write_inputs h n (write_single h fuel) k w wog) s (fun wog' s' => J l s' /\ allok l wog').
Proof using Hi.
  intros E. pose proof (hi_circ h Hi l c E) as W. induction n as [|n IH]; intros [|k] w wog s Hw Hk Hs Ha; cbn [write_inputs]; try (by apply wt_ret); [lia|].
  eapply wt_bind; [by apply (wt_circ _ l c)|]. intros ? ? [-> ->]. destruct (wf_inputs c W w) as (g & Ei & G); [lia|].
  eapply (wt_bind _ _ _ _ (fun a s' => a = Some g /\ s' = s)); [unfold wt, st_lift, c_input_to_gate_id; by rewrite Ei|]. intros ? ? [-> ->].
  eapply (wt_bind _ _ _ _ (fun a s' => a = GInput w /\ s' = s)); [unfold wt, st_lift, c_get_gate; by rewrite G|]. intros ? ? [-> ->].
  eapply (wt_bind _ _ _ _ (fun w' s' => J l s' /\ allok l w')).
  - destruct fuel as [|fuel]; [done|]. cbn [write_single single_body]. eapply wt_mono; [by apply wt_update|intros p Hp; exists p; split; [done|apply rtc_refl]|].
    intros w2 s2 (H1 & v & ->). split; [done|]. intros X x [->|Hx]%insert_some; [|by apply Ha]. eapply okay_plain; [done|done|done|]. by intros a Hin%elem_of_nil.
  - intros w' s' [H1 H2]. apply IH; [lia|lia|done|done].
Qed.
Lemma wt_keys R (m : gmap N bool) is s : (forall i, i ∈ is -> is_Some (m !! i)) -> wt R (st_mapM (w_key m) is) s (fun _ s' => s' = s).
Proof using.
  induction is as [|i is IH]; intros H; cbn [st_mapM]; [done|]. eapply wt_bind; [apply wt_key, H; by left|]. intros x ? ->.
  eapply wt_bind; [apply IH; intros; apply H; by right|]. intros xs ? ->. done.
Qed.
End any.
Lemma write_any h l c fuel first given st (Ex : Prop) : hinv h -> h_circ h !! l = Some c -> w_c st = l -> first <= input_len c + num_const c ->
  (Ex -> given = ∅) ->
  wt h (outs h l) (write h fuel first given) st (fun _ _ => Ex -> forall k o, output_map c !! k = Some o -> okay h l o).
Proof.
  intros Hi E Hl Hf Hg. unfold write. set (base := input_len c).
  eapply (wt_bind _ _ _ _ _ (fun a s' => a = c /\ s' = st)); [unfold wt, w_circ; by rewrite Hl, E|]. intros ? ? [-> ->].
  eapply (wt_bind _ _ _ _ _ (fun _ s' => w_c s' = l)); [done|]. intros _ s1 H1.
  eapply (wt_bind _ _ _ _ _ (fun _ s' => s' = s1)); [destruct (N.leb_spec first (input_len c + num_const c)); [done|lia]|]. intros _ ? ->.
  eapply (wt_bind _ _ _ _ _ (fun _ s' => w_c s' = l)); [done|]. intros _ s2 H2.
  eapply (wt_bind _ _ _ _ _ (fun _ s' => w_c s' = l)); [done|]. intros _ s3 H3.
  eapply (wt_bind _ _ _ _ _ (fun _ s' => w_c s' = l)); [done|]. intros _ s4 H4.
  eapply (wt_bind _ _ _ _ _ (fun _ s' => w_c s' = l)); [done|]. intros _ s5 H5.
  (* the keys of the constants only matter from here on *)
  eapply (wt_bind _ _ _ _ _ (fun wog s' => w_c s' = l /\ allok h Ex l wog)).
  { eapply (wt_mono h (outs h l)); [apply (wt_inputs h Hi (w_const s5) Ex _ fuel l c E); [lia|lia| |]| |].
    - split; [done|]. intros i ? ?. lia.
    - intros X x Hx. rewrite (Hg X), lookup_empty in Hx. by destruct Hx.
    - intros p Hp. exists p. split; [done|apply rtc_refl].
    - intros w' s' [ [] ? ]. done. }
  intros wog s6 [H6 Ha].
  eapply (wt_bind _ _ _ _ _ (fun _ s' => w_c s' = l /\ w_const s' = base)); [done|]. intros _ s7 [H7 H7'].
  eapply (wt_bind _ _ _ _ _ (fun a s' => a = s7 /\ s' = s7)); [done|]. intros ? ? [-> ->].
  eapply (wt_bind _ _ _ _ _ (fun _ s' => J base l s')); [split; [done|]; cbn; intros i ? ?; lia|]. intros _ s8 H8.
  eapply wt_bind; [apply (wt_write_all h Hi base Ex (write_single h fuel) (good_write_single h Hi base Ex fuel) l c wog s8 E H8 Ha)|].
  intros wog' s9 (K1 & K2 & K3 & K4).
  eapply (wt_bind _ _ _ _ _ (fun a s' => a = s9 /\ s' = s9)); [done|]. intros ? ? [-> ->].
  eapply wt_bind. { apply wt_keys. intros i Hin. apply elem_of_list_fmap in Hin as (j & -> & Hj). apply elem_of_nrange in Hj. apply (j_k _ _ _ K1); unfold base; lia. }
  intros vals ? ->. apply wt_ret. intros X k o Eo. apply (K3 X o). by eapply K4.
Qed.

(** * Chains that end *)
(** What a gate needs directly. *)
Definition succs (h : heap) (p : nat * N) : list (nat * N) :=
  match h_circ h !! p.1 with
  | None => []
  | Some c =>
    match gate_map c !! p.2 with
    | None => []
    | Some gt => map (fun a => (p.1, a)) (operands gt) ++
      match gt with
      | GModule _ _ _ _ mid =>
        match h_stor h !! c_storage c with
        | Some x => match module_map x !! mid with
                    | Some l' => match h_circ h !! l' with Some c' => map (fun e => (l', e.2)) (map_to_list (output_map c')) | None => [] end
                    | None => [] end
        | None => [] end
      | _ => []
      end
    end
  end.
Lemma succs_ok h p q : q ∈ succs h p <-> needs h p q.
Proof.
  split.
  - destruct p as [l g]. unfold succs. cbn. destruct (h_circ h !! l) as [c|] eqn:E; [|by intros H%elem_of_nil]. destruct (gate_map c !! g) as [gt|] eqn:G; [|by intros H%elem_of_nil].
    intros [H|H]%elem_of_app; [apply elem_of_list_fmap in H as (a & -> & Ha); by eapply needs_operand|].
    destruct gt as [| | | | | |il ol ids oi mid]; try (by apply elem_of_nil in H). destruct (h_stor h !! c_storage c) as [x|] eqn:Es; [|by apply elem_of_nil in H].
    destruct (module_map x !! mid) as [l'|] eqn:Em; [|by apply elem_of_nil in H]. destruct (h_circ h !! l') as [c'|] eqn:E'; [|by apply elem_of_nil in H].
    apply elem_of_list_fmap in H as ([k o] & -> & Ho%elem_of_map_to_list). by eapply needs_callee.
  - intros N. inversion N as [l c g gt a E G Ha|l c g il ol ids oi mid x l' c' k o E G Es Em E' Eo]; subst; unfold succs; cbn; rewrite E, G; apply elem_of_app.
    + left. apply elem_of_list_fmap. eauto.
    + right. rewrite Es, Em, E'. apply elem_of_list_fmap. exists (k, o). split; [done|]. by apply elem_of_map_to_list.
Qed.
Lemma common_bound {A} (P : A -> nat -> Prop) (xs : list A) : (forall x n m, P x n -> (n <= m)%nat -> P x m) -> (forall x, x ∈ xs -> exists n, P x n) -> exists n, forall x, x ∈ xs -> P x n.
Proof.
  intros Hm. induction xs as [|x xs IH]; intros H; [exists O; by intros x Hx%elem_of_nil|].
  destruct (H x ltac:(by left)) as [n Hn]. destruct IH as [m Hx]; [intros; apply H; by right|].
  exists (n + m)%nat. intros y [->|Hy]%elem_of_cons; [by eapply Hm; [|apply Nat.le_add_r]|eapply Hm; [by apply Hx|lia] ].
Qed.
Lemma acc_within h p : Acc (fun q p => needs h p q) p -> exists n, within h p.1 p.2 n.
Proof.
  induction 1 as [p _ IH]. destruct (common_bound (fun q n => within h q.1 q.2 n) (succs h p)) as [n Hn].
  - intros q a b H Hle k r Hk. specialize (H k r Hk). lia.
  - intros q Hq. by apply IH, succs_ok.
  - exists (Datatypes.S n). intros k q Hk. destruct p as [l g]. inversion Hk as [|k' ? [l' g'] ? N Hs]; subst; [lia|].
    specialize (Hn (l', g') (proj2 (succs_ok h _ _) N) k' q Hs). lia.
Qed.
Lemma acc_depth h l c : h_circ h !! l = Some c -> (forall k o, output_map c !! k = Some o -> Acc (fun q p => needs h p q) (l, o)) -> exists n, depth_le h l n.
Proof.
  intros E H. destruct (common_bound (fun e n => within h l e.2 n) (map_to_list (output_map c))) as [n Hn].
  - intros q a b H' Hle k r Hk. specialize (H' k r Hk). lia.
  - intros [k o] Hin%elem_of_map_to_list. apply (acc_within h (l, o)). by eapply H.
  - exists n. intros c' k o E' Eo. rewrite E in E'. injection E' as <-. by apply (Hn (k, o)), elem_of_map_to_list.
Qed.

(** * C89 *)
(** The failures of [write] on a circuit of any history, into a writer in any state and with any map of the caller: if the number of first inputs is too
    large, the assertion fails, otherwise the circuit needs a gate that does not exist, or a call with too many arguments. *)
Theorem C89_cause md ops fuel first given st c : let h := run md ops in h_circ h !! w_c st = Some c ->
  if first <=? input_len c + num_const c then
    match fst (write h fuel first given st) with
    | Ok _ | NoFuel => True
    | Err (EUnknownGate g) => exists l', reach h (w_c st) (l', g) /\ missing h (l', g)
    | Err (EUnknownInput w) => exists p, reach h (w_c st) p /\ overfull h p w
    | _ => False
    end
  else fst (write h fuel first given st) = Panic PAssert.
Proof.
  intros h E. destruct (N.leb_spec first (input_len c + num_const c)) as [Hf|Hf].
  - pose proof (write_any h (w_c st) c fuel first given st False (run_hinv md ops) E eq_refl Hf ltac:(done)) as H. unfold wt in H.
    destruct (write h fuel first given st) as [[v|e|p|] s']; cbn [fst]; try done. destruct e; try done; cbn in H.
    + destruct H as (p & l' & (c' & k & o & E' & Eo & ->) & R & M). exists l'. split; [|done]. by exists c', k, o.
    + destruct H as (p & q & (c' & k & o & E' & Eo & ->) & R & M). exists q. split; [|done]. by exists c', k, o.
  - unfold write, st_bind at 1, w_circ at 1. rewrite E. unfold st_bind at 1, w_write at 1. cbn zeta.
    destruct (N.leb_spec first (input_len c + num_const c)); [lia|]. done.
Qed.
(** Given enough stack and an empty map, [write] succeeds exactly on the circuits whose outputs need only gates that exist, no call with too many arguments,
    and no infinite chain of gates. *)
Theorem C89_exact md ops first st c : let h := run md ops in h_circ h !! w_c st = Some c ->
  (exists fuel v, fst (write h fuel first ∅ st) = Ok v) <->
  first <= input_len c + num_const c /\ (exists n, depth_le h (w_c st) n) /\ (forall p, reach h (w_c st) p -> ~ missing h p /\ forall w, ~ overfull h p w).
Proof.
  intros h E. split.
  - intros (fuel & v & Hv). pose proof (C89_cause md ops fuel first ∅ st c E) as HC. destruct (N.leb_spec first (input_len c + num_const c)) as [Hf|Hf].
    2: { cbn zeta in HC. fold h in HC. congruence. }
    pose proof (write_any h (w_c st) c fuel first ∅ st True (run_hinv md ops) E eq_refl Hf ltac:(done)) as H. unfold wt in H.
    destruct (write h fuel first ∅ st) as [[v'|e|p|] s']; cbn in Hv; try done. specialize (H Logic.I). split; [done|]. split.
    + eapply acc_depth; [done|]. intros k o Eo. by apply (H k o).
    + intros p (c' & k & o & E' & Eo & R). rewrite E in E'. injection E' as <-. by apply (H k o Eo).
  - intros (Hf & [n Hn] & Hs). exists (Datatypes.S n). pose proof (C89_cause md ops (Datatypes.S n) first ∅ st c E) as HC.
    destruct (N.leb_spec first (input_len c + num_const c)); [|lia]. cbn zeta in HC. fold h in HC.
    assert (fst (write h (Datatypes.S n) first ∅ st) <> NoFuel) as Hd.
    { apply C74_write; [lia|]. intros c' k o E' Eo k' q Hk. specialize (Hn c' k o E' Eo k' q Hk). lia. }
    destruct (fst (write h (Datatypes.S n) first ∅ st)) as [v|e|p|]; [eauto| |done|done]. destruct e; try done.
    + destruct HC as (l' & R & M). by apply Hs in R as [R _].
    + destruct HC as (p & R & M). apply Hs in R as [_ R]. by apply R in M.
Qed.
(** A call with three arguments of a module with one input; the evaluator does not accept it either. *)
Definition too_many : list op := [OpNewStorage; OpNewCircuit 0; OpSub 0; OpInput 1; OpNot 1 0; OpOutput 1 1; OpInput 0; OpModule 0 0 [0; 0; 0]; OpOutput 0 1].
(** The same, but nothing needs the call. *)
Definition unneeded : list op := [OpNewStorage; OpNewCircuit 0; OpSub 0; OpInput 1; OpNot 1 0; OpOutput 1 1; OpInput 0; OpModule 0 0 [0; 0; 0]; OpAnd 0 0 9; OpOutput 0 0].
Definition wrote (md : mode) (ops : list op) (fuel : nat) (first : N) : res (list bool) :=
  match fst (write (run md ops) fuel first ∅ (writer_new 0)) with Ok v => Ok v.1 | Err e => Err e | Panic p => Panic p | NoFuel => NoFuel end.
(** The module gets another input, which its output needs, after the call was made. *)
Definition undriven : list op :=
  [OpNewStorage; OpNewCircuit 0; OpSub 0; OpInput 1; OpAnd 1 0 2; OpOutput 1 1; OpInput 0; OpModule 0 0 [0]; OpOutput 0 1; OpInput 1; OpNewCircuit 0].
Definition read_back (md : mode) (ops : list op) (l : nat) : res unit :=
  fst (read md l (written (snd (write (run md ops) 9 1 ∅ (writer_new 0)))) (∅, run md ops)).
(** All outcomes occur. Circuits that cannot be evaluated (C88) are written; what is not needed does no harm. *)
Example C89_example md : wrote md loose 9 1 = Err (EUnknownGate 7) /\ wrote md loose_below 9 1 = Err (EUnknownGate 7) /\ wrote md too_many 9 1 = Err (EUnknownInput 1) /\
  wrote md self_use 9 0 = NoFuel /\ wrote md self_use 9 1 = Panic PAssert /\ wrote md unneeded 9 1 = Ok [] /\
  (forall ops, ops ∈ [consumed_early; used_up; repeated_operand; evicted_argument; outgrown] -> wrote md ops 9 1 = Ok []).
Proof.
  do 6 (split; [destruct md; vm_compute; reflexivity|]). intros ops H. rewrite !elem_of_cons in H.
  destruct H as [->|[->|[->|[->|[->|H] ] ] ] ]; [..|by apply elem_of_nil in H]; destruct md; vm_compute; reflexivity.
Qed.
(** A call with fewer arguments than inputs is written without an error, but the text uses a wire that nothing defines, and it cannot be read back. *)
Example C89_undriven md : wrote md undriven 9 1 = Ok [] /\ read_back md undriven 2 = Err (EUnknownWire 1).
Proof. split; destruct md; vm_compute; reflexivity. Qed.
