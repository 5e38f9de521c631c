(** Properties C24-C30: the Bristol writer. *)
From Verif Require Export WriterFacts Prop_Reader.
Open Scope N_scope.
Open Scope list_scope.

(** * Fuel *)
(** More fuel (call depth) does not change a result other than [NoFuel]. *)
Definition le_st {S A} (m m' : ST S A) : Prop := forall s r s', m s = (r, s') -> r <> NoFuel -> m' s = (r, s').
Lemma le_refl {S A} (m : ST S A) : le_st m m.
Proof. by intros s r s' H _. Qed.
Lemma le_bind {S A B} (m m' : ST S A) (k k' : A -> ST S B) : le_st m m' -> (forall a, le_st (k a) (k' a)) -> le_st (st_bind m k) (st_bind m' k').
Proof.
  intros Hm Hk s r s'. unfold st_bind. destruct (m s) as [[a|e|p|] t] eqn:E; intros H Hn.
  - rewrite (Hm _ _ _ E) by done. by apply Hk.
  - by rewrite (Hm _ _ _ E).
  - by rewrite (Hm _ _ _ E).
  - injection H as <- <-. done.
Qed.
Lemma le_foldM {S A B} (f f' : B -> A -> ST S B) xs : (forall b a, le_st (f b a) (f' b a)) -> forall b, le_st (st_foldM f b xs) (st_foldM f' b xs).
Proof. intros H. induction xs as [|x xs IH]; intros b; cbn [st_foldM]; [apply le_refl|]. apply le_bind; [apply H|apply IH]. Qed.
Section mono.
Context (h : heap) (f f' : N -> gate -> wmap -> WM wmap) (Hf : forall id g wog, le_st (f id g wog) (f' id g wog)).
Lemma le_ensure wog id : le_st (ensure h f wog id) (ensure h f' wog id).
Proof using Hf. unfold ensure. destruct (wog !! id); [apply le_refl|]. apply le_bind; [apply le_refl|]. intros g. apply Hf. Qed.
Lemma le_ensure_all wog ids : le_st (ensure_all h f wog ids) (ensure_all h f' wog ids).
Proof using Hf. apply le_foldM, le_ensure. Qed.
Lemma le_pass1 acc i : le_st (write_pass1 h f acc i) (write_pass1 h f' acc i).
Proof using Hf.
  unfold write_pass1. apply le_bind; [apply le_refl|]. intros c. apply le_bind; [apply le_refl|]. intros id. apply le_bind; [apply le_refl|]. intros g.
  destruct g; try apply le_refl; (apply le_bind; [apply le_ensure_all|intros; apply le_refl]).
Qed.
Lemma le_pass2 wog p : le_st (write_pass2 f wog p) (write_pass2 f' wog p).
Proof using Hf. unfold write_pass2. destruct (wog !! p.1); [apply le_refl|apply Hf]. Qed.
Lemma le_write_all wog : le_st (write_all h f wog) (write_all h f' wog).
Proof using Hf.
  unfold write_all. apply le_bind; [apply le_refl|]. intros c. apply le_bind; [apply le_refl|]. intros w1. apply le_bind; [apply le_foldM, le_pass1|].
  intros [w2 outs]. apply le_foldM, le_pass2.
Qed.
Lemma le_body id g wog : le_st (single_body h f id g wog) (single_body h f' id g wog).
Proof using Hf.
  destruct g; cbn [single_body]; try apply le_refl; (apply le_bind; [apply le_ensure_all|]); intros w1; try apply le_refl.
  do 6 (apply le_bind; [apply le_refl|]; intros ?). apply le_bind; [apply le_write_all|]. intros; apply le_refl.
Qed.
Lemma le_inputs n k w wog : le_st (write_inputs h n f k w wog) (write_inputs h n f' k w wog).
Proof using Hf.
  revert k w wog. induction n as [|n IH]; intros [|k] w wog; try apply le_refl. cbn [write_inputs].
  apply le_bind; [apply le_refl|]. intros c. apply le_bind; [apply le_refl|]. intros [id|]; [|apply IH].
  apply le_bind; [apply le_refl|]. intros g. apply le_bind; [apply Hf|]. intros w'. apply IH.
Qed.
End mono.
Lemma le_single h n m id g wog : (n <= m)%nat -> le_st (write_single h n id g wog) (write_single h m id g wog).
Proof.
  revert m id g wog. induction n as [|n IH]; intros m id g wog Hm.
  - intros s r s' H Hn. injection H as <- <-. done.
  - destruct m as [|m]; [lia|]. apply (le_body h (write_single h n) (write_single h m)). intros. apply IH. lia.
Qed.
Lemma write_mono h n m first given : (n <= m)%nat -> le_st (write h n first given) (write h m first given).
Proof.
  intros Hm. unfold write. apply le_bind; [apply le_refl|]. intros c. do 6 (apply le_bind; [apply le_refl|]; intros _).
  apply le_bind; [apply le_inputs; intros; by apply le_single|]. intros w1. apply le_bind; [apply le_refl|]. intros _.
  apply le_bind; [apply le_refl|]. intros s1. apply le_bind; [apply le_refl|]. intros _.
  apply le_bind; [apply le_write_all; intros; by apply le_single|]. intros; apply le_refl.
Qed.

(** * What a call of [write] does *)
(** From the writer state [st] the call returns the constants [vals], leaves [wog] in the caller's (initially empty) map, has appended
    [text] to the output and leaves the writer in state [st']; at every sufficient call depth. *)
Definition writes (h : heap) (first : N) (st : wstate) (vals : list bool) (wog : wmap) (text : string) (st' : wstate) : Prop :=
  exists F, forall fuel, (F <= fuel)%nat -> write h fuel first ∅ st = (Ok (vals, wog), st') /\ written st' = (written st ++ text)%string.
(** It is a function of the heap, the state and [first]. *)
Lemma sapp_inj a b c : (a ++ b = a ++ c)%string -> b = c.
Proof.
  induction a as [|x a IH]; [done|].
  change ((String x a ++ b)%string) with (String x (a ++ b)%string). change ((String x a ++ c)%string) with (String x (a ++ c)%string).
  intros H. injection H as H. auto.
Qed.
Lemma writes_det h first st v w t s v' w' t' s' : writes h first st v w t s -> writes h first st v' w' t' s' -> v = v' /\ w = w' /\ t = t' /\ s = s'.
Proof.
  intros [F HF] [F' HF']. destruct (HF (F + F')%nat ltac:(lia)) as [E W], (HF' (F + F')%nat ltac:(lia)) as [E' W'].
  rewrite E in E'. injection E' as -> -> ->. rewrite W in W'. repeat split. by eapply sapp_inj.
Qed.
Lemma writes_intro h F first st vals wog text st' : write h F first ∅ st = (Ok (vals, wog), st') -> written st' = (written st ++ text)%string ->
  writes h first st vals wog text st'.
Proof. intros E T. exists F. intros fuel Hf. split; [|done]. eapply write_mono; [exact Hf|exact E|done]. Qed.
Lemma list_choice (P : N -> bool -> Prop) n : (forall k, k < n -> exists b, P k b) ->
  exists bs, N.of_nat (length bs) = n /\ forall k b, bs !! k = Some b -> P (N.of_nat k) b.
Proof.
  induction n as [|n IH] using N.peano_ind; intros H.
  - by exists [].
  - destruct IH as (bs & Hl & Hb); [intros k Hk; apply H; lia|]. destruct (H n) as [b Pb]; [lia|]. exists (bs ++ [b]). split.
    + rewrite app_length. cbn. lia.
    + intros k b' [Hk|[Hk Hk']]%lookup_app_Some; [by apply Hb|]. apply list_lookup_singleton_Some in Hk' as [Hk' <-].
      by replace (N.of_nat k) with n by lia.
Qed.
(** The numbers of the text fit a usize. *)
Definition sized (c : circuit) (n0 : N) : Prop := n0 + input_len c + num_gate c + 2 * num_const c < 2 ^ 64 /\ output_len c < 2 ^ 64.
(** Everything the properties below need, from [write_ok] (WriterFacts.v). *)
Lemma writes_ok h l c first st : dinv h -> cinv h -> h_circ h !! l = Some c -> w_c st = l -> first <= input_len c + num_const c ->
  exists gls vals wog st', writes h first st vals wog (show_prog (wprog c first gls)) st' /\ w_c st' = l /\
    w_num st' = w_num st + input_len c + num_const c + N.of_nat (length gls) /\ written_ok h l c (w_num st) gls vals wog.
Proof.
  intros D C E Hc Hf. destruct (write_ok h l c D C E) as [F HF]. destruct (HF F st first ltac:(lia) Hc Hf) as (gls & vals & wog & st' & Ew & Ho & Hc' & Hn & Ok').
  exists gls, vals, wog, st'. split; [|done]. exists F. intros fuel Hfuel. split.
  - eapply write_mono; [exact Hfuel|exact Ew|done].
  - unfold written. rewrite Ho, WriterFacts.concat_app. by rewrite header_text.
Qed.
Lemma wprog_small h l c n0 first gls vals wog : written_ok h l c n0 gls vals wog -> sized c n0 -> first <= input_len c + num_const c ->
  prog_small (wprog c first gls) = true.
Proof.
  intros O [Hs Hol] Hf. pose proof (wr_gates _ _ _ _ _ _ _ O) as Hg. pose proof (wr_consts _ _ _ _ _ _ _ O) as Hcn.
  unfold prog_small, wprog. cbn [pr_gates pr_wires pr_in pr_out pr_lines].
  apply andb_true_iff. split.
  - cbn [forallb app length]. unfold small. rewrite !(proj2 (N.ltb_lt _ _)) by lia. done.
  - apply forallb_forall. intros gl Hgl. apply elem_of_list_In, elem_of_list_lookup in Hgl as [k Hk].
    destruct (wr_lines _ _ _ _ _ _ _ O _ _ Hk) as (Ho & _ & Hl & Hw). pose proof (lookup_lt_Some _ _ _ Hk) as Hlt.
    unfold line_small. cbn [forallb]. rewrite Ho. unfold small at 1 2. cbn [length]. rewrite !(proj2 (N.ltb_lt _ _)) by lia. cbn [andb].
    apply forallb_forall. intros w Hw'. apply elem_of_list_In, elem_of_app in Hw' as [Hw'|Hw'].
    + unfold small. apply N.ltb_lt. destruct (Hw _ Hw') as [ [? ?]|[ [? ?]|[? ?] ] ]; lia.
    + apply elem_of_list_singleton in Hw' as ->. unfold small. apply N.ltb_lt. lia.
Qed.

(** * Deciding [full] and [tidy] *)
Lemma touch_list_sound c n g x : x ∈ touch_list c n g -> touch c g x.
Proof.
  revert g x. induction n as [|n IH]; intros g x; cbn [touch_list]; intros [H|H]%elem_of_app; try (by apply touch_self); [by apply elem_of_nil in H|].
  destruct (gate_map c !! g) as [gt|] eqn:G; [|by apply elem_of_nil in H]. apply elem_of_list_In, in_flat_map in H as (a & Ha & H).
  eapply touch_oper; [exact G|by apply elem_of_list_In|]. apply IH. by apply elem_of_list_In.
Qed.
Fixpoint full_b (h : heap) (n : nat) (l : nat) : bool :=
  match n with
  | O => false
  | S n => match h_circ h !! l with
    | None => false
    | Some c => forallb (fun p => negb (is_logic p.2 || is_module p.2) ||
          existsb (fun k => match output_map c !! k with Some o => existsb (N.eqb p.1) (touch_list c (N.to_nat o) o) | None => false end)
            (nrange (output_len c))) (map_to_list (gate_map c)) && forallb (full_b h n) (callees h c)
    end
  end.
Lemma full_b_sound h n l : full_b h n l = true -> full h l.
Proof.
  revert l. induction n as [|n IH]; intros l; cbn [full_b]; [done|].
  destruct (h_circ h !! l) as [c|] eqn:E; [|done]. intros [H1 H2]%andb_true_iff. econstructor; [exact E| |].
  - intros g gt G Hk. rewrite forallb_forall in H1. specialize (H1 (g, gt)). cbn [fst snd] in H1.
    assert (Hin : In (g, gt) (map_to_list (gate_map c))) by by apply elem_of_list_In, elem_of_map_to_list.
    specialize (H1 Hin). apply orb_true_iff in H1 as [H1|H1].
    + apply negb_true_iff, orb_false_iff in H1 as [H3 H4]. destruct Hk; congruence.
    + apply existsb_exists in H1 as (k & _ & H1). destruct (output_map c !! k) as [o|] eqn:Eo; [|done].
      apply existsb_exists in H1 as (x & Hx & ->%N.eqb_eq). exists k, o. split; [done|]. eapply touch_list_sound. by apply elem_of_list_In.
  - intros l' Hc. apply IH. rewrite forallb_forall in H2. apply H2. by apply elem_of_list_In, callees_complete.
Qed.
(** [n] outputs of a module call first. *)
Definition outs_b (c : circuit) (n : N) : bool :=
  forallb (fun k => match output_map c !! k with
    | Some o => match deps c o with [] => true | _ => false end &&
        forallb (fun k' => match output_map c !! k' with Some o' => (k =? k') || negb (o =? o') | None => true end) (nrange (output_len c)) &&
        ((k <? n) || match gate_map c !! o with Some gt => is_logic gt | None => false end)
    | None => true end) (nrange (output_len c)).
Fixpoint tidy_b (h : heap) (fuel : nat) (l : nat) : bool :=
  match fuel with
  | O => false
  | S fuel => match h_circ h !! l with
    | None => false
    | Some c => outs_b c 0 ||
      match output_map c !! 0 with
      | Some g => match gate_map c !! g with
        | Some (GModule _ n _ 0 mid) => (n <=? output_len c) && outs_b c n &&
            forallb (fun j => match output_map c !! j with Some o => o =? g + j | None => false end) (nrange n) &&
            match h_stor h !! c_storage c with
            | Some x => match module_map x !! mid with Some l' => tidy_b h fuel l' | None => false end
            | None => false end
        | _ => false end
      | None => false end
    end
  end.
Lemma outs_b_sound c n : cwf c -> outs_b c n = true ->
  (forall k o, n <= k -> output_map c !! k = Some o -> exists gt, gate_map c !! o = Some gt /\ is_logic gt = true) /\
  (forall k1 k2 o, output_map c !! k1 = Some o -> output_map c !! k2 = Some o -> k1 = k2) /\
  (forall k o, output_map c !! k = Some o -> deps c o = []).
Proof.
  intros W H. unfold outs_b in H. rewrite forallb_forall in H.
  assert (Hk : forall k o, output_map c !! k = Some o -> In k (nrange (output_len c))).
  { intros k o Eo. apply elem_of_list_In, elem_of_nrange. destruct (decide (k < output_len c)); [done|].
    rewrite (wf_outputs_none c W) in Eo by lia. done. }
  split; [|split].
  - intros k o Hn Eo. specialize (H _ (Hk _ _ Eo)). rewrite Eo in H. apply andb_true_iff in H as [_ H]. apply orb_true_iff in H as [H|H].
    + apply N.ltb_lt in H. lia.
    + destruct (gate_map c !! o) as [gt|]; [|done]. eauto.
  - intros k1 k2 o E1 E2. specialize (H _ (Hk _ _ E1)). rewrite E1 in H. apply andb_true_iff in H as [H _]. apply andb_true_iff in H as [_ H].
    rewrite forallb_forall in H. specialize (H _ (Hk _ _ E2)). rewrite E2 in H. apply orb_true_iff in H as [H|H]; [by apply N.eqb_eq|].
    by rewrite N.eqb_refl in H.
  - intros k o Eo. specialize (H _ (Hk _ _ Eo)). rewrite Eo in H. apply andb_true_iff in H as [H _]. apply andb_true_iff in H as [H _].
    by destruct (deps c o).
Qed.
Lemma tidy_b_sound h fuel l : hinv h -> tidy_b h fuel l = true -> tidy h l.
Proof.
  intros I. revert l. induction fuel as [|fuel IH]; intros l; cbn [tidy_b]; [done|].
  destruct (h_circ h !! l) as [c|] eqn:E; [|done]. pose proof (hi_circ h I _ _ E) as W. intros [H|H]%orb_true_iff.
  - destruct (outs_b_sound _ _ W H) as (H1 & H2 & H3). eapply (tidy_intro h l c 0); eauto. lia.
  - destruct (output_map c !! 0) as [g|] eqn:Eo; [|done]. destruct (gate_map c !! g) as [ [| | | | | |il n ids oi mid]|] eqn:G; try done.
    destruct oi; [|done]. apply andb_true_iff in H as [H H4]. apply andb_true_iff in H as [H H5]. apply andb_true_iff in H as [Hn H].
    destruct (outs_b_sound _ _ W H) as (H1 & H2 & H3). eapply (tidy_intro h l c n); eauto; [by apply N.leb_le|]. right.
    destruct (h_stor h !! c_storage c) as [x|] eqn:Es; [|done]. destruct (module_map x !! mid) as [l'|] eqn:Em; [|done].
    exists g, il, ids, mid, x, l'. repeat split; auto. intros j Hj. rewrite forallb_forall in H5. specialize (H5 j).
    rewrite <- elem_of_list_In, elem_of_nrange in H5. specialize (H5 Hj). destruct (output_map c !! j); [|done]. apply N.eqb_eq in H5. by subst.
Qed.

(** * C24 *)
(** Every disciplined history, every circuit, every split: the call returns (at every sufficient depth). *)
Theorem C24_terminates md ops l c first : disciplined md heap_empty ops -> h_circ (run md ops) !! l = Some c ->
  first <= input_len c + num_const c ->
  exists vals wog text st, writes (run md ops) first (writer_new l) vals wog text st.
Proof.
  intros D E Hf. destruct (writes_ok _ l c first (writer_new l) (dinv_run _ _ D) (cinv_run _ _ D) E eq_refl Hf) as (gls & vals & wog & st & H & _). eauto.
Qed.
(** The converse: what such a call has done. *)
Lemma writes_inv h l c first st vals wog text st' : dinv h -> cinv h -> h_circ h !! l = Some c -> w_c st = l ->
  first <= input_len c + num_const c -> writes h first st vals wog text st' ->
  exists gls, text = show_prog (wprog c first gls) /\ (sized c (w_num st) -> parse_prog text = Some (wprog c first gls)) /\
    w_c st' = l /\ w_num st' = w_num st + input_len c + num_const c + N.of_nat (length gls) /\ written_ok h l c (w_num st) gls vals wog.
Proof.
  intros D C E Hc Hf H. destruct (writes_ok _ l c first st D C E Hc Hf) as (gls & vals' & wog' & st2 & H' & Hc' & Hn & O).
  destruct (writes_det _ _ _ _ _ _ _ _ _ _ _ H H') as (-> & -> & -> & ->). exists gls. split; [done|]. split; [|done].
  intros Hs. apply show_prog_parse. by eapply wprog_small.
Qed.
Lemma writes_run md ops l c first vals wog text st : disciplined md heap_empty ops -> h_circ (run md ops) !! l = Some c ->
  first <= input_len c + num_const c -> sized c 0 -> writes (run md ops) first (writer_new l) vals wog text st ->
  exists gls, parse_prog text = Some (wprog c first gls) /\ w_c st = l /\
    w_num st = input_len c + num_const c + N.of_nat (length gls) /\ written_ok (run md ops) l c 0 gls vals wog.
Proof.
  intros D E Hf Hs H. destruct (writes_inv _ l c first (writer_new l) _ _ _ _ (dinv_run _ _ D) (cinv_run _ _ D) E eq_refl Hf H) as (gls & _ & Hp & Hc & Hn & O).
  exists gls. split; [by apply Hp|]. split; [done|]. split; [|done]. rewrite Hn. cbn. lia.
Qed.
Lemma loaded_at (inputs vals pad : list bool) i :
  (forall b, inputs !! i = Some b -> load_from 0 (inputs ++ vals ++ pad) !! (0 + N.of_nat i) = Some b) /\
  (forall b, vals !! i = Some b -> load_from 0 (inputs ++ vals ++ pad) !! (N.of_nat (length inputs) + N.of_nat i) = Some b).
Proof.
  split; intros b Hb; rewrite load_from_0.
  - replace (N.to_nat (0 + N.of_nat i)) with i by lia. by apply lookup_app_l_Some.
  - rewrite lookup_app_r by lia. replace (N.to_nat (N.of_nat (length inputs) + N.of_nat i) - length inputs)%nat with i by lia.
    by apply lookup_app_l_Some.
Qed.
(** The text is a Bristol program. Its lines, executed on the inputs followed by the returned constants (and any bits on the remaining
    announced input wires), give every recorded gate its value; every output is recorded. *)
Theorem C24_values md ops l c first vals wog text st : disciplined md heap_empty ops -> h_circ (run md ops) !! l = Some c ->
  first <= input_len c + num_const c -> sized c 0 ->
  writes (run md ops) first (writer_new l) vals wog text st ->
  exists p, parse_prog text = Some p /\ N.of_nat (length vals) <= num_const c /\ (forall k o, output_map c !! k = Some o -> is_Some (wog !! o)) /\
    forall q inputs pad, N.of_nat (length inputs) = input_len c -> N.of_nat (length (vals ++ pad)) = num_const c ->
      exists e, exec_lines q (load_from 0 (inputs ++ vals ++ pad)) (pr_lines p) = Some e /\
        forall g w, wog !! g = Some w -> exists b, e !! w = Some b /\ gv (run md ops) l (env_of inputs) g b.
Proof.
  intros D E Hf Hs H. destruct (writes_run _ _ _ _ _ _ _ _ _ D E Hf Hs H) as (gls & Hp & _ & _ & O).
  exists (wprog c first gls). split; [done|]. split; [apply (wr_consts _ _ _ _ _ _ _ O)|]. split; [apply (wr_outs _ _ _ _ _ _ _ O)|]. intros q inputs pad Hi Hpad.
  destruct (wr_sound _ _ _ _ _ _ _ O q inputs (load_from 0 (inputs ++ vals ++ pad)) Hi) as (e & He & _ & Hr).
  - intros i b. apply (loaded_at inputs vals pad).
  - intros i b. rewrite <- Hi. apply (loaded_at inputs vals pad).
  - exists e. split; done.
Qed.
(** In particular the outputs: what [computes] says of the circuit is what the lines leave on the recorded wires. *)
Theorem C24_outputs md ops l c first vals wog text st : disciplined md heap_empty ops -> h_circ (run md ops) !! l = Some c ->
  first <= input_len c + num_const c -> sized c 0 ->
  writes (run md ops) first (writer_new l) vals wog text st ->
  exists p, parse_prog text = Some p /\ forall q inputs pad, N.of_nat (length inputs) = input_len c -> N.of_nat (length (vals ++ pad)) = num_const c ->
    exists e outs, exec_lines q (load_from 0 (inputs ++ vals ++ pad)) (pr_lines p) = Some e /\ computes (run md ops) l inputs outs /\
      forall k b, outs !! k = Some b -> exists o w, output_map c !! N.of_nat k = Some o /\ wog !! o = Some w /\ e !! w = Some b.
Proof.
  intros D E Hf Hs H. destruct (C24_values _ _ _ _ _ _ _ _ _ D E Hf Hs H) as (p & Hp & _ & Ho & Hv). exists p. split; [done|].
  intros q inputs pad Hi Hpad. destruct (Hv q inputs pad Hi Hpad) as (e & He & Hr). exists e.
  destruct (list_choice (fun k b => exists o w, output_map c !! k = Some o /\ wog !! o = Some w /\ e !! w = Some b /\ gv (run md ops) l (env_of inputs) o b)
    (output_len c)) as (outs & Hlen & Houts).
  { intros k Hk. pose proof (hi_circ _ (di_inv _ (dinv_run _ _ D)) _ _ E) as W. destruct (wf_outputs _ W k Hk) as (o & Eo & _).
    destruct (Ho _ _ Eo) as [w Hw]. destruct (Hr _ _ Hw) as (b & Hb & Hg). exists b, o, w. done. }
  exists outs. split; [done|]. split.
  - exists c. split; [done|]. split; [done|]. intros k b Hb. destruct (Houts _ _ Hb) as (o & w & Eo & _ & _ & Hg). exists c, o. done.
  - intros k b Hb. destruct (Houts _ _ Hb) as (o & w & Eo & Hw & Hv' & _). eauto.
Qed.
(** Inputs, a constant, a called circuit with a constant: the two constants are returned in the order of their wires. *)
Example C24_example : disciplined Debug heap_empty demo /\ exists wog st, writes (run Debug demo) 2 (writer_new 0) [true] wog
    (unlines ["4 8"; "2 2 1"; "1 1"; ""; "2 1 0 1 3 XOR"; "1 1 3 4 INV"; "2 1 4 2 5 AND"; "2 1 0 5 6 OR"]) st /\ wog !! 3 = Some 6.
Proof.
  split; [apply disciplined_b_sound; vm_compute; reflexivity|]. do 2 eexists. split.
  - apply (writes_intro _ 9); [vm_compute; reflexivity|vm_compute; reflexivity].
  - vm_compute. reflexivity.
Qed.

(** * C25 *)
(** Line number [k] assigns the wire after all inputs, constants and earlier lines, and reads only inputs, returned constants and wires
    assigned by earlier lines. *)
Theorem C25_wires md ops l c first vals wog text st : disciplined md heap_empty ops -> h_circ (run md ops) !! l = Some c ->
  first <= input_len c + num_const c -> sized c 0 ->
  writes (run md ops) first (writer_new l) vals wog text st ->
  exists p, parse_prog text = Some p /\
    (forall k gl, pr_lines p !! k = Some gl -> gl_outs gl = [input_len c + num_const c + N.of_nat k] /\
      forall w, w ∈ gl_ins gl -> w < input_len c + N.of_nat (length vals) \/
        exists j gl', (j < k)%nat /\ pr_lines p !! j = Some gl' /\ gl_outs gl' = [w]) /\
    N.of_nat (length vals) <= num_const c.
Proof.
  intros D E Hf Hs H. destruct (writes_run _ _ _ _ _ _ _ _ _ D E Hf Hs H) as (gls & Hp & _ & _ & O).
  exists (wprog c first gls). split; [done|]. split; [|apply (wr_consts _ _ _ _ _ _ _ O)]. cbn [wprog pr_lines]. intros k gl Hk.
  destruct (wr_lines _ _ _ _ _ _ _ O _ _ Hk) as (Ho & _ & _ & Hw). split; [done|]. intros w Hin.
  destruct (Hw w Hin) as [ [H1 H2]|[ [H1 H2]|[H1 H2] ] ]; [left; lia|left; lia|]. right.
  pose proof (lookup_lt_Some _ _ _ Hk) as Hlt. set (j := N.to_nat (w - (input_len c + num_const c))).
  destruct (lookup_lt_is_Some_2 gls j) as [gl' Hj]; [lia|]. exists j, gl'. split; [lia|]. split; [done|].
  destruct (wr_lines _ _ _ _ _ _ _ O _ _ Hj) as (Ho' & _). rewrite Ho'. f_equal. lia.
Qed.
(** No wire is assigned twice, no announced input wire is assigned, and only the four gate kinds of the library occur, each with its
    number of operands (the lines can be executed, C24). *)
Theorem C25_single_assignment md ops l c first vals wog text st : disciplined md heap_empty ops -> h_circ (run md ops) !! l = Some c ->
  first <= input_len c + num_const c -> sized c 0 ->
  writes (run md ops) first (writer_new l) vals wog text st ->
  exists p, parse_prog text = Some p /\ NoDup (flat_map gl_outs (pr_lines p)) /\
    (forall gl w, gl ∈ pr_lines p -> w ∈ gl_outs gl -> nsum (pr_in p) <= w) /\
    forall gl, gl ∈ pr_lines p -> gl_kind gl ∈ [KInv; KXor; KAnd; KOr].
Proof.
  intros D E Hf Hs H. destruct (writes_run _ _ _ _ _ _ _ _ _ D E Hf Hs H) as (gls & Hp & _ & _ & O).
  exists (wprog c first gls). split; [done|]. cbn [wprog pr_lines pr_in nsum fold_right].
  assert (Hl : forall k gl, gls !! k = Some gl -> gl_outs gl = [input_len c + num_const c + N.of_nat k]).
  { intros k gl Hk. apply (wr_lines _ _ _ _ _ _ _ O _ _ Hk). }
  split; [|split].
  - clear -Hl. assert (H : forall n gls, (forall k gl, gls !! k = Some gl -> gl_outs gl = [n + N.of_nat k]) ->
      NoDup (flat_map gl_outs gls) /\ forall w, w ∈ flat_map gl_outs gls -> n <= w).
    { clear. intros n gls. revert n. induction gls as [|gl gls IH]; intros n H; cbn [flat_map].
      - split; [constructor|]. intros w Hw. by apply elem_of_nil in Hw.
      - destruct (IH (n + 1)) as [H1 H2]. { intros k gl' Hk. rewrite (H (S k) gl' Hk). f_equal. lia. }
        rewrite (H 0%nat gl eq_refl). cbn [app]. split.
        + constructor; [|done]. intros Hin. apply H2 in Hin. lia.
        + intros w [-> |Hw]%elem_of_cons; [lia|]. apply H2 in Hw. lia. }
    by apply (H (input_len c + num_const c)).
  - intros gl w [k Hk]%elem_of_list_lookup Hw. rewrite (Hl _ _ Hk) in Hw. apply elem_of_list_singleton in Hw. lia.
  - intros gl [k Hk]%elem_of_list_lookup. apply (wr_lines _ _ _ _ _ _ _ O _ _ Hk).
Qed.
Example C25_example : exists p, parse_prog (unlines ["4 8"; "2 2 1"; "1 1"; ""; "2 1 0 1 3 XOR"; "1 1 3 4 INV"; "2 1 4 2 5 AND"; "2 1 0 5 6 OR"]) = Some p /\
  flat_map gl_outs (pr_lines p) = [3; 4; 5; 6] /\ nsum (pr_in p) = 3.
Proof. eexists. split; [vm_compute; reflexivity|]. split; vm_compute; reflexivity. Qed.

(** * C26 *)
Theorem C26_header md ops l c first vals wog text st : disciplined md heap_empty ops -> h_circ (run md ops) !! l = Some c ->
  first <= input_len c + num_const c -> sized c 0 ->
  writes (run md ops) first (writer_new l) vals wog text st ->
  exists p, parse_prog text = Some p /\ pr_in p = [first; input_len c + num_const c - first] /\ pr_out p = [output_len c] /\
    pr_gates p = num_gate c /\ N.of_nat (length (pr_lines p)) <= pr_gates p /\
    (full (run md ops) l -> N.of_nat (length (pr_lines p)) = pr_gates p /\ N.of_nat (length vals) = num_const c).
Proof.
  intros D E Hf Hs H. destruct (writes_run _ _ _ _ _ _ _ _ _ D E Hf Hs H) as (gls & Hp & _ & _ & O).
  exists (wprog c first gls). split; [done|]. do 3 (split; [done|]). cbn [wprog pr_lines pr_gates].
  split; [apply (wr_gates _ _ _ _ _ _ _ O)|apply (wr_full _ _ _ _ _ _ _ O)].
Qed.
(** A split that exceeds the number of inputs and constants: a panic, whatever the heap, the writer and the caller's map, after the first
    line only. *)
Theorem C26_panics h fuel first given st c : h_circ h !! w_c st = Some c -> input_len c + num_const c < first ->
  exists st' line1, write h fuel first given st = (Panic PAssert, st') /\ w_out st' = w_out st ++ [line1].
Proof.
  intros E Hf. do 2 eexists. unfold write, w_circ, st_bind at 1. rewrite E. unfold st_bind at 1. cbn [w_write].
  unfold st_bind at 1. rewrite (proj2 (N.leb_gt _ _) Hf). split; reflexivity.
Qed.
(** The count can be strictly too large: a gate no output needs is announced but not written. *)
Definition dead_gate : list op := [OpNewStorage; OpNewCircuit 0; OpInput 0; OpNot 0 0; OpNot 0 0; OpOutput 0 2].
Theorem C26_not_exact : disciplined Debug heap_empty dead_gate /\ exists wog st p,
  writes (run Debug dead_gate) 1 (writer_new 0) [] wog (show_prog p) st /\ pr_gates p = 2 /\ length (pr_lines p) = 1%nat.
Proof.
  split; [apply disciplined_b_sound; vm_compute; reflexivity|]. do 2 eexists. exists (Prog 2 3 [1; 0] [1] [GLine KInv [0] [1]]). split.
  - apply (writes_intro _ 9); [vm_compute; reflexivity|vm_compute; reflexivity].
  - done.
Qed.
Example C26_example : full (run Debug demo) 0 /\ (exists c, h_circ (run Debug demo) !! 0%nat = Some c /\ num_gate c = 4 /\ num_const c = 1 /\ sized c 0).
Proof.
  split; [apply (full_b_sound _ 9); vm_compute; reflexivity|]. eexists. split; [vm_compute; reflexivity|]. split; [reflexivity|]. split; [reflexivity|].
  split; vm_compute; reflexivity.
Qed.

(** * C27 *)
Lemma computes_unique h l inputs o1 o2 : computes h l inputs o1 -> computes h l inputs o2 -> o1 = o2.
Proof.
  intros (c & E & L1 & H1) (c' & E' & L2 & H2). rewrite E in E'. injection E' as <-. apply list_eq_same_length with (n := length o1); [lia|done|].
  intros i x y _ Hx Hy. eapply outv_det; [by apply H1|by apply H2].
Qed.
Lemma exec_keep q gls : forall e e' w, exec_lines q e gls = Some e' -> (forall gl, gl ∈ gls -> w ∉ gl_outs gl) -> e' !! w = e !! w.
Proof.
  induction gls as [|gl gls IH]; intros e e' w H Hn; cbn [exec_lines] in H; [by injection H as <-|].
  destruct (exec_line q e gl) as [e1|] eqn:E1; [|done]. cbn in H. rewrite (IH _ _ _ H) by (intros gl' Hgl; apply Hn; by right).
  unfold exec_line in E1. destruct (line_value q e gl); [|done]. cbn in E1. destruct (gl_outs gl) as [|o os] eqn:Eo; [done|]. cbn in E1.
  injection E1 as <-. apply lookup_insert_ne. intros ->. apply (Hn gl); [by left|]. rewrite Eo. by left.
Qed.
Theorem C27_round_trip md ops l c first vals wog text st md2 h2 l2 : disciplined md heap_empty ops -> h_circ (run md ops) !! l = Some c ->
  first <= input_len c -> sized c 0 -> num_const c = 0 -> full (run md ops) l -> tidy (run md ops) l ->
  writes (run md ops) first (writer_new l) vals wog text st -> target h2 l2 ->
  exists h', read_fresh md2 l2 text h2 = (Ok tt, h') /\ inputs_of h' l2 = inputs_of (run md ops) l /\ outputs_of h' l2 = outputs_of (run md ops) l /\
    forall inputs, N.of_nat (length inputs) = input_len c ->
      (exists outs, computes (run md ops) l inputs outs) /\
      forall outs, computes h' l2 inputs outs <-> computes (run md ops) l inputs outs.
Proof.
  intros D E Hf Hs Hc Hfull Htidy H T. assert (Hf2 : first <= input_len c + num_const c) by lia. destruct (writes_run _ _ _ _ _ _ _ _ _ D E Hf2 Hs H) as (gls & Hp & _ & _ & O).
  destruct (wr_full _ _ _ _ _ _ _ O Hfull) as [Hg Hv]. destruct (wr_tidy _ _ _ _ _ _ _ O Htidy) as [Hol Hout].
  assert (Hr : forall inputs, N.of_nat (length inputs) = input_len c ->
    exists outs, run_prog EqCopies (wprog c first gls) inputs = Some outs /\ computes (run md ops) l inputs outs).
  { intros inputs Hi. destruct (wr_sound _ _ _ _ _ _ _ O EqCopies inputs (load_from 0 inputs) Hi) as (e & He & _ & Hr).
    - intros i b Hb. rewrite load_from_0. by replace (N.to_nat (0 + N.of_nat i)) with i by lia.
    - intros i b Hb. apply lookup_lt_Some in Hb. lia.
    - destruct (list_choice (fun k b => exists o w, output_map c !! k = Some o /\ wog !! o = Some w /\ e !! w = Some b /\ gv (run md ops) l (env_of inputs) o b)
        (output_len c)) as (outs & Hlen & Houts).
      { intros k Hk. pose proof (hi_circ _ (di_inv _ (dinv_run _ _ D)) _ _ E) as W. destruct (wf_outputs _ W k Hk) as (o & Eo & _).
        pose proof (Hout _ _ Eo) as Hw. destruct (Hr _ _ Hw) as (b & Hb & Hgv). eexists b, o, _. eauto. }
      exists outs. split.
      + apply run_prog_exec. cbn [wprog pr_in pr_out pr_wires pr_lines nsum fold_right]. split; [lia|]. split; [lia|]. exists e. split; [done|].
        apply mapM_Some_2, Forall2_same_length_lookup_2.
        * rewrite nseq_length. lia.
        * intros k w b Hw Hb. rewrite nseq_lookup in Hw. destruct decide; [|done]. injection Hw as <-.
          destruct (Houts _ _ Hb) as (o & w & Eo & Hw & Hb' & _). rewrite (Hout _ _ Eo) in Hw. injection Hw as <-. rewrite <- Hb'. f_equal. rewrite Hc. lia.
      + exists c. split; [done|]. split; [done|]. intros k b Hb. destruct (Houts _ _ Hb) as (o & w & Eo & _ & _ & Hgv). exists c, o. done. }
  destruct (C19_accepts md2 h2 l2 text _ (replicate (N.to_nat (input_len c)) false) T Hp) as (h' & Er & Hin & Hon & _).
  { destruct (Hr (replicate (N.to_nat (input_len c)) false)) as (outs & -> & _); [rewrite replicate_length; lia|]. eauto. }
  exists h'. split; [done|]. cbn [wprog pr_in pr_out nsum fold_right] in Hin, Hon. unfold inputs_of, outputs_of, on in *. rewrite E.
  split; [rewrite Hin; f_equal; lia|]. split; [rewrite Hon; f_equal; lia|]. intros inputs Hi. destruct (Hr _ Hi) as (outs & R & C). split; [eauto|].
  destruct (C18_read _ _ _ _ _ T Er) as (p' & P' & _ & Hc'). rewrite Hp in P'. injection P' as <-.
  cbn [wprog pr_in pr_out pr_wires nsum fold_right] in Hc'. destruct Hc' as (_ & _ & Hc'); [lia|].
  destruct (Hc' inputs) as (outs2 & R2 & C2); [lia|]. fold (wprog c first gls) in R2.
  assert (outs2 = outs) as -> by (unfold wprog in *; congruence).
  intros outs'. split; intros Hx; [rewrite (computes_unique _ _ _ _ _ Hx C2)|rewrite (computes_unique _ _ _ _ _ Hx C)]; done.
Qed.
(** A full adder as a module, called once; its two outputs first, then a gate of the caller. *)
Definition tidy_demo : list op :=
  [OpNewStorage; OpNewCircuit 0; OpInput 0; OpInput 0; OpInput 0; OpSub 0; OpInput 1; OpInput 1; OpInput 1;
   OpXor 1 0 1; OpXor 1 3 2; OpAnd 1 0 1; OpAnd 1 3 2; OpOr 1 5 6; OpOutput 1 4; OpOutput 1 7;
   OpNot 0 1; OpAnd 0 0 2; OpModule 0 0 [0; 3; 2]; OpOutput 0 5; OpOutput 0 6; OpOutput 0 4].
Example C27_example : disciplined Debug heap_empty tidy_demo /\ full (run Debug tidy_demo) 0 /\ tidy (run Debug tidy_demo) 0 /\
  (exists c, h_circ (run Debug tidy_demo) !! 0%nat = Some c /\ num_const c = 0 /\ sized c 0) /\
  (exists wog st, writes (run Debug tidy_demo) 1 (writer_new 0) [] wog (unlines ["7 10"; "2 1 2"; "1 3"; ""; "1 1 1 3 INV";
     "2 1 0 3 4 XOR"; "2 1 0 3 5 AND"; "2 1 4 2 6 AND"; "2 1 4 2 7 XOR"; "2 1 5 6 8 OR"; "2 1 0 2 9 AND"]) st) /\ target blank 0.
Proof.
  split; [apply disciplined_b_sound; vm_compute; reflexivity|]. split; [apply (full_b_sound _ 9); vm_compute; reflexivity|].
  split; [apply (tidy_b_sound _ 9); [apply run_hinv|vm_compute; reflexivity]|]. split.
  { eexists. split; [vm_compute; reflexivity|]. split; [reflexivity|]. split; vm_compute; reflexivity. }
  split; [|apply blank_target; lia].
  do 2 eexists. apply (writes_intro _ 9); [vm_compute; reflexivity|vm_compute; reflexivity].
Qed.

(** * C28 *)
(** With a constant anywhere the header announces more wires than exist. *)
Theorem C28_wire_count md ops l c first vals wog text st : disciplined md heap_empty ops -> h_circ (run md ops) !! l = Some c ->
  first <= input_len c + num_const c -> sized c 0 -> 0 < num_const c -> writes (run md ops) first (writer_new l) vals wog text st ->
  exists p, parse_prog text = Some p /\ nsum (pr_in p) + N.of_nat (length (pr_lines p)) + num_const c <= pr_wires p.
Proof.
  intros D E Hf Hs Hc H. destruct (writes_run _ _ _ _ _ _ _ _ _ D E Hf Hs H) as (gls & Hp & _ & _ & O).
  exists (wprog c first gls). split; [done|]. cbn [wprog pr_lines pr_in pr_wires nsum fold_right]. pose proof (wr_gates _ _ _ _ _ _ _ O). lia.
Qed.
(** Reading such a text into any fresh circuit panics: the last announced wire, hence the last output, does not exist. (Only a release
    build given more announced outputs than announced wires escapes, see C21.) *)
Theorem C28_unreadable md ops l c first vals wog text st md2 h2 l2 : disciplined md heap_empty ops -> h_circ (run md ops) !! l = Some c ->
  first <= input_len c + num_const c -> sized c 0 -> 0 < num_const c -> 0 < output_len c ->
  writes (run md ops) first (writer_new l) vals wog text st -> target h2 l2 ->
  md2 = Debug \/ output_len c <= input_len c + num_gate c + 2 * num_const c ->
  exists p h', read_fresh md2 l2 text h2 = (Panic p, h').
Proof.
  intros D E Hf Hs Hc Ho H T Hmd. destruct (writes_run _ _ _ _ _ _ _ _ _ D E Hf Hs H) as (gls & Hp & _ & _ & O).
  pose proof (wr_gates _ _ _ _ _ _ _ O) as Hg. pose proof (wr_consts _ _ _ _ _ _ _ O) as Hcn.
  set (inputs := replicate (N.to_nat (input_len c)) false). set (pad := replicate (N.to_nat (num_const c) - length vals) false).
  assert (Hi : N.of_nat (length inputs) = input_len c) by (unfold inputs; rewrite replicate_length; lia).
  destruct (wr_sound _ _ _ _ _ _ _ O EqCopies inputs (load_from 0 (inputs ++ vals ++ pad)) Hi) as (e & He & _ & Hr).
  { intros i b. apply (loaded_at inputs vals pad). } { intros i b. rewrite <- Hi. apply (loaded_at inputs vals pad). }
  assert (Hlen : N.of_nat (length (inputs ++ vals ++ pad)) = input_len c + num_const c).
  { rewrite !app_length. unfold pad. rewrite replicate_length. lia. }
  destruct (decide (output_len c <= input_len c + num_gate c + 2 * num_const c)) as [Hw|Hw].
  - destruct (C21_undefined_output md2 h2 l2 text (wprog c first gls) (inputs ++ vals ++ pad) e (input_len c + num_gate c + 2 * num_const c - 1) T Hp)
      as [h' Hh']; [| |done| | |eauto].
    + cbn [wprog pr_wires pr_out nsum fold_right]. lia.
    + cbn [wprog pr_in nsum fold_right]. lia.
    + apply elem_of_output_wires; cbn [wprog pr_wires pr_out nsum fold_right]; lia.
    + rewrite (exec_keep _ _ _ _ _ He).
      * rewrite load_from_0. apply lookup_ge_None_2. lia.
      * intros gl [k Hk]%elem_of_list_lookup Hin. pose proof (lookup_lt_Some _ _ _ Hk).
        destruct (wr_lines _ _ _ _ _ _ _ O _ _ Hk) as (Hgo & _). rewrite Hgo in Hin. apply elem_of_list_singleton in Hin. lia.
  - destruct Hmd as [-> |Hmd]; [|done]. destruct Hs as [_ Hs].
    destruct (C21_too_many_outputs h2 l2 text (wprog c first gls) (inputs ++ vals ++ pad) T Hp) as [ [h' Hh'] _]; [| | |cbn [wprog pr_lines]; eauto|eauto].
    + cbn [wprog pr_wires pr_out nsum fold_right]. lia.
    + cbn [wprog pr_out nsum fold_right]. lia.
    + cbn [wprog pr_in nsum fold_right]. lia.
Qed.
(** The simplest case: NOT x AND true. *)
Definition const_demo : list op := [OpNewStorage; OpNewCircuit 0; OpInput 0; OpNot 0 0; OpConst 0 true; OpAnd 0 1 2; OpOutput 0 3].
Example C28_example : disciplined Debug heap_empty const_demo /\ (exists wog st,
  writes (run Debug const_demo) 1 (writer_new 0) [true] wog (unlines ["2 5"; "2 1 1"; "1 1"; ""; "1 1 0 2 INV"; "2 1 2 1 3 AND"]) st) /\
  exists h', read_fresh Release 0 (unlines ["2 5"; "2 1 1"; "1 1"; ""; "1 1 0 2 INV"; "2 1 2 1 3 AND"]) blank = (Panic PKey, h').
Proof.
  split; [apply disciplined_b_sound; vm_compute; reflexivity|]. split.
  - do 2 eexists. apply (writes_intro _ 9); [vm_compute; reflexivity|vm_compute; reflexivity].
  - eexists. vm_compute. reflexivity.
Qed.

(** * C29 *)
(** NOT (x AND y) and x AND y, in that order: the second output feeds the first. *)
Definition swap_demo : list op := [OpNewStorage; OpNewCircuit 0; OpInput 0; OpInput 0; OpAnd 0 0 1; OpNot 0 2; OpOutput 0 3; OpOutput 0 2].
Definition swap_text : string := unlines ["2 4"; "2 2 0"; "1 2"; ""; "2 1 0 1 2 AND"; "1 1 2 3 INV"].
(** NOT x, twice. *)
Definition dup_demo : list op := [OpNewStorage; OpNewCircuit 0; OpInput 0; OpNot 0 0; OpOutput 0 1; OpOutput 0 1].
Definition dup_text : string := unlines ["1 2"; "2 1 0"; "1 2"; ""; "1 1 0 1 INV"].
(** Disciplined, without constants, all gates needed; the text reads back without error, with the outputs exchanged. *)
Theorem C29_swapped : disciplined Debug heap_empty swap_demo /\ full (run Debug swap_demo) 0 /\
  (exists c, h_circ (run Debug swap_demo) !! 0%nat = Some c /\ num_const c = 0) /\
  (exists wog st, writes (run Debug swap_demo) 2 (writer_new 0) [] wog swap_text st) /\
  (forall x y, computes (run Debug swap_demo) 0 [x; y] [negb (x && y); x && y]) /\
  forall md h l, target h l -> exists h', read_fresh md l swap_text h = (Ok tt, h') /\ forall x y, computes h' l [x; y] [x && y; negb (x && y)].
Proof.
  split; [apply disciplined_b_sound; vm_compute; reflexivity|]. split; [apply (full_b_sound _ 9); vm_compute; reflexivity|].
  split. { eexists. split; vm_compute; reflexivity. }
  split. { do 2 eexists. apply (writes_intro _ 9); [vm_compute; reflexivity|vm_compute; reflexivity]. }
  split.
  - intros x y. eexists. split; [vm_compute; reflexivity|]. split; [reflexivity|]. intros [|[|k]] b; cbn [lookup list_lookup]; intros [= <-].
    + eexists _, 3. do 2 (split; [vm_compute; reflexivity|]). eapply gv_not; [vm_compute; reflexivity..|]. eapply gv_and; [vm_compute; reflexivity..| |];
        (eapply gv_input; [vm_compute; reflexivity..|]; reflexivity).
    + eexists _, 2. do 2 (split; [vm_compute; reflexivity|]). eapply gv_and; [vm_compute; reflexivity..| |];
        (eapply gv_input; [vm_compute; reflexivity..|]; reflexivity).
  - intros md h l T. assert (P : parse_prog swap_text = Some (Prog 2 4 [2; 0] [2] [GLine KAnd [0; 1] [2]; GLine KInv [2] [3]])) by (vm_compute; reflexivity).
    destruct (C19_accepts md h l swap_text _ [false; false] T P) as (h' & Er & _); [vm_compute; eauto|]. exists h'. split; [done|]. intros x y.
    destruct (C18_read _ _ _ _ _ T Er) as (p' & P' & _ & Hc). rewrite P in P'. injection P' as <-. destruct Hc as (_ & _ & Hc); [vm_compute; done|].
    destruct (Hc [x; y]) as (outs & R & C); [done|]. destruct x, y; vm_compute in R; injection R as <-; exact C.
Qed.
(** One gate as two outputs: read back as the input itself and the gate. *)
Theorem C29_duplicated : disciplined Debug heap_empty dup_demo /\ full (run Debug dup_demo) 0 /\
  (exists c, h_circ (run Debug dup_demo) !! 0%nat = Some c /\ num_const c = 0) /\
  (exists wog st, writes (run Debug dup_demo) 1 (writer_new 0) [] wog dup_text st) /\
  (forall x, computes (run Debug dup_demo) 0 [x] [negb x; negb x]) /\
  forall md h l, target h l -> exists h', read_fresh md l dup_text h = (Ok tt, h') /\ forall x, computes h' l [x] [x; negb x].
Proof.
  split; [apply disciplined_b_sound; vm_compute; reflexivity|]. split; [apply (full_b_sound _ 9); vm_compute; reflexivity|].
  split. { eexists. split; vm_compute; reflexivity. }
  split. { do 2 eexists. apply (writes_intro _ 9); [vm_compute; reflexivity|vm_compute; reflexivity]. }
  split.
  - intros x. eexists. split; [vm_compute; reflexivity|]. split; [reflexivity|]. intros [|[|k]] b; cbn [lookup list_lookup]; intros [= <-];
      (eexists _, 1; do 2 (split; [vm_compute; reflexivity|]); eapply gv_not; [vm_compute; reflexivity..|]; eapply gv_input; [vm_compute; reflexivity..|]; reflexivity).
  - intros md h l T. assert (P : parse_prog dup_text = Some (Prog 1 2 [1; 0] [2] [GLine KInv [0] [1]])) by (vm_compute; reflexivity).
    destruct (C19_accepts md h l dup_text _ [false] T P) as (h' & Er & _); [vm_compute; eauto|]. exists h'. split; [done|]. intros x.
    destruct (C18_read _ _ _ _ _ T Er) as (p' & P' & _ & Hc). rewrite P in P'. injection P' as <-. destruct Hc as (_ & _ & Hc); [vm_compute; done|].
    destruct (Hc [x]) as (outs & R & C); [done|]. destruct x; vm_compute in R; injection R as <-; exact C.
Qed.

(** * C30 *)
Lemma mapM_first_missing (e0 e : gmap N bool) ws : e0 ⊆ e -> mapM (fun w => e0 !! w) ws = mapM (fun w => e !! w) ws \/
  exists pre w post, ws = pre ++ w :: post /\ (forall v, v ∈ pre -> is_Some (e0 !! v)) /\ e0 !! w = None.
Proof.
  intros Hs. induction ws as [|w ws IH]; [by left|]. destruct (e0 !! w) as [b|] eqn:Ew.
  - destruct IH as [IH|(pre & w' & post & -> & Hp & Hw)].
    + left. cbn [mapM]. rewrite Ew, IH. by rewrite (lookup_weaken _ _ _ _ Ew Hs).
    + right. exists (w :: pre), w', post. split; [done|]. split; [|done]. intros v [-> |Hv]%elem_of_cons; eauto.
  - right. exists [], w, ws. split; [done|]. split; [|done]. intros v Hv. by apply elem_of_nil in Hv.
Qed.
(** Lines that can be executed on some wires: on fewer wires they can also be executed, or get stuck at a missing one. *)
Lemma exec_or_stuck gls : forall e0 e e1, e0 ⊆ e -> exec_lines EqCopies e gls = Some e1 ->
  (exists e0', exec_lines EqCopies e0 gls = Some e0') \/
  exists pre gl post e0' ws w ws', gls = pre ++ gl :: post /\ exec_lines EqCopies e0 pre = Some e0' /\ gl_ins gl = ws ++ w :: ws' /\
    (forall v, v ∈ ws -> is_Some (e0' !! v)) /\ e0' !! w = None.
Proof.
  induction gls as [|gl gls IH]; intros e0 e e1 Hs H; [left; by exists e0|].
  cbn [exec_lines] in H. destruct (exec_line EqCopies e gl) as [e2|] eqn:E2; [|done]. cbn in H.
  destruct (mapM_first_missing e0 e (gl_ins gl) Hs) as [Hm|(ws & w & ws' & Hw & Hd & Hn)].
  - unfold exec_line in E2. assert (Hv : line_value EqCopies e0 gl = line_value EqCopies e gl).
    { unfold line_value. rewrite Hm. done. }
    destruct (line_value EqCopies e gl) as [v|] eqn:El; [|done]. cbn in E2. destruct (list.head (gl_outs gl)) as [o|] eqn:Eo; [|done]. cbn in E2. injection E2 as <-.
    destruct (IH (<[o:=v]> e0) _ _ (insert_mono _ _ _ _ Hs) H) as [ [e0' He]|(pre & gl' & post & e0' & ws & w & ws' & -> & He & Hx)].
    + left. exists e0'. cbn [exec_lines]. unfold exec_line. rewrite Hv. cbn. rewrite Eo. exact He.
    + right. exists (gl :: pre), gl', post, e0', ws, w, ws'. split; [done|]. split; [|done]. cbn [exec_lines]. unfold exec_line. rewrite Hv. cbn. rewrite Eo. exact He.
  - right. exists [], gl, gls, e0, ws, w, ws'. done.
Qed.
Lemma exec_reads gls : forall e e1 gl w, exec_lines EqCopies e gls = Some e1 -> gl ∈ gls -> w ∈ gl_ins gl -> (forall gl', gl' ∈ gls -> w ∉ gl_outs gl') ->
  is_Some (e !! w).
Proof.
  induction gls as [|gl0 gls IH]; intros e e1 gl w H Hin Hw Hn; [by apply elem_of_nil in Hin|].
  cbn [exec_lines] in H. destruct (exec_line EqCopies e gl0) as [e2|] eqn:E2; [|done]. cbn in H. apply elem_of_cons in Hin as [-> |Hin].
  - unfold exec_line, line_value in E2. destruct (mapM (λ w0, e !! w0) (gl_ins gl0)) as [vs|] eqn:Em; [|by destruct (gl_kind gl0)].
    apply mapM_Some_1 in Em. rewrite Forall2_lookup in Em. apply elem_of_list_lookup in Hw as [k Hk].
    specialize (Em k). rewrite Hk in Em. by inversion Em; subst; eauto.
  - pose proof (IH _ _ _ _ H Hin Hw) as [b Hb]; [intros gl' Hgl; apply Hn; by right|].
    rewrite (exec_keep EqCopies [gl0] e e2 w) in Hb; [eauto| |]; [cbn [exec_lines]; by rewrite E2|].
    intros gl' ->%elem_of_list_singleton. apply Hn. by left.
Qed.
(** The second call on the same writer numbers the input wires, and everything else but the constants, after the [n] wires of the first
    call, although the text announces inputs on the wires from 0. If any line reads an input, no reader of this library accepts the text. *)
Theorem C30_second_write md ops l c first vals wog text st first2 vals2 wog2 text2 st2 :
  disciplined md heap_empty ops -> h_circ (run md ops) !! l = Some c ->
  first <= input_len c + num_const c -> first2 <= input_len c + num_const c -> sized c (w_num st) ->
  writes (run md ops) first (writer_new l) vals wog text st -> writes (run md ops) first2 st vals2 wog2 text2 st2 ->
  exists p p2, parse_prog text = Some p /\ parse_prog text2 = Some p2 /\
    pr_in p2 = [first2; input_len c + num_const c - first2] /\
    let n := input_len c + num_const c + N.of_nat (length (pr_lines p)) in
    (forall k gl, pr_lines p2 !! k = Some gl -> gl_outs gl = [n + input_len c + num_const c + N.of_nat k]) /\
    (forall g i, gate_map c !! g = Some (GInput i) -> wog2 !! g = Some (n + i)) /\
    forall gl w, gl ∈ pr_lines p2 -> w ∈ gl_ins gl -> n <= w < n + input_len c ->
      forall md2 h2 l2, target h2 l2 -> exists w' h', read_fresh md2 l2 text2 h2 = (Err (EUnknownWire w'), h').
Proof.
  intros D E Hf Hf2 Hs H H2.
  assert (Hs0 : sized c 0) by (unfold sized in *; lia).
  destruct (writes_run _ _ _ _ _ _ _ _ _ D E Hf Hs0 H) as (gls & Hp & Hc & Hn & O).
  destruct (writes_inv _ l c first2 st _ _ _ _ (dinv_run _ _ D) (cinv_run _ _ D) E Hc Hf2 H2) as (gls2 & _ & Hp2 & _ & _ & O2). specialize (Hp2 Hs).
  exists (wprog c first gls), (wprog c first2 gls2). split; [done|]. split; [done|]. split; [done|]. cbn [wprog pr_lines]. rewrite <- Hn.
  split; [|split].
  - intros k gl Hk. apply (wr_lines _ _ _ _ _ _ _ O2 _ _ Hk).
  - apply (wr_inputs _ _ _ _ _ _ _ O2).
  - intros gl w Hgl Hw Hr md2 h2 l2 T.
    set (inputs := replicate (N.to_nat (input_len c)) false). set (pad := replicate (N.to_nat (num_const c) - length vals2) false).
    assert (Hi : N.of_nat (length inputs) = input_len c) by (unfold inputs; rewrite replicate_length; lia).
    pose proof (wr_consts _ _ _ _ _ _ _ O2) as Hcn.
    set (e0 := load_from 0 (inputs ++ vals2 ++ pad)). set (e := e0 ∪ load_from (w_num st) inputs).
    assert (Hlen : N.of_nat (length (inputs ++ vals2 ++ pad)) = input_len c + num_const c).
    { rewrite !app_length. unfold pad. rewrite replicate_length. lia. }
    assert (Hge : forall x, input_len c + num_const c <= x -> e0 !! x = None). { intros x Hx. unfold e0. rewrite load_from_0. apply lookup_ge_None_2. lia. }
    destruct (wr_sound _ _ _ _ _ _ _ O2 EqCopies inputs e Hi) as (e1 & He & _ & _).
    { intros i b Hb. unfold e. rewrite lookup_union_r by (apply Hge; lia). rewrite load_from_lookup. rewrite (proj2 (N.leb_le _ _)) by lia.
      by replace (N.to_nat (w_num st + N.of_nat i - w_num st)) with i by lia. }
    { intros i b Hb. unfold e. apply lookup_union_Some_l. unfold e0. rewrite <- Hi. by apply (loaded_at inputs vals2 pad). }
    destruct (exec_or_stuck gls2 e0 e e1 (map_union_subseteq_l _ _) He) as [ [e0' He0]|(pre & gl' & post & e0' & ws & w' & ws' & Hg & He0 & Hx)].
    + exfalso. destruct (exec_reads gls2 e0 e0' gl w He0 Hgl Hw) as [b Hb].
      * intros gl' [k Hk]%elem_of_list_lookup Hin. destruct (wr_lines _ _ _ _ _ _ _ O2 _ _ Hk) as (Ho & _). rewrite Ho in Hin.
        apply elem_of_list_singleton in Hin. lia.
      * rewrite Hge in Hb by lia. done.
    + destruct Hx as (Hins & Hd & Hm). exists w'.
      apply (C20_unknown_wire md2 h2 l2 text2 (wprog c first2 gls2) pre gl' post (inputs ++ vals2 ++ pad) e0' ws w' ws' T Hp2); try done.
      * cbn [wprog pr_out nsum fold_right]. destruct Hs as [_ Hs]. lia.
      * cbn [wprog pr_in nsum fold_right]. lia.
Qed.
(** x AND y written twice: the second text reads the wires 3 and 4, which nothing defines. *)
Definition and_demo : list op := [OpNewStorage; OpNewCircuit 0; OpInput 0; OpInput 0; OpAnd 0 0 1; OpOutput 0 2].
Example C30_example : disciplined Debug heap_empty and_demo /\ exists wog st wog2 st2,
  writes (run Debug and_demo) 1 (writer_new 0) [] wog (unlines ["1 3"; "2 1 1"; "1 1"; ""; "2 1 0 1 2 AND"]) st /\
  writes (run Debug and_demo) 1 st [] wog2 (unlines ["1 3"; "2 1 1"; "1 1"; ""; "2 1 3 4 5 AND"]) st2 /\
  exists h', read_fresh Debug 0 (unlines ["1 3"; "2 1 1"; "1 1"; ""; "2 1 3 4 5 AND"]) blank = (Err (EUnknownWire 3), h').
Proof.
  split; [apply disciplined_b_sound; vm_compute; reflexivity|]. do 4 eexists. split.
  - apply (writes_intro _ 9); [vm_compute; reflexivity|vm_compute; reflexivity].
  - split.
    + apply (writes_intro _ 9); [vm_compute; reflexivity|vm_compute; reflexivity].
    + eexists. vm_compute. reflexivity.
Qed.
