(** Properties C76 and C77: how many gates an evaluation evaluates. *)
From Verif Require Import EvalBound Prop_Live.
Open Scope N_scope.
Open Scope list_scope.

(** * Statements *)
(** The outputs of circuit [l], with its calls expanded, need [a] logic gates, [b] constants and [k] module calls: [A g], [B g] and [C g] are the
    shares of gate [g]. A call counts once (at its first gate), with what the outputs of the called circuit need; what is not needed does not count. *)
Inductive work (h : heap) : nat -> N -> N -> N -> Prop :=
| work_intro l c (A B C : N -> N) : h_circ h !! l = Some c ->
    (forall g gt, gate_map c !! g = Some gt -> ~ used c g \/ gate_oi gt <> 0 -> A g = 0 /\ B g = 0 /\ C g = 0) ->
    (forall g gt, gate_map c !! g = Some gt -> used c g -> is_module gt = false ->
      A g = (if is_logic gt then 1 else 0) /\ B g = (if is_const gt then 1 else 0) /\ C g = 0) ->
    (forall g il ol ids mid x l', gate_map c !! g = Some (GModule il ol ids 0 mid) -> used c g ->
      h_stor h !! c_storage c = Some x -> module_map x !! mid = Some l' -> work h l' (A g) (B g) (C g - 1)) ->
    (forall g il ol ids mid, gate_map c !! g = Some (GModule il ol ids 0 mid) -> used c g -> 1 <= C g) ->
    work h l (Counts.nsum (map A (nrange (gate_index c)))) (Counts.nsum (map B (nrange (gate_index c)))) (Counts.nsum (map C (nrange (gate_index c)))).

(** * Proofs *)
Section need.
Context (h : heap) (l : nat) (c : circuit) (Hinv : hinv h) (E : h_circ h !! l = Some c) (D : cdisc h c).
Let W : cwf c := hi_circ h Hinv l c E.
Lemma touch_or o x : touch c o x \/ ~ touch c o x.
Proof using All.
  induction (N.lt_wf_0 o) as [o _ IH]. destruct (decide (x ∈ blk c o)) as [Hb|Hb]; [left; by apply touch_self|].
  destruct (gate_map c !! o) as [gt|] eqn:G.
  - assert (H : forall ids : list N, (forall a, a ∈ ids -> a ∈ operands gt) -> (exists a, a ∈ ids /\ touch c a x) \/ ~ exists a, a ∈ ids /\ touch c a x).
    { induction ids as [|a ids IHi]; intros Hs; [right; intros (a & Ha & _); by apply elem_of_nil in Ha|].
      destruct (IH a) as [Ht|Ht].
      { pose proof (operand_lt_start h c D o gt a G (Hs a ltac:(left))). pose proof (start_lt c o gt G). lia. }
      - left. exists a. split; [left|done].
      - destruct IHi as [(b & Hb1 & Hb2)|Hn]; [intros; apply Hs; by right|left; exists b; split; [by right|done]|].
        right. intros (b & [->|Hb1]%elem_of_cons & Hb2); [done|]. apply Hn. eauto. }
    destruct (H (operands gt)) as [(a & Ha & Ht)|Hn]; [done|left; by eapply touch_oper|].
    right. intros T. inversion T as [? ? Hx|? gt' a ? G' Ha Ht]; subst; [done|]. rewrite G in G'. injection G' as <-. eauto.
  - right. intros T. inversion T as [? ? Hx|? gt' a ? G' Ha Ht]; subst; [done|]. congruence.
Qed.
Lemma used_or g : used c g \/ ~ used c g.
Proof using All.
  assert (H : forall n, (exists k o, k < n /\ output_map c !! k = Some o /\ touch c o g) \/ ~ exists k o, k < n /\ output_map c !! k = Some o /\ touch c o g).
  { induction n as [|n IHn] using N.peano_ind; [right; intros (k & o & Hk & _); lia|].
    destruct IHn as [(k & o & Hk & Ho)|Hn]; [left; exists k, o; split; [lia|done]|].
    destruct (output_map c !! n) as [o|] eqn:Eo.
    - destruct (touch_or o g) as [Ht|Ht]; [left; exists n, o; split; [lia|done]|].
      right. intros (k & o' & Hk & Eo' & Ht'). destruct (decide (k = n)) as [->|]; [congruence|]. apply Hn. exists k, o'. split; [lia|done].
    - right. intros (k & o' & Hk & Eo' & Ht'). destruct (decide (k = n)) as [->|]; [congruence|]. apply Hn. exists k, o'. split; [lia|done]. }
  destruct (H (output_len c)) as [(k & o & _ & Eo & Ht)|Hn]; [left; by exists k, o|]. right. intros (k & o & Eo & Ht). apply Hn. exists k, o.
  split; [|done]. destruct (decide (k < output_len c)); [done|]. rewrite (wf_outputs_none c W) in Eo; [done|lia].
Qed.
Lemma used_set : exists U : gset N, forall g, g < gate_index c -> (g ∈ U <-> used c g).
Proof using All.
  induction (gate_index c) as [|n (U & HU)] using N.peano_ind; [exists ∅; intros; lia|].
  destruct (used_or n) as [Hn|Hn].
  - exists ({[n]} ∪ U). intros g Hg. destruct (decide (g = n)) as [->|Hne]; [set_solver|]. rewrite <- HU by lia. set_solver.
  - exists (U ∖ {[n]}). intros g Hg. destruct (decide (g = n)) as [->|Hne]; [set_solver|]. rewrite <- HU by lia. set_solver.
Qed.
End need.

Lemma choice {T} (t0 : T) (P : N -> T -> Prop) n : (forall g, g < n -> exists t, P g t) -> exists f : N -> T, forall g, g < n -> P g (f g).
Proof.
  induction n as [|n IH] using N.peano_ind; intros H.
  - exists (fun _ => t0). intros g Hg. lia.
  - destruct IH as (f & Hf); [intros; apply H; lia|]. destruct (H n) as (t & Ht); [lia|].
    exists (fun g => if decide (g = n) then t else f g). intros g Hg. destruct (decide (g = n)) as [-> |]; [done|]. apply Hf. lia.
Qed.
Lemma nsum_ge (f : N -> N) n g : g < n -> f g <= Counts.nsum (map f (nrange n)).
Proof.
  induction n as [|n IH] using N.peano_ind; [lia|]. intros Hg. rewrite <- N.add_1_r, nrange_succ, map_app, Counts.nsum_app. simpl.
  destruct (decide (g = n)) as [->|]; [lia|]. specialize (IH ltac:(lia)). lia.
Qed.

(** The shares [(a, b, k)] of gate [g], when it is evaluated, and a fuel [F] for its evaluation. *)
Definition share (md : mode) (h : heap) (c : circuit) (g : N) (t : N * N * N * N) : Prop := let '(a, b, k, F) := t in
  forall gt, gate_map c !! g = Some gt ->
  (gate_oi gt <> 0 -> a = 0 /\ b = 0 /\ k = 0) /\
  (is_module gt = false -> a = (if is_logic gt then 1 else 0) /\ b = (if is_const gt then 1 else 0) /\ k = 0) /\
  (forall il ol ids mid x l', gt = GModule il ol ids 0 mid -> h_stor h !! c_storage c = Some x -> module_map x !! mid = Some l' ->
    exists k', k = 1 + k' /\ work h l' a b k' /\ forall fuel m bits, h_circ h !! l' = Some m -> (N.to_nat F <= fuel)%nat -> N.of_nat (length bits) = input_len m ->
      exists outs, count_output md h fuel l' bits = (Ok outs, a + b + k')).

Lemma work_exact md h l : dinv h -> evaluable h l -> exists F a b k, work h l a b k /\
  forall fuel c inputs, h_circ h !! l = Some c -> (F <= fuel)%nat -> N.of_nat (length inputs) = input_len c ->
    exists outs, count_output md h fuel l inputs = (Ok outs, a + b + k).
Proof.
  intros D Hev. induction Hev as [l c E HO Hcalls IH].
  pose proof (hi_circ h (di_inv h D) l c E) as W.
  destruct (choice (0, 0, 0, 0) (share md h c) (gate_index c)) as (f & Hf).
  { intros g Hg. destruct (proj2 (wf_gates c W g) Hg) as [gt G].
    destruct (is_module gt) eqn:Em; [destruct gt as [| | | | | |il ol ids oi mid]; try done|].
    - destruct (decide (oi = 0)) as [->|Hoi].
      + destruct (hi_calls h (di_inv h D) _ _ _ _ _ _ _ _ E G) as (x & l' & m & Ex & Emm & El' & _).
        destruct (IH l') as (F & a & b & k & HW & HF); [by exists g, il, ol, ids, 0, mid, x|].
        exists (a, b, 1 + k, N.of_nat F). intros gt' G'. rewrite G in G'. injection G' as <-. split; [done|]. split; [done|].
        intros il2 ol2 ids2 mid2 x2 l2 [= <- <- <- <-] Ex2 Em2. rewrite Ex in Ex2. injection Ex2 as <-. rewrite Emm in Em2. injection Em2 as <-.
        exists k. split; [done|]. split; [done|]. intros fuel m2 bits El2 Hfu Hl. eapply (HF fuel m2 bits El2); [lia|done].
      + exists (0, 0, 0, 0). intros gt' G'. rewrite G in G'. injection G' as <-. split; [done|]. split; [done|]. intros. by simplify_eq.
    - exists (if is_logic gt then 1 else 0, if is_const gt then 1 else 0, 0, 0). intros gt' G'. rewrite G in G'. injection G' as <-.
      split; [by destruct gt|]. split; [done|]. intros; by subst gt. }
  destruct (used_set h l c (di_inv h D) E (di_disc h D l c E)) as (U & HU).
  set (fa := fun g => (f g).1.1.1). set (fb := fun g => (f g).1.1.2). set (fk := fun g => (f g).1.2). set (fF := fun g => (f g).2).
  assert (Hs : forall g, g < gate_index c -> share md h c g (fa g, fb g, fk g, fF g)).
  { intros g Hg. specialize (Hf g Hg). unfold fa, fb, fk, fF. by destruct (f g) as [[[? ?] ?] ?]. }
  assert (Hlt : forall g gt, gate_map c !! g = Some gt -> g < gate_index c) by (intros; by eapply gm_lt).
  set (K := N.to_nat (Counts.nsum (map fF (nrange (gate_index c))))).
  set (on := fun F0 : N -> N => fun g => if decide (g ∈ U) then F0 g else 0).
  exists (K + N.to_nat (gate_index c))%nat, (Counts.nsum (map (on fa) (nrange (gate_index c)))), (Counts.nsum (map (on fb) (nrange (gate_index c)))),
    (Counts.nsum (map (on fk) (nrange (gate_index c)))). split.
  - apply (work_intro h l c (on fa) (on fb) (on fk) E).
    + intros g gt G Hn. unfold on. destruct (decide (g ∈ U)) as [Hu|Hu]; [|done]. destruct (Hs g (Hlt g gt G) gt G) as (H0 & _ & _).
      apply H0. destruct Hn as [Hn|?]; [|done]. destruct Hn. by apply HU; [eapply Hlt|].
    + intros g gt G Hu Hm. apply HU in Hu; [|by eapply Hlt]. unfold on. rewrite !decide_True by done.
      destruct (Hs g (Hlt g gt G) gt G) as (_ & H1 & _). by apply H1.
    + intros g il ol ids mid x l' G Hu Ex Em. apply HU in Hu; [|by eapply Hlt]. unfold on. rewrite !decide_True by done.
      destruct (Hs g (Hlt _ _ G) _ G) as (_ & _ & H2). destruct (H2 _ _ _ _ x l' eq_refl Ex Em) as (k & -> & HW & _).
      by replace (1 + k - 1) with k by lia.
    + intros g il ol ids mid G Hu. apply HU in Hu; [|by eapply Hlt]. unfold on. rewrite decide_True by done.
      destruct (hi_calls h (di_inv h D) _ _ _ _ _ _ _ _ E G) as (x & l' & m & Ex & Em & El' & _).
      destruct (Hs g (Hlt _ _ G) _ G) as (_ & _ & H2). destruct (H2 _ _ _ _ x l' eq_refl Ex Em) as (k & -> & _). lia.
  - intros fuel c' inputs E' Hfu Hl. rewrite E in E'. injection E' as <-.
    destruct (count_output_ok md h l c (di_inv h D) E (di_disc h D l c E) (fun g => fa g + fb g + fk g) K) with (U := U) (fuel := fuel) (inputs := inputs) as (outs & Eo);
      try done.
    + intros g gt G Hm. destruct (Hs g (Hlt g gt G) gt G) as (_ & H1 & _). destruct (H1 Hm) as (-> & -> & ->). by destruct gt.
    + intros g gt G Ho. destruct (Hs g (Hlt g gt G) gt G) as (H0 & _ & _). destruct (H0 Ho) as (-> & -> & ->). done.
    + intros g il ol ids mid x l' G Ex Em. destruct (Hs g (Hlt _ _ G) _ G) as (_ & _ & H2). destruct (H2 _ _ _ _ x l' eq_refl Ex Em) as (k & -> & _ & HF).
      exists (fa g + fb g + k). split; [lia|]. intros m fu bits Em' Hfu' Hl'. eapply (HF fu m bits Em'); [|done].
      pose proof (nsum_ge fF (gate_index c) g (Hlt _ _ G)). unfold K in Hfu'. lia.
    + intros g gt G _. apply HU. by eapply Hlt.
    + exists outs. rewrite Eo. f_equal. unfold tot.
      rewrite (EvalCost.nsum_add _ (fun g => on fa g + on fb g) (on fk)).
      2: { intros g _. unfold on. destruct (decide (g ∈ U)); lia. }
      by rewrite (EvalCost.nsum_add (fun g => on fa g + on fb g) (on fa) (on fb)).
Qed.

Lemma work_unique h : dinv h -> forall l a b k, work h l a b k -> forall a' b' k', work h l a' b' k' -> a = a' /\ b = b' /\ k = k'.
Proof.
  intros D l a b k HW. induction HW as [l c A B C E H0 H1 _ IH H3]. intros a' b' k' HW'.
  inversion HW' as [l2 c2 A2 B2 C2 E2 K0 K1 K2 K3]; subst. rewrite E in E2. injection E2 as <-.
  pose proof (hi_circ h (di_inv h D) l c E) as W.
  assert (Hg : forall g, g ∈ nrange (gate_index c) -> A g = A2 g /\ B g = B2 g /\ C g = C2 g).
  { intros g Hg%elem_of_nrange. destruct (proj2 (wf_gates c W g) Hg) as [gt G].
    destruct (used_or h l c (di_inv h D) E (di_disc h D l c E) g) as [Hu|Hu].
    2: { destruct (H0 g gt G (or_introl Hu)) as (-> & -> & ->). destruct (K0 g gt G (or_introl Hu)) as (-> & -> & ->). done. }
    destruct (decide (gate_oi gt = 0)) as [Ho|Ho].
    2: { destruct (H0 g gt G (or_intror Ho)) as (-> & -> & ->). destruct (K0 g gt G (or_intror Ho)) as (-> & -> & ->). done. }
    destruct (is_module gt) eqn:Em.
    - destruct gt as [| | | | | |il ol ids oi mid]; try done. cbn in Ho. subst oi.
      destruct (hi_calls h (di_inv h D) _ _ _ _ _ _ _ _ E G) as (x & l' & m & Ex & Emm & El' & _).
      destruct (IH _ _ _ _ _ x l' G Hu Ex Emm _ _ _ (K2 _ _ _ _ _ x l' G Hu Ex Emm)) as (-> & -> & Hk).
      pose proof (H3 _ _ _ _ _ G Hu). pose proof (K3 _ _ _ _ _ G Hu). split; [done|]. split; [done|]. lia.
    - destruct (H1 g gt G Hu Em) as (-> & -> & ->). destruct (K1 g gt G Hu Em) as (-> & -> & ->). done. }
  split; [|split]; apply Counts.nsum_ext; intros g Hg'; by destruct (Hg g Hg') as (? & ? & ?).
Qed.

Lemma nsum_mono (f g : N -> N) xs : (forall x, x ∈ xs -> f x <= g x) -> Counts.nsum (map f xs) <= Counts.nsum (map g xs).
Proof.
  induction xs as [|x xs IH]; intros H; simpl; [done|]. pose proof (H x ltac:(left)). specialize (IH ltac:(intros; apply H; by right)). lia.
Qed.
Lemma work_counts h : dinv h -> cinv h -> forall l a b k, work h l a b k -> forall c, h_circ h !! l = Some c -> a <= num_gate c /\ b <= num_const c.
Proof.
  intros D CI l a b k HW. induction HW as [l c A B C E H0 H1 _ IH H3]. intros c2 E2. rewrite E in E2. injection E2 as <-.
  pose proof (hi_circ h (di_inv h D) l c E) as W. destruct (CI l c E) as [-> ->].
  assert (Hg : forall g, g ∈ nrange (gate_index c) -> A g <= weight is_logic num_gate h c g /\ B g <= weight is_const num_const h c g).
  { intros g Hg%elem_of_nrange. destruct (proj2 (wf_gates c W g) Hg) as [gt G].
    destruct (used_or h l c (di_inv h D) E (di_disc h D l c E) g) as [Hu|Hu].
    2: { destruct (H0 g gt G (or_introl Hu)) as (-> & -> & _). lia. }
    destruct (decide (gate_oi gt = 0)) as [Ho|Ho].
    2: { destruct (H0 g gt G (or_intror Ho)) as (-> & -> & _). lia. }
    unfold weight. rewrite G. destruct (is_module gt) eqn:Em.
    - destruct gt as [| | | | | |il ol ids oi mid]; try done. cbn in Ho. subst oi.
      destruct (hi_calls h (di_inv h D) _ _ _ _ _ _ _ _ E G) as (x & l' & m & Ex & Emm & El' & _).
      cbn. unfold callee. rewrite Ex, Emm, El'. by apply (IH _ _ _ _ _ x l' G Hu Ex Emm m).
    - destruct (H1 g gt G Hu Em) as (-> & -> & _). by destruct gt. }
  split; apply nsum_mono; intros g Hg'; by apply Hg.
Qed.
Lemma work_needs h : dinv h -> forall l a b k, work h l a b k -> forall n m, needs h l n m -> a = n /\ b <= m.
Proof.
  intros D l a b k HW. induction HW as [l c A B C E H0 H1 _ IH H3]. intros n m HN.
  inversion HN as [l2 c2 G2 K2 E2 N1 N2 N3]; subst. rewrite E in E2. injection E2 as <-.
  pose proof (hi_circ h (di_inv h D) l c E) as W.
  assert (Hg : forall g, g ∈ nrange (gate_index c) -> A g = G2 g /\ B g <= K2 g).
  { intros g Hg%elem_of_nrange. destruct (proj2 (wf_gates c W g) Hg) as [gt G].
    destruct (is_module gt) eqn:Em.
    - destruct gt as [| | | | | |il ol ids oi mid]; try done.
      destruct (used_or h l c (di_inv h D) E (di_disc h D l c E) g) as [Hu|Hu].
      2: { destruct (H0 g _ G (or_introl Hu)) as (-> & -> & _). destruct (N2 g _ _ _ _ _ G (or_intror Hu)) as (-> & ->). done. }
      destruct (decide (oi = 0)) as [->|Ho].
      2: { destruct (H0 g _ G (or_intror Ho)) as (-> & -> & _). destruct (N2 g _ _ _ _ _ G (or_introl Ho)) as (-> & ->). done. }
      destruct (hi_calls h (di_inv h D) _ _ _ _ _ _ _ _ E G) as (x & l' & m & Ex & Emm & El' & _).
      exact (IH _ _ _ _ _ x l' G Hu Ex Emm _ _ (N3 _ _ _ _ _ x l' G Hu Ex Emm)).
    - destruct (N1 g gt G Em) as (Ng & Nz & ->).
      destruct (used_or h l c (di_inv h D) E (di_disc h D l c E) g) as [Hu|Hu].
      + destruct (H1 g gt G Hu Em) as (-> & -> & _). split; [|done]. destruct (is_logic gt) eqn:El; [by rewrite Ng|rewrite Nz; [done|by left]].
      + destruct (H0 g gt G (or_introl Hu)) as (-> & -> & _). split; [by rewrite Nz by (by right)|lia]. }
  split.
  - apply Counts.nsum_ext. intros g Hg'. by apply Hg.
  - apply nsum_mono. intros g Hg'. by apply Hg.
Qed.

(** * Theorems *)
(** The counter only counts: the outcome is that of the evaluator. *)
Theorem C76_counter md h fuel l inputs : fst (count_output md h fuel l inputs) = eval_output md h fuel l inputs.
Proof. apply count_output_erases. Qed.
(** After every disciplined history, the evaluation of a circuit whose outputs are not consumed too early (C13) enters [eval_single_gate] exactly
    once for each gate, constant and call that its outputs need, whatever the inputs: nothing twice, nothing in vain. *)
Theorem C76_exact md md' ops l : disciplined md heap_empty ops -> evaluable (run md ops) l ->
  exists F a b k, work (run md ops) l a b k /\
    forall fuel inputs, (F <= fuel)%nat -> inputs_of (run md ops) l = Ok (N.of_nat (length inputs)) ->
    exists outs, count_output md' (run md ops) fuel l inputs = (Ok outs, a + b + k).
Proof.
  intros D Ev. destruct (work_exact md' _ l (dinv_run md ops D) Ev) as (F & a & b & k & HW & HF). exists F, a, b, k. split; [done|].
  intros fuel inputs Hf Hl. unfold inputs_of, on in Hl. destruct (h_circ (run md ops) !! l) as [c|] eqn:Ec; [|done]. injection Hl as Hl.
  by eapply (HF fuel c inputs eq_refl Hf).
Qed.
(** These numbers are determined by the circuit; there are at most as many gates and constants as the counters [num_gate] and [num_const] say. *)
Theorem C76_numbers md ops l a b k : disciplined md heap_empty ops -> work (run md ops) l a b k ->
  (forall a' b' k', work (run md ops) l a' b' k' -> a' = a /\ b' = b /\ k' = k) /\
  (forall c, h_circ (run md ops) !! l = Some c -> a <= num_gate c /\ b <= num_const c).
Proof.
  intros D HW. split.
  - intros a' b' k' HW'. exact (work_unique _ (dinv_run md ops D) _ _ _ _ HW' _ _ _ HW).
  - intros c Ec. exact (work_counts _ (dinv_run md ops D) (cinv_run md ops D) _ _ _ _ HW c Ec).
Qed.
(** The evaluator evaluates as many logic gates as the writer writes lines. *)
Theorem C76_written h l c first vals wog text st a b k : dinv h -> cinv h -> h_circ h !! l = Some c -> first <= input_len c + num_const c -> sized c 0 ->
  writes h first (writer_new l) vals wog text st -> work h l a b k ->
  exists p, parse_prog text = Some p /\ a = N.of_nat (length (pr_lines p)) /\ b <= N.of_nat (length vals).
Proof.
  intros D CI E Hf Hs H HW. destruct (C67_lines h l c first vals wog text st D CI E Hf Hs H) as (p & Hp & Hn). exists p. split; [done|].
  destruct (work_needs h D l a b k HW _ _ (proj2 (Hn _ _) (conj eq_refl eq_refl))) as [-> ?]. done.
Qed.

(** The circuit of C13_example calls a circuit of an exclusive or, a constant and an and, and disjoins the results: three logic gates,
    a constant and a call. *)
Example C76_example : disciplined Debug heap_empty Prop_Eval.nested /\ evaluable (run Debug Prop_Eval.nested) 0 /\
  count_output Debug (run Debug Prop_Eval.nested) 20 0 [true; false] = (Ok [true; true], 5) /\
  count_output Debug (run Debug Prop_Eval.nested) 20 0 [false; false] = (Ok [false; false], 5).
Proof.
  destruct Prop_Eval.C13_example as (D & Ev & _). split; [exact D|]. split; [exact Ev|]. split; vm_compute; done.
Qed.

(** * C77 *)
(** A limit on the entries into [eval_single_gate]: for each output one, and for each gate of the circuit one and one for each operand (an input that
    is no longer there is entered in vain), for each call also the limit of the called circuit. *)
Inductive limit (h : heap) : nat -> N -> Prop :=
| limit_intro l c (w : N -> N) : h_circ h !! l = Some c ->
    (forall g gt, gate_map c !! g = Some gt -> is_module gt = false -> w g = match gt with GInput _ => 0 | _ => 1 + N.of_nat (length (operands gt)) end) ->
    (forall g gt, gate_map c !! g = Some gt -> gate_oi gt <> 0 -> w g = 0) ->
    (forall g il ol ids mid x l', gate_map c !! g = Some (GModule il ol ids 0 mid) -> h_stor h !! c_storage c = Some x -> module_map x !! mid = Some l' ->
      limit h l' (w g - (1 + N.of_nat (length ids)))) ->
    (forall g il ol ids mid, gate_map c !! g = Some (GModule il ol ids 0 mid) -> 1 + N.of_nat (length ids) <= w g) ->
    limit h l (output_len c * (1 + Counts.nsum (map w (nrange (gate_index c))))).

Lemma limit_le md h : dinv h -> forall l n, limit h l n -> forall fuel inputs, snd (count_output md h fuel l inputs) <= n.
Proof.
  intros D l n HL. induction HL as [l c w E H1 H2 _ IH H4]. intros fuel inputs.
  apply (output_le md h l c (di_inv h D) E (di_disc h D l c E) w).
  - intros g gt G Hm Hni. rewrite (H1 g gt G Hm). destruct gt; try done. by destruct (Hni w0).
  - exact H2.
  - intros g il ol ids mid x l' G Ex Em fu bits. pose proof (IH g il ol ids mid x l' G Ex Em fu bits). pose proof (H4 g il ol ids mid G). lia.
Qed.
Lemma limit_exists h : dinv h -> forall l c, h_circ h !! l = Some c -> exists n, limit h l n.
Proof.
  intros D. destruct (di_rank h D) as [rank Hrank].
  assert (H : forall k l c, (rank l < k)%nat -> h_circ h !! l = Some c -> exists n, limit h l n); [|intros l c E; eapply (H (Datatypes.S (rank l)) l c); [lia|done]].
  induction k as [|k IH]; intros l c Hk E; [lia|]. pose proof (hi_circ h (di_inv h D) l c E) as W.
  destruct (choice 0 (fun g t => forall gt, gate_map c !! g = Some gt ->
    (is_module gt = false -> t = match gt with GInput _ => 0 | _ => 1 + N.of_nat (length (operands gt)) end) /\ (gate_oi gt <> 0 -> t = 0) /\
    (forall il ol ids mid, gt = GModule il ol ids 0 mid -> 1 + N.of_nat (length ids) <= t /\ forall x l', h_stor h !! c_storage c = Some x ->
      module_map x !! mid = Some l' -> limit h l' (t - (1 + N.of_nat (length ids))))) (gate_index c)) as (w & Hw).
  { intros g Hg. destruct (proj2 (wf_gates c W g) Hg) as [gt G].
    destruct (is_module gt) eqn:Em; [destruct gt as [| | | | | |il ol ids oi mid]; try done|].
    - destruct (decide (oi = 0)) as [->|Hoi].
      + destruct (hi_calls h (di_inv h D) _ _ _ _ _ _ _ _ E G) as (x & l' & m & Ex & Emm & El' & _).
        destruct (IH l' m) as (n & Hn).
        { assert (Hcall : calls h c l') by (exists g, il, ol, ids, 0, mid, x; done). pose proof (Hrank l c l' E Hcall). lia. } { done. }
        exists (n + (1 + N.of_nat (length ids))). intros gt' G'. rewrite G in G'. injection G' as <-. split; [done|]. split; [done|].
        intros il2 ol2 ids2 mid2 [= <- <- <- <-]. split; [lia|]. intros x2 l2 Ex2 Em2. rewrite Ex in Ex2. injection Ex2 as <-. rewrite Emm in Em2. injection Em2 as <-.
        by replace (n + (1 + N.of_nat (length ids)) - (1 + N.of_nat (length ids))) with n by lia.
      + exists 0. intros gt' G'. rewrite G in G'. injection G' as <-. split; [done|]. split; [done|]. intros. by simplify_eq.
    - eexists. intros gt' G'. rewrite G in G'. injection G' as <-. split; [reflexivity|]. split; [by destruct gt|]. intros; by subst gt. }
  assert (Hlt : forall g gt, gate_map c !! g = Some gt -> g < gate_index c) by (intros; by eapply gm_lt).
  eexists. apply (limit_intro h l c w E).
  - intros g gt G. by apply (Hw g (Hlt g gt G) gt G).
  - intros g gt G. by apply (Hw g (Hlt g gt G) gt G).
  - intros g il ol ids mid x l' G Ex Em. destruct (Hw g (Hlt _ _ G) _ G) as (_ & _ & H). by apply (proj2 (H _ _ _ _ eq_refl) x l').
  - intros g il ol ids mid G. destruct (Hw g (Hlt _ _ G) _ G) as (_ & _ & H). exact (proj1 (H _ _ _ _ eq_refl)).
Qed.

(** Every circuit of a disciplined history has a limit, and no evaluation of it - whatever the mode, the fuel and the inputs, whether it succeeds or not, and
    whatever the order of its outputs - enters [eval_single_gate] more often. *)
Theorem C77_limit md ops l c : disciplined md heap_empty ops -> h_circ (run md ops) !! l = Some c -> exists n, limit (run md ops) l n /\
  forall md' fuel inputs, snd (count_output md' (run md ops) fuel l inputs) <= n.
Proof.
  intros D E. destruct (limit_exists _ (dinv_run md ops D) l c E) as (n & Hn). exists n. split; [done|]. intros md' fuel inputs.
  by apply (limit_le md' _ (dinv_run md ops D) l n Hn).
Qed.
(** Without calls, a multiple of the number of outputs times the number of gates. *)
Theorem C77_flat md ops l c : disciplined md heap_empty ops -> h_circ (run md ops) !! l = Some c ->
  (forall g gt, gate_map c !! g = Some gt -> is_module gt = false) ->
  forall md' fuel inputs, snd (count_output md' (run md ops) fuel l inputs) <= output_len c * (1 + 3 * N.of_nat (size (gate_map c))).
Proof.
  intros D E Hflat md' fuel inputs. destruct (C77_limit md ops l c D E) as (n & HL & Hn). etrans; [apply Hn|].
  inversion HL as [l2 c2 w E2 H1 H2 H3 H4]; subst. rewrite E in E2. injection E2 as <-.
  pose proof (hi_circ _ (run_hinv md ops) l c E) as W. apply N.mul_le_mono_l, N.add_le_mono_l.
  rewrite <- size_gates by done.
  assert (Hg : forall g, g ∈ nrange (gate_index c) -> w g <= 3).
  { intros g Hg%elem_of_nrange. destruct (proj2 (wf_gates c W g) Hg) as [gt G]. rewrite (H1 g gt G (Hflat g gt G)).
    specialize (Hflat g gt G). destruct gt; try done; simpl; lia. }
  etrans; [apply (nsum_mono w (fun _ => 3) _ Hg)|]. clear. induction (gate_index c) as [|n IH] using N.peano_ind; [simpl; lia|].
  rewrite <- N.add_1_r, nrange_succ, map_app, Counts.nsum_app.
  replace (Counts.nsum (map (fun _ : N => 3) [n])) with 3 by done. lia.
Qed.
(** Where an earlier output removes what a later one needs, gates are evaluated again: four negations after a constant, all outputs, the last one first. *)
Definition repeated : list op := [OpNewStorage; OpNewCircuit 0; OpConst 0 true; OpNot 0 0; OpNot 0 1; OpNot 0 2; OpNot 0 3;
  OpOutput 0 4; OpOutput 0 3; OpOutput 0 2; OpOutput 0 1; OpOutput 0 0].
Theorem C77_repeated : exists ops outs, disciplined Debug heap_empty ops /\
  on (run Debug ops) 0 (fun c => Ok (size (gate_map c), num_gate c, num_const c)) = Ok (5%nat, 4, 1) /\
  count_output Debug (run Debug ops) 20 0 [] = (Ok outs, 15).
Proof.
  exists repeated, [true; false; true; false; true]. split; [apply disciplined_b_sound; vm_compute; done|]. split; vm_compute; done.
Qed.
Example C77_example : disciplined Debug heap_empty repeated /\
  on (run Debug repeated) 0 (fun c => Ok (bool_decide (map_Forall (fun _ gt => is_module gt = false) (gate_map c)), output_len c)) = Ok (true, 5).
Proof. split; [apply disciplined_b_sound; vm_compute; done|]. vm_compute. done. Qed.
