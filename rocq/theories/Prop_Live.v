(** Property C67: how many lines a written circuit has, which circuits announce more, and that those cannot be read back. *)
From Verif Require Export Prop_Cost.
Open Scope N_scope.
Open Scope list_scope.

(** * Statements *)
(** Somewhere in the expansion of circuit [l] there is a logic gate that no output needs: a gate of the circuit itself, a gate of a circuit it
    calls, or all of a non-empty circuit whose call is not needed. *)
Inductive dead (h : heap) : nat -> Prop :=
| dead_own l c g gt : h_circ h !! l = Some c -> gate_map c !! g = Some gt -> is_logic gt = true -> ~ used c g -> dead h l
| dead_callee l c l' : h_circ h !! l = Some c -> calls h c l' -> dead h l' -> dead h l
| dead_call l c g il ol ids mid x l' m : h_circ h !! l = Some c -> gate_map c !! g = Some (GModule il ol ids 0 mid) -> ~ used c g ->
    h_stor h !! c_storage c = Some x -> module_map x !! mid = Some l' -> h_circ h !! l' = Some m -> 0 < num_gate m -> dead h l.

(** * Proofs *)
Lemma choice2 (P : N -> N -> N -> Prop) n : (forall g, g < n -> exists a b, P g a b) -> exists G K : N -> N, forall g, g < n -> P g (G g) (K g).
Proof.
  induction n as [|n IH] using N.peano_ind; intros H.
  - exists (fun _ => 0), (fun _ => 0). intros g Hg. lia.
  - destruct IH as (G & K & HP); [intros; apply H; lia|]. destruct (H n) as (a & b & Hab); [lia|].
    exists (fun g => if decide (g = n) then a else G g), (fun g => if decide (g = n) then b else K g). intros g Hg.
    destruct (decide (g = n)) as [-> |]; [done|]. apply HP. lia.
Qed.
(** Whether a gate is needed is decided by whether the writer records it. *)
Lemma used_dec h l c g gt : dinv h -> cinv h -> h_circ h !! l = Some c -> gate_map c !! g = Some gt -> is_logic gt = true \/ is_module gt = true ->
  used c g \/ ~ used c g.
Proof.
  intros D C E G Hk. destruct (writes_ok h l c 0 (writer_new l) D C E eq_refl ltac:(lia)) as (gls & vals & wog & st & _ & _ & _ & O).
  pose proof (wr_used _ _ _ _ _ _ _ O g gt G Hk) as Hu. destruct (decide (has wog g)); [left|right]; tauto.
Qed.
Lemma needs_exists h : dinv h -> cinv h -> forall l c, h_circ h !! l = Some c -> exists n m, needs h l n m.
Proof.
  intros D C. destruct (di_rank h D) as [rank Hrank].
  assert (forall k l c, (rank l < k)%nat -> h_circ h !! l = Some c -> exists n m, needs h l n m) as Hk.
  2:{ intros l c E. apply (Hk (S (rank l)) l c); [lia|done]. }
  induction k as [|k IH]; intros l c Hr E; [lia|].
  destruct (choice2 (fun g a b => forall gt, gate_map c !! g = Some gt ->
    (is_module gt = false -> (is_logic gt = true -> used c g -> a = 1) /\ (is_logic gt = false \/ ~ used c g -> a = 0) /\ b = if is_const gt then 1 else 0) /\
    (is_module gt = true -> gate_oi gt <> 0 \/ ~ used c g -> a = 0 /\ b = 0) /\
    (forall il ol ids mid x l', gt = GModule il ol ids 0 mid -> used c g -> h_stor h !! c_storage c = Some x -> module_map x !! mid = Some l' -> needs h l' a b))
    (gate_index c)) as (G & K & HP).
  { intros g Hg. pose proof (hi_circ _ (di_inv h D) l c E) as W. destruct (proj2 (wf_gates c W g) Hg) as [gt Eg].
    destruct gt as [w|b|a|a b|a b|a b|il ol ids oi mid].
    - exists 0, 0. intros gt' Eg'. rewrite Eg in Eg'. injection Eg' as <-. cbn. split; [|done]. by split.
    - exists 0, 1. intros gt' Eg'. rewrite Eg in Eg'. injection Eg' as <-. cbn. split; [|done]. by split.
    - destruct (used_dec h l c g _ D C E Eg (or_introl eq_refl)); [exists 1, 0|exists 0, 0]; intros gt' Eg'; rewrite Eg in Eg'; injection Eg' as <-; cbn; naive_solver.
    - destruct (used_dec h l c g _ D C E Eg (or_introl eq_refl)); [exists 1, 0|exists 0, 0]; intros gt' Eg'; rewrite Eg in Eg'; injection Eg' as <-; cbn; naive_solver.
    - destruct (used_dec h l c g _ D C E Eg (or_introl eq_refl)); [exists 1, 0|exists 0, 0]; intros gt' Eg'; rewrite Eg in Eg'; injection Eg' as <-; cbn; naive_solver.
    - destruct (used_dec h l c g _ D C E Eg (or_introl eq_refl)); [exists 1, 0|exists 0, 0]; intros gt' Eg'; rewrite Eg in Eg'; injection Eg' as <-; cbn; naive_solver.
    - destruct (hi_calls h (di_inv h D) _ _ _ _ _ _ _ _ E Eg) as (x & l' & m & Ex & Em & El' & _).
      assert (Hcall : calls h c l') by (exists g, il, ol, ids, oi, mid, x; done).
      destruct (IH l' m) as (n' & m' & Hn); [pose proof (Hrank l c l' E Hcall); lia|done|].
      destruct (decide (oi = 0)) as [-> |Hoi].
      + destruct (used_dec h l c g _ D C E Eg (or_intror eq_refl)) as [Hu|Hu].
        * exists n', m'. intros gt' Eg'. rewrite Eg in Eg'. injection Eg' as <-. split; [done|]. split; [cbn; by intros _ [?|?]|].
          intros il2 ol2 ids2 mid2 x2 l2 [= <- <- <- <-] _ Ex2 Em2. by simplify_eq.
        * exists 0, 0. intros gt' Eg'. rewrite Eg in Eg'. injection Eg' as <-. split; [done|]. split; [done|]. done.
      + exists 0, 0. intros gt' Eg'. rewrite Eg in Eg'. injection Eg' as <-. split; [done|]. split; [done|]. intros. by simplify_eq. }
  assert (Hlt : forall g gt, gate_map c !! g = Some gt -> g < gate_index c) by (intros; eapply gm_lt; [exact (hi_circ h (di_inv h D) l c E)|done]).
  eexists _, _. apply (needs_intro h l c G K E).
  - intros g gt Eg Hm. by apply (HP g (Hlt _ _ Eg) gt Eg).
  - intros g il ol ids oi mid Eg Ho. by apply (HP g (Hlt _ _ Eg) _ Eg).
  - intros g il ol ids mid x l' Eg Hu Ex Em. by eapply (HP g (Hlt _ _ Eg) _ Eg).
Qed.

(** * C67 *)
(** The lines of the text are as many as the logic gates of the expansion that some output needs, and the returned constants as many as the
    constants of the circuits that are reached. *)
Theorem C67_lines h l c first vals wog text st : dinv h -> cinv h -> h_circ h !! l = Some c -> first <= input_len c + num_const c -> sized c 0 ->
  writes h first (writer_new l) vals wog text st ->
  exists p, parse_prog text = Some p /\ forall n m, needs h l n m <-> n = N.of_nat (length (pr_lines p)) /\ m = N.of_nat (length vals).
Proof.
  intros D C E Hf Hs H. destruct (writes_inv _ l c first (writer_new l) _ _ _ _ D C E eq_refl Hf H) as (gls & -> & Hp & _ & _ & O).
  exists (wprog c first gls). split; [by apply Hp|]. cbn [wprog pr_lines]. intros n m. split.
  - intros HN. by destruct (wr_need _ _ _ _ _ _ _ O n m HN).
  - intros [-> ->]. destruct (needs_exists h D C l c E) as (n & m & HN). by destruct (wr_need _ _ _ _ _ _ _ O n m HN) as [-> ->].
Qed.

Lemma nsum_lt {A} (f g : A -> N) xs : (forall x, x ∈ xs -> f x <= g x) -> 
  Counts.nsum (map f xs) <= Counts.nsum (map g xs) /\ (Counts.nsum (map f xs) < Counts.nsum (map g xs) <-> exists x, x ∈ xs /\ f x < g x).
Proof.
  induction xs as [|x xs IH]; intros H.
  - split; [done|]. split; [cbn; lia|]. intros (x & Hx & _). by apply elem_of_nil in Hx.
  - destruct IH as [L I]; [intros; apply H; by right|]. pose proof (H x ltac:(left)) as Hx. cbn [map Counts.nsum foldr].
    change (foldr N.add 0 (map f xs)) with (Counts.nsum (map f xs)). change (foldr N.add 0 (map g xs)) with (Counts.nsum (map g xs)).
    split; [lia|]. split.
    + intros Hlt. destruct (decide (f x < g x)) as [Hd|Hd]; [exists x; split; [left|done]|].
      destruct (proj1 I) as (y & Hy & Hy'); [lia|]. exists y. split; [by right|done].
    + intros (y & [-> |Hy]%elem_of_cons & Hy'); [lia|]. assert (Counts.nsum (map f xs) < Counts.nsum (map g xs)) by (apply I; eauto). lia.
Qed.
Lemma nsum_ge {A} (g : A -> N) xs x : x ∈ xs -> g x <= Counts.nsum (map g xs).
Proof.
  induction xs as [|y xs IH]; intros Hx; [by apply elem_of_nil in Hx|]. cbn [map Counts.nsum foldr].
  change (foldr N.add 0 (map g xs)) with (Counts.nsum (map g xs)). apply elem_of_cons in Hx as [-> |Hx]; [lia|]. specialize (IH Hx). lia.
Qed.
(** The first gate of a call. *)
Lemma calls_start h l c l' : dinv h -> h_circ h !! l = Some c -> calls h c l' -> exists g il ol ids mid x m,
  gate_map c !! g = Some (GModule il ol ids 0 mid) /\ h_stor h !! c_storage c = Some x /\ module_map x !! mid = Some l' /\ h_circ h !! l' = Some m /\
  g < gate_index c /\ forall own f, weight own f h c g = f m.
Proof.
  intros D E (g & il & ol & ids & oi & mid & x & G & Ex & Em). pose proof (hi_circ _ (di_inv h D) l c E) as W.
  destruct (hi_calls h (di_inv h D) _ _ _ _ _ _ _ _ E G) as (x2 & l2 & m & Ex2 & Em2 & El' & _). simplify_eq.
  destruct (wf_blocks c W _ _ _ _ _ _ G) as (B1 & B2 & B3). specialize (B3 0 ltac:(lia)). rewrite N.add_0_r in B3.
  exists (g - oi), il, ol, ids, mid, x, m. repeat (split; [done|]). split; [by eapply gm_lt|].
  intros own f. unfold weight, callee. by rewrite B3, N.eqb_refl, Ex, Em, El'.
Qed.
Lemma weight_num h l c g gt : cinv h -> h_circ h !! l = Some c -> cwf c -> gate_map c !! g = Some gt -> 
  weight is_logic num_gate h c g <= num_gate c /\ weight is_const num_const h c g <= num_const c.
Proof.
  intros C E W G. destruct (C l c E) as [C1 C2]. assert (Hin : g ∈ nrange (gate_index c)) by (apply elem_of_nrange; by eapply gm_lt).
  rewrite C1, C2. split; by apply nsum_ge.
Qed.
Lemma dead_pos h l : dinv h -> cinv h -> dead h l -> forall c, h_circ h !! l = Some c -> 0 < num_gate c.
Proof.
  intros D C Hd. induction Hd as [l c g gt E G Hl _|l c l' E Hc _ IH|l c g il ol ids mid x l' m E G _ Ex Em El' Hm]; intros c2 E2; rewrite E in E2; injection E2 as <-;
    pose proof (hi_circ _ (di_inv h D) l c E) as W.
  - destruct (weight_num h l c g gt C E W G) as [Hw _]. unfold weight in Hw. rewrite G in Hw. destruct gt; try done; cbn in Hw; lia.
  - destruct (calls_start h l c l' D E Hc) as (g & il & ol & ids & mid & x & m & G & Ex & Em & El' & _ & Hw). specialize (IH m El').
    destruct (weight_num h l c g _ C E W G) as [Hw2 _]. rewrite Hw in Hw2. lia.
  - destruct (weight_num h l c g _ C E W G) as [Hw2 _]. unfold weight, callee in Hw2. rewrite G in Hw2. cbn in Hw2. rewrite Ex, Em, El' in Hw2. lia.
Qed.
Lemma needs_dead h : dinv h -> cinv h -> forall l n m, needs h l n m -> forall c, h_circ h !! l = Some c -> n <= num_gate c /\ (n < num_gate c <-> dead h l).
Proof.
  intros D C l n m HN. induction HN as [l c G K E H1 H2 _ IH]. intros c2 E2. rewrite E in E2. injection E2 as <-.
  pose proof (hi_circ _ (di_inv h D) l c E) as W. destruct (C l c E) as [-> _].
  assert (Hcall : forall g il ol ids mid, gate_map c !! g = Some (GModule il ol ids 0 mid) -> exists x l' m, h_stor h !! c_storage c = Some x /\
    module_map x !! mid = Some l' /\ h_circ h !! l' = Some m /\ calls h c l' /\ weight is_logic num_gate h c g = num_gate m).
  { intros g il ol ids mid Eg. destruct (hi_calls h (di_inv h D) _ _ _ _ _ _ _ _ E Eg) as (x & l' & m & Ex & Em & El' & _). exists x, l', m.
    repeat (split; [done|]). split; [exists g, il, ol, ids, 0, mid, x; done|]. unfold weight, callee. rewrite Eg. cbn. by rewrite Ex, Em, El'. }
  assert (Hle : forall g, g ∈ nrange (gate_index c) -> G g <= weight is_logic num_gate h c g).
  { intros g Hg%elem_of_nrange. destruct (proj2 (wf_gates c W g) Hg) as [gt Eg]. destruct (is_module gt) eqn:Em.
    - destruct gt as [| | | | | |il ol ids oi mid]; try done. destruct (decide (oi = 0)) as [-> |Hoi].
      + destruct (Hcall _ _ _ _ _ Eg) as (x & l' & m & Ex & Em' & El' & _ & ->).
        destruct (used_dec h l c g _ D C E Eg (or_intror eq_refl)) as [Hu|Hu]; [by eapply (IH g _ _ _ _ _ _ Eg Hu Ex Em' m)|].
        destruct (H2 g _ _ _ _ _ Eg) as [-> _]; [by right|]. lia.
      + destruct (H2 g _ _ _ _ _ Eg) as [-> _]; [by left|]. lia.
    - destruct (H1 g gt Eg Em) as (A1 & A2 & _). unfold weight. rewrite Eg. destruct (is_logic gt) eqn:El.
      + destruct (used_dec h l c g gt D C E Eg (or_introl El)) as [Hu|Hu]; [rewrite (A1 eq_refl Hu)|rewrite A2 by (by right)]; destruct gt; done.
      + rewrite A2 by (by left). lia. }
  destruct (nsum_lt _ _ _ Hle) as [L I]. split; [done|]. rewrite I. split.
  - intros (g & Hg%elem_of_nrange & Hlt). destruct (proj2 (wf_gates c W g) Hg) as [gt Eg]. destruct (is_module gt) eqn:Em.
    + destruct gt as [| | | | | |il ol ids oi mid]; try done. destruct (decide (oi = 0)) as [-> |Hoi].
      * destruct (Hcall _ _ _ _ _ Eg) as (x & l' & m & Ex & Em' & El' & Hc & Hw). rewrite Hw in Hlt.
        destruct (used_dec h l c g _ D C E Eg (or_intror eq_refl)) as [Hu|Hu].
        -- eapply dead_callee; [done|done|]. by apply (IH g _ _ _ _ _ _ Eg Hu Ex Em' m El').
        -- destruct (H2 g _ _ _ _ _ Eg) as [Hz _]; [by right|]. eapply dead_call; eauto. lia.
      * unfold weight in Hlt. rewrite Eg in Hlt. apply N.eqb_neq in Hoi. rewrite Hoi in Hlt. lia.
    + destruct (H1 g gt Eg Em) as (A1 & A2 & _). unfold weight in Hlt. rewrite Eg in Hlt. destruct (is_logic gt) eqn:El.
      * eapply dead_own; [done|done|done|]. intros Hu. rewrite (A1 eq_refl Hu) in Hlt. destruct gt; try done; cbn in Hlt; lia.
      * destruct gt; try done; cbn in Hlt; lia.
  - intros Hd. inversion Hd as [l0 c0 g gt E0 Eg Hl Hu|l0 c0 l' E0 Hc Hd'|l0 c0 g il ol ids mid x l' m E0 Eg Hu Ex Em El' Hm]; subst l0; rewrite E in E0; injection E0 as <-.
    + exists g. split; [apply elem_of_nrange; by eapply gm_lt|]. assert (Em : is_module gt = false) by (by destruct gt).
      destruct (H1 g gt Eg Em) as (_ & A2 & _). rewrite A2 by (by right). unfold weight. rewrite Eg. by destruct gt.
    + destruct (calls_start h l c l' D E Hc) as (g & il & ol & ids & mid & x & m & Eg & Ex & Em & El' & Hg & Hw).
      exists g. split; [by apply elem_of_nrange|]. rewrite Hw. destruct (used_dec h l c g _ D C E Eg (or_intror eq_refl)) as [Hu|Hu].
      * by apply (IH g _ _ _ _ _ _ Eg Hu Ex Em m El').
      * destruct (H2 g _ _ _ _ _ Eg) as [-> _]; [by right|]. by eapply dead_pos.
    + exists g. split; [apply elem_of_nrange; by eapply gm_lt|]. destruct (H2 g _ _ _ _ _ Eg) as [-> _]; [by right|].
      destruct (Hcall _ _ _ _ _ Eg) as (x2 & l2 & m2 & Ex2 & Em2 & El2 & _ & ->). by simplify_eq.
Qed.
(** The announced number of gates is right exactly when no gate of the expansion is dead. *)
Theorem C67_exact h l c first vals wog text st : dinv h -> cinv h -> h_circ h !! l = Some c -> first <= input_len c + num_const c -> sized c 0 ->
  writes h first (writer_new l) vals wog text st ->
  exists p, parse_prog text = Some p /\ (N.of_nat (length (pr_lines p)) < pr_gates p <-> dead h l) /\ (N.of_nat (length (pr_lines p)) = pr_gates p <-> ~ dead h l).
Proof.
  intros D C E Hf Hs H. destruct (writes_inv _ l c first (writer_new l) _ _ _ _ D C E eq_refl Hf H) as (gls & -> & Hp & _ & _ & O).
  exists (wprog c first gls). split; [by apply Hp|]. cbn [wprog pr_lines pr_gates]. destruct (needs_exists h D C l c E) as (n & m & HN).
  destruct (wr_need _ _ _ _ _ _ _ O n m HN) as [-> _]. destruct (needs_dead h D C l n m HN c E) as [L I]. split; [done|]. rewrite <- I. lia.
Qed.
(** A circuit with a dead gate, or with a constant, cannot be read back (unless it has no output). *)
Theorem C67_unreadable h l c first vals wog text st md2 h2 l2 : dinv h -> cinv h -> h_circ h !! l = Some c ->
  first <= input_len c + num_const c -> sized c 0 -> dead h l \/ 0 < num_const c -> 0 < output_len c ->
  writes h first (writer_new l) vals wog text st -> target h2 l2 ->
  md2 = Debug \/ output_len c <= input_len c + num_gate c + 2 * num_const c ->
  exists p h', read_fresh md2 l2 text h2 = (Panic p, h').
Proof.
  intros D C E Hf Hs Hd Ho H T Hmd. destruct (writes_inv _ l c first (writer_new l) _ _ _ _ D C E eq_refl Hf H) as (gls & -> & Hp & _ & _ & O).
  specialize (Hp Hs). assert (N.of_nat (length gls) < num_gate c \/ 0 < num_const c) as Hlt.
  { destruct Hd as [Hd|?]; [left|by right]. destruct (needs_exists h D C l c E) as (n & m & HN). 
    destruct (wr_need _ _ _ _ _ _ _ O n m HN) as [-> _]. by apply (needs_dead h D C l n m HN c E). }
  pose proof (wr_gates _ _ _ _ _ _ _ O) as Hg. pose proof (wr_consts _ _ _ _ _ _ _ O) as Hcn. cbn [writer_new w_num] in O.
  set (inputs := replicate (N.to_nat (input_len c)) false). set (pad := replicate (N.to_nat (num_const c) - length vals) false).
  assert (Hi : N.of_nat (length inputs) = input_len c) by (unfold inputs; rewrite replicate_length; lia).
  destruct (wr_sound _ _ _ _ _ _ _ O EqCopies inputs (load_from 0 (inputs ++ vals ++ pad)) Hi) as (e & He & _ & Hr).
  { intros i b. apply (loaded_at inputs vals pad). } { intros i b. rewrite <- Hi. apply (loaded_at inputs vals pad). }
  assert (Hlen : N.of_nat (length (inputs ++ vals ++ pad)) = input_len c + num_const c).
  { rewrite !app_length. unfold pad. rewrite replicate_length. lia. }
  destruct (decide (output_len c <= input_len c + num_gate c + 2 * num_const c)) as [Hw|Hw].
  - destruct (C21_undefined_output md2 h2 l2 (show_prog (wprog c first gls)) (wprog c first gls) (inputs ++ vals ++ pad) e (input_len c + num_gate c + 2 * num_const c - 1) T Hp)
      as [h' Hh']; [| |done| | |eauto].
    + cbn [wprog pr_wires pr_out nsum fold_right]. lia.
    + cbn [wprog pr_in nsum fold_right]. lia.
    + apply elem_of_output_wires; cbn [wprog pr_wires pr_out nsum fold_right]; lia.
    + rewrite (exec_keep _ _ _ _ _ He).
      * rewrite load_from_0. apply lookup_ge_None_2. lia.
      * intros gl [k Hk]%elem_of_list_lookup Hin. pose proof (lookup_lt_Some _ _ _ Hk).
        destruct (wr_lines _ _ _ _ _ _ _ O _ _ Hk) as (Hgo & _). rewrite Hgo in Hin. apply elem_of_list_singleton in Hin. lia.
  - destruct Hmd as [-> |Hmd]; [|done]. destruct Hs as [_ Hs].
    destruct (C21_too_many_outputs h2 l2 (show_prog (wprog c first gls)) (wprog c first gls) (inputs ++ vals ++ pad) T Hp) as [ [h' Hh'] _]; [| | |cbn [wprog pr_lines]; eauto|eauto].
    + cbn [wprog pr_wires pr_out nsum fold_right]. lia.
    + cbn [wprog pr_out nsum fold_right]. lia.
    + cbn [wprog pr_in nsum fold_right]. lia.
Qed.

(** * The adder *)
(** The circuit at [s] has no module calls, its gate [x] is a logic gate, and it is neither an operand nor an output. *)
Record idle (st0 : list storage) (x : N) (s : nat) (h : heap) : Prop := {
  id_s : h_stor h = st0;
  id_c : exists c gt, h_circ h !! s = Some c /\ gate_map c !! x = Some gt /\ is_logic gt = true /\ x < gate_index c /\
    (forall g gt', gate_map c !! g = Some gt' -> is_module gt' = false /\ x ∉ operands gt') /\ (forall k o, output_map c !! k = Some o -> o <> x);
}.
Lemma touch_only c o x : touch c o x -> (forall g gt, gate_map c !! g = Some gt -> is_module gt = false /\ x ∉ operands gt) -> o = x.
Proof.
  intros Ht H. induction Ht as [g y Hy|g gt a y Eg Ha Ht IH].
  - unfold blk in Hy. destruct (gate_map c !! g) as [gt|] eqn:Eg; [|by apply elem_of_list_singleton in Hy].
    destruct (H g gt Eg) as [Hm _]. destruct gt; try done; by apply elem_of_list_singleton in Hy.
  - specialize (IH H) as ->. by destruct (H g gt Eg).
Qed.
Lemma idle_unused st0 x s h : idle st0 x s h -> dead h s.
Proof.
  intros [_ (c & gt & E & G & Hl & _ & Ho & Hu)]. eapply dead_own; [exact E|exact G|exact Hl|]. intros (k & o & Ek & Ht).
  by apply (Hu k o Ek), (touch_only c).
Qed.
(** Computations that leave [x] idle. *)
Definition spares {A} (st0 : list storage) (x : N) (s : nat) (m : M A) (Q : A -> Prop) : Prop := forall h r h', m h = (Ok r, h') -> idle st0 x s h -> idle st0 x s h' /\ Q r.
Section spares.
Context (st0 : list storage) (x : N) (s : nat).
Lemma spares_inert {A} (m : M A) Q : inert m Q -> spares st0 x s m Q.
Proof. intros H h r h' E I. destruct (H _ _ _ E) as [-> ?]. done. Qed.
Lemma spares_bind {A B} (m : M A) (k : A -> M B) Q Q' : spares st0 x s m Q -> (forall r, Q r -> spares st0 x s (k r) Q') -> spares st0 x s (st_bind m k) Q'.
Proof. intros Hm Hk h r h' E I. apply bind_Ok in E as (a & h1 & E1 & E2). destruct (Hm _ _ _ E1 I) as [I1 Qa]. by eapply Hk. Qed.
Lemma idle_push h c gt c' : h_circ h !! s = Some c -> push c gt c' -> x ∉ operands gt -> idle st0 x s h -> idle st0 x s (upd h s c') /\ gate_index c <> x.
Proof.
  intros E P Hx [Hs (c0 & gt0 & E0 & G & Hl & Hlt & Ho & Hu)]. rewrite E in E0. injection E0 as <-. split; [|lia]. split; [done|]. exists c', gt0.
  split; [by eapply upd_lookup|]. rewrite (p_gm _ _ _ P), (p_gi _ _ _ P), (p_om _ _ _ P). split; [by rewrite lookup_insert_ne by lia|]. split; [done|]. split; [lia|]. split; [|done].
  intros g gt' [[<- <-]|[_ G']]%lookup_insert_Some; [|exact (Ho g gt' G')]. split; [apply P|done].
Qed.
Lemma spares_and a b : a <> x -> b <> x -> spares st0 x s (r_and s a b) (fun g => g <> x).
Proof.
  intros Ha Hb h r h' E I. destruct (id_c _ _ _ _ I) as (c & _ & Ec & _). destruct (r_and_ok h s c Ec a b) as (c' & E' & P). rewrite E in E'. injection E' as -> ->.
  eapply idle_push; [done|done| |done]. cbn. intros [?|[?|[]%elem_of_nil]%elem_of_cons]%elem_of_cons; congruence.
Qed.
Lemma spares_or a b : a <> x -> b <> x -> spares st0 x s (r_or s a b) (fun g => g <> x).
Proof.
  intros Ha Hb h r h' E I. destruct (id_c _ _ _ _ I) as (c & _ & Ec & _). destruct (r_or_ok h s c Ec a b) as (c' & E' & P). rewrite E in E'. injection E' as -> ->.
  eapply idle_push; [done|done| |done]. cbn. intros [?|[?|[]%elem_of_nil]%elem_of_cons]%elem_of_cons; congruence.
Qed.
Lemma spares_xor a b : a <> x -> b <> x -> spares st0 x s (r_xor s a b) (fun g => g <> x).
Proof.
  intros Ha Hb h r h' E I. destruct (id_c _ _ _ _ I) as (c & _ & Ec & _). destruct (r_xor_ok h s c Ec a b) as (c' & E' & P). rewrite E in E'. injection E' as -> ->.
  eapply idle_push; [done|done| |done]. cbn. intros [?|[?|[]%elem_of_nil]%elem_of_cons]%elem_of_cons; congruence.
Qed.
Lemma spares_output g : g <> x -> spares st0 x s (b_output s g) (fun _ => True).
Proof.
  intros Hg h r h' E I. split; [|done]. destruct (id_c _ _ _ _ I) as (c & gt & Ec & G & Hl & Hlt & Ho & Hu).
  unfold b_output in E. apply bind_Ok in E as (y & h1 & E1 & E2). injection E2 as <- <-.
  destruct (r_output_cases h s c Ec g) as [[_ E']|(c' & E' & P)]; rewrite E1 in E'; [done|]. injection E' as -> ->. split; [apply (id_s _ _ _ _ I)|]. exists c', gt. split; [by eapply upd_lookup|].
  destruct P as [_ ->]. cbn [gate_map gate_index output_map]. repeat (split; [done|]). intros k o [[_ <-]|[_ Hk]]%lookup_insert_Some; [done|by eapply Hu].
Qed.
Lemma spares_nth {v : list N} i : Forall (fun g => g <> x) v -> spares st0 x s (st_nth v i) (fun g => g <> x).
Proof. intros H. apply spares_inert. eapply inert_post; [apply inert_nth|]. intros a Ha. exact (Forall_lookup_1 _ _ _ _ H Ha). Qed.
Lemma spares_mapM {A B} (f : A -> M B) (Q : B -> Prop) xs : (forall a, spares st0 x s (f a) Q) -> spares st0 x s (st_mapM f xs) (Forall Q).
Proof.
  intros H. induction xs as [|a xs IH]; cbn [st_mapM]; [by apply spares_inert, inert_ret|]. eapply spares_bind; [apply H|intros y Hy].
  eapply spares_bind; [exact IH|intros ys Hys]. apply spares_inert, inert_ret. by constructor.
Qed.
Lemma spares_iterM {A} (f : A -> M unit) xs : (forall a, a ∈ xs -> spares st0 x s (f a) (fun _ => True)) -> spares st0 x s (st_iterM f xs) (fun _ => True).
Proof.
  intros H. induction xs as [|a xs IH]; cbn [st_iterM]; [by apply spares_inert, inert_ret|]. eapply spares_bind; [apply H; left|intros y Hy]. apply IH. intros. apply H. by right.
Qed.
Lemma spares_foldM {A B} (f : B -> A -> M B) (Q : B -> Prop) xs : (forall b a, a ∈ xs -> Q b -> spares st0 x s (f b a) Q) -> forall b, Q b -> spares st0 x s (st_foldM f b xs) Q.
Proof.
  induction xs as [|a xs IH]; intros H b Hb; cbn [st_foldM]; [by apply spares_inert, inert_ret|]. eapply spares_bind; [apply H; [left|done]|intros y Hy].
  apply IH; [|done]. intros. apply H; [by right|done].
Qed.
End spares.
(** Only inputs so far. *)
Definition just_inputs (st0 : list storage) (s : nat) (h : heap) (i : N) : Prop :=
  h_stor h = st0 /\ exists c, h_circ h !! s = Some c /\ gate_index c = i /\ output_map c = ∅ /\ forall g gt, gate_map c !! g = Some gt -> is_module gt = false /\ operands gt = [].
Lemma inputs_just st0 s n h i : just_inputs st0 s h i -> forall v h', b_inputs s n h = (Ok v, h') -> just_inputs st0 s h' (i + N.of_nat n) /\ Forall (fun g => g < i + N.of_nat n) v.
Proof.
  unfold b_inputs. generalize 0%nat. revert h i. induction n as [|n IH]; intros h i k Hj v h' E; cbn [seq st_mapM] in E.
  - injection E as <- <-. split; [by rewrite N.add_0_r|constructor].
  - apply bind_Ok in E as (g & h1 & E1 & E). apply bind_Ok in E as (v' & h2 & E2 & E3). injection E3 as <- <-. destruct Hj as (Hst & c & Ec & Hi & Hm & Ho).
    destruct (r_input_ok h s c Ec) as (c' & E' & P). rewrite E1 in E'. injection E' as -> ->.
    destruct (IH (upd h s c') (i + 1) (S k)) with (v := v') (h' := h2) as [J F]; [|done|].
    + split; [done|]. exists c'. split; [by eapply upd_lookup|]. rewrite (p_gi _ _ _ P), (p_gm _ _ _ P), (p_om _ _ _ P), Hi. split; [done|]. split; [done|].
      intros g gt [[<- <-]|[_ G]]%lookup_insert_Some; [done|by apply (Ho g)].
    + replace (i + N.of_nat (S n)) with (i + 1 + N.of_nat n) by lia. split; [done|]. constructor; [lia|done].
Qed.
Lemma adder_idle st0 n s h : just_inputs st0 s h 0 -> forall (mid r : N) h', (a_inputs <- b_inputs s n ;;
  b_inputs <- b_inputs s n ;;
  gps <- st_mapM (fun i => a <- st_nth a_inputs i ;; b <- st_nth b_inputs i ;; g <- r_and s a b ;; p <- r_or s a b ;; st_ret (g, p)) (range 0 n) ;;
  let gs := map fst gps in let ps := map snd gps in
  g0 <- st_nth gs 0 ;;
  cs <- st_foldM (fun cs i => p <- st_nth ps i ;; c_pre <- st_nth cs (i - 1)%nat ;; pc_pre <- r_and s p c_pre ;; g <- st_nth gs i ;;
      c <- r_or s g pc_pre ;; st_ret (cs ++ [c])) [g0] (range 1 n) ;;
  a0 <- st_nth a_inputs 0 ;; b0 <- st_nth b_inputs 0 ;;
  first_s <- r_xor s a0 b0 ;;
  b_output s first_s ;;
  st_iterM (fun i => a <- st_nth a_inputs i ;; b <- st_nth b_inputs i ;; a_xor_b <- r_xor s a b ;; c <- st_nth cs (i - 1)%nat ;;
      x <- r_xor s a_xor_b c ;; b_output s x) (range 1 n) ;;
  st_ret mid) h = (Ok r, h') -> idle st0 (2 * N.of_nat n + 1) s h'.
Proof.
  intros J mid r h' E. apply bind_Ok in E as (va & h1 & E1 & E). destruct (inputs_just _ _ _ _ _ J _ _ E1) as [J1 F1].
  apply bind_Ok in E as (vb & h2 & E2 & E). destruct (inputs_just _ _ _ _ _ J1 _ _ E2) as [J2 F2]. rewrite N.add_0_l in *.
  set (x := 2 * N.of_nat n + 1).
  assert (Fa : Forall (fun g => g <> x) va) by (eapply Forall_impl; [exact F1|]; cbn; lia). assert (Fb : Forall (fun g => g <> x) vb) by (eapply Forall_impl; [exact F2|]; cbn; lia).
  apply bind_Ok in E as (gps & h3 & E3 & E). cbv zeta in E.
  destruct n as [|n]; [injection E3 as <- <-; apply bind_Ok in E as (? & ? & Q & _); done|].
  replace (range 0 (S n)) with (0%nat :: range 1 (S n)) in E3 by (unfold range; cbn; by rewrite Nat.sub_0_r). cbn [st_mapM] in E3. apply bind_Ok in E3 as ([g0 p0] & h4 & E4 & E3).
  assert (idle st0 x s h4 /\ g0 <> x) as [I4 Hg0].
  { apply bind_Ok in E4 as (a & h5 & E5 & E4). destruct (inert_nth _ _ _ _ _ E5) as [-> Ha]. apply bind_Ok in E4 as (b & h5 & E5' & E4). destruct (inert_nth _ _ _ _ _ E5') as [-> Hb].
    destruct J2 as (Hst & c & Ec & Hi & Hm & Ho). apply bind_Ok in E4 as (g & h5 & E6 & E4). destruct (r_and_ok h2 s c Ec a b) as (c1 & E' & P). rewrite E6 in E'. injection E' as -> ->.
    assert (Ec1 : h_circ (upd h2 s c1) !! s = Some c1) by by eapply upd_lookup.
    apply bind_Ok in E4 as (p & h6 & E7 & E4). destruct (r_or_ok (upd h2 s c1) s c1 Ec1 a b) as (c2 & E' & P2). rewrite E7 in E'. injection E' as -> ->.
    injection E4 as <- <- <-. pose proof (Forall_lookup_1 _ _ _ _ F1 Ha) as La. pose proof (Forall_lookup_1 _ _ _ _ F2 Hb) as Lb. cbv beta in La, Lb.
    assert (Hx : gate_index c1 = x) by (rewrite (p_gi _ _ _ P), Hi; unfold x; lia). split; [|rewrite Hi; unfold x; lia]. split; [done|]. eexists c2, _.
    split; [by eapply upd_lookup|]. rewrite (p_gm _ _ _ P2), (p_gi _ _ _ P2), (p_om _ _ _ P2), (p_om _ _ _ P), Hm, (p_gm _ _ _ P), Hx.
    split; [apply lookup_insert|]. split; [done|]. split; [lia|]. split; [|done].
    assert (Hab : x ∉ [a; b]) by (unfold x; intros [?|[?|[]%elem_of_nil]%elem_of_cons]%elem_of_cons; lia).
    intros g' gt' [[_ <-]|[_ [[_ <-]|[_ G]]%lookup_insert_Some]]%lookup_insert_Some; [done|done|]. destruct (Ho g' gt' G) as [Hmm ->]. split; [done|]. by intros []%elem_of_nil. }
  apply bind_Ok in E3 as (gps' & h5 & E5 & E3). injection E3 as <- <-.
  assert (S5 : spares st0 x s (st_mapM (fun i => a <- st_nth va i ;; b <- st_nth vb i ;; g <- r_and s a b ;; p <- r_or s a b ;; st_ret (g, p)) (range 1 (S n))) (Forall (fun gp => gp.1 <> x /\ gp.2 <> x))).
  { apply spares_mapM. intros i. eapply spares_bind; [by apply spares_nth|intros a Ha]. eapply spares_bind; [by apply spares_nth|intros b Hb].
    eapply spares_bind; [by apply spares_and|intros g Hg]. eapply spares_bind; [by apply spares_or|intros p Hp]. by apply spares_inert, inert_ret. }
  destruct (S5 _ _ _ E5 I4) as [I5 F5]. set (gs := map fst ((g0, p0) :: gps')) in E. set (ps := map snd ((g0, p0) :: gps')) in E.
  assert (Fg : Forall (fun g => g <> x) gs) by (unfold gs; cbn [map]; constructor; [done|]; apply Forall_map; eapply Forall_impl; [exact F5|]; cbn; tauto).
  assert (Fp : forall i, spares st0 x s (st_nth ps (S i)) (fun g => g <> x)).
  { intros i. apply spares_inert. eapply inert_post; [apply inert_nth|]. intros a Ha. unfold ps in Ha. cbn [map] in Ha. cbn in Ha.
    apply list_lookup_fmap_inv in Ha as (gp & -> & Ei). by apply (Forall_lookup_1 _ _ _ _ F5 Ei). }
  revert E. generalize dependent h5. clearbody gs ps. intros h5 _ I5 E.
  enough (H : spares st0 x s (g0 <- st_nth gs 0 ;;
    cs <- st_foldM (fun cs i => p <- st_nth ps i ;; c_pre <- st_nth cs (i - 1)%nat ;; pc_pre <- r_and s p c_pre ;; g <- st_nth gs i ;;
      c <- r_or s g pc_pre ;; st_ret (cs ++ [c])) [g0] (range 1 (S n)) ;;
    a0 <- st_nth va 0 ;; b0 <- st_nth vb 0 ;;
    first_s <- r_xor s a0 b0 ;;
    b_output s first_s ;;
    st_iterM (fun i => a <- st_nth va i ;; b <- st_nth vb i ;; a_xor_b <- r_xor s a b ;; c <- st_nth cs (i - 1)%nat ;;
      x <- r_xor s a_xor_b c ;; b_output s x) (range 1 (S n)) ;;
    st_ret mid) (fun _ => True)) by by eapply H.
  eapply spares_bind; [by apply spares_nth|intros g1 Hg1].
  eapply (spares_bind _ _ _ _ _ (Forall (fun g => g <> x))).
  { apply spares_foldM; [|by apply Forall_singleton]. intros cs i Hi Hcs. unfold range in Hi. apply elem_of_seq in Hi. destruct i as [|i]; [lia|].
    eapply spares_bind; [apply Fp|intros p Hp]. eapply spares_bind; [by apply spares_nth|intros cp Hcp]. eapply spares_bind; [by apply spares_and|intros pc Hpc].
    eapply spares_bind; [by apply spares_nth|intros g Hg]. eapply spares_bind; [by apply spares_or|intros c Hc]. apply spares_inert, inert_ret. apply Forall_app. split; [done|by apply Forall_singleton]. }
  intros cs Hcs. eapply spares_bind; [by apply spares_nth|intros a0 Ha0]. eapply spares_bind; [by apply spares_nth|intros b0 Hb0].
  eapply spares_bind; [by apply spares_xor|intros fs Hfs]. eapply spares_bind; [by apply spares_output|intros _ _].
  eapply spares_bind; [|intros _ _; by apply spares_inert, inert_ret]. apply spares_iterM. intros i _.
  eapply spares_bind; [by apply spares_nth|intros a Ha]. eapply spares_bind; [by apply spares_nth|intros b Hb]. eapply spares_bind; [by apply spares_xor|intros axb Haxb].
  eapply spares_bind; [by apply spares_nth|intros c Hc]. eapply spares_bind; [by apply spares_xor|intros y Hy]. by apply spares_output.
Qed.
Lemma adder_dead h l n mid h' : base h l -> build_add l n h = (Ok mid, h') -> exists c x s st0 i,
  h_circ h' !! l = Some c /\ h_stor h' !! c_storage c = Some x /\ module_map x !! mid = Some s /\ s <> l /\ idle st0 i s h'.
Proof.
  intros Hb E. pose proof Hb as [D [c Ec]]. assert (Hn : (1 <= n)%nat).
  { destruct n; [exfalso|lia]. unfold build_add in E. apply bind_Ok in E as ([m s] & h1 & _ & E). do 3 (apply bind_Ok in E as (? & ? & Q & E); try (injection Q as <- <-)).
    by apply bind_Ok in E as (? & ? & Q & E). }
  destruct (hi_stor _ (di_inv _ D) _ _ Ec) as [x Ex]. destruct (makes_add [] _ l n Hn _ _ _ E (site_base h l c Hb Ec)) as [_ G].
  unfold build_add in E. apply bind_Ok in E as ([m s] & h1 & E1 & E2). rewrite (r_sub_ok h l c Ec x Ex) in E1. injection E1 as <- <- <-.
  set (s := length (h_circ h)) in *. set (h1 := reg _ _ _ _) in *.
  assert (J : just_inputs (h_stor h1) s h1 0).
  { split; [done|]. exists (circuit_new (c_storage c)). split; [cbn; unfold s; by rewrite lookup_app_r, Nat.sub_diag by lia|]. split; [done|]. split; [done|]. intros g gt Hg. done. }
  pose proof (adder_idle _ n s h1 J _ _ _ E2) as I.
  assert (mid = num_module x) as ->.
  { clear -E2. cbv zeta in E2. repeat (apply bind_Ok in E2 as (? & ? & _ & E2)). by injection E2. }
  eexists c, _, s, _, _. split; [by apply (gr_old _ _ _ G)|]. rewrite (id_s _ _ _ _ I). split; [cbn; apply list_lookup_insert; by eapply lookup_lt_Some|].
  split; [cbn; apply lookup_insert|]. split; [|exact I]. intros Hs. apply lookup_lt_Some in Ec. unfold s in Hs. lia.
Qed.

(** Every adder, of whatever width, has a dead gate: the disjunction of the lowest bits of its operands. *)
Theorem C67_adder h l n mid h' : base h l -> build_add l n h = (Ok mid, h') -> exists s, get_module h' l mid = Ok s /\ dead h' s.
Proof.
  intros Hb E. destruct (adder_dead h l n mid h' Hb E) as (c & x & s & st0 & i & Ec & Ex & Em & _ & Hi). exists s.
  split; [|by eapply idle_unused]. unfold get_module, r_get_module, st_bind, get_circ, get_stor. by rewrite Ec, Ex, Em.
Qed.

(** * Programs *)
Definition called (mid : N) (c : circuit) : Prop := exists g il ol ids oi, gate_map c !! g = Some (GModule il ol ids oi mid).
Definition calling {A} (L : lib) (st s : nat) (mid : N) (m : M A) : Prop := forall h r h', m h = (Ok r, h') -> ready L st s h ->
  (forall c, h_circ h !! s = Some c -> tight c) -> forall c', h_circ h' !! s = Some c' -> called mid c'.
Section calling.
Context (L : lib) (st s : nat) (mid : N).
Lemma calling_right {A B} (m : M A) (k : A -> M B) t Q : costs L st s m t Q -> (forall r, Q r -> calling L st s mid (k r)) -> calling L st s mid (st_bind m k).
Proof.
  intros Hm Hk h r h' E R T. apply bind_Ok in E as (a & h1 & E1 & E2). destruct (Hm _ _ _ E1 R) as [Ta Qa].
  eapply Hk; [done|exact E2|by eapply ready_tally|]. destruct R as [(c & Ec & _) _]. destruct (ta_self _ _ _ _ Ta c Ec) as (c1 & Ec1 & _ & _ & K).
  intros c0 E0. rewrite Ec1 in E0. injection E0 as <-. by apply (K (T c Ec)).
Qed.
Lemma calling_left {A B} (m : M A) (k : A -> M B) a b Q Q' : calling L st s mid m -> costs L st s m a Q -> (forall r, Q r -> costs L st s (k r) b Q') ->
  calling L st s mid (st_bind m k).
Proof.
  intros Hc Hm Hk h r h' E R T c' E'. apply bind_Ok in E as (y & h1 & E1 & E2). destruct (Hm _ _ _ E1 R) as [Ta Qa].
  destruct (Hk y Qa _ _ _ E2) as [Tb _]; [by eapply ready_tally|]. pose proof R as [(c & Ec & _) _]. destruct (ta_self _ _ _ _ Ta c Ec) as (c1 & Ec1 & _ & _ & K).
  destruct (K (T c Ec)) as [T1 _]. destruct (Hc _ _ _ E1 R T c1 Ec1) as (g & il & ol & ids & oi & G).
  destruct (ta_self _ _ _ _ Tb c1 Ec1) as (c2 & Ec2 & _ & _ & K2). rewrite E' in Ec2. injection Ec2 as <-. destruct (K2 T1) as [_ Sub].
  exists g, il, ol, ids, oi. by eapply lookup_weaken.
Qed.
Lemma calling_module md ids t : (mid, t) ∈ L -> 0 < t_o t -> calling L st s mid (r_module md s mid ids).
Proof.
  intros Hin Ho h r h' E [(c & Ec & St) HL] T c' E'. destruct (HL _ _ Hin) as (x & l' & m & Ex & Em & Hne & El & Hc).
  unfold r_module in E. apply bind_Ok in E as (l2 & h1 & E1 & E2). unfold r_get_module in E1. unfold st_bind, get_circ, get_stor in E1.
  rewrite Ec, St, Ex, Em in E1. injection E1 as <- <-. rewrite decide_False in E2 by done. unfold st_bind, get_circ in E2. rewrite El, Ec in E2.
  destruct (c_module md c m mid ids) as [[outs c2]|] eqn:Ecm; [|done]. apply c_module_push in Ecm as [_ P]. unfold put_circ, st_ret in E2. injection E2 as <- <-.
  cbn in E'. rewrite list_lookup_insert in E' by (by eapply lookup_lt_Some). injection E' as <-. subst t. cbn in Ho.
  eexists (gate_index c), _, _, _, _. rewrite (pm_gm _ _ _ _ _ _ P). rewrite decide_True by lia. done.
Qed.
End calling.
Lemma calling_add L st l n cfg md x y : (1 <= n)%nat -> ic_ref cfg = l -> (ic_add cfg, add_size n) ∈ L -> iok n cfg x -> calling L st l (ic_add cfg) (int_add md x y).
Proof.
  intros Hn Href Hin [Hc _]. unfold int_add, int_call. rewrite Hc, Href.
  assert (H : forall ids, calling L st l (ic_add cfg) (st_expect (r_module md l (ic_add cfg) ids))).
  { intros ids h r h' E R T. unfold st_expect in E. destruct (r_module _ _ _ _ h) as [[] ?] eqn:Em; try done. injection E as -> ->.
    by eapply calling_module; [exact Hin|cbn; lia|exact Em|..]. }
  eapply (calling_left _ _ _ _ _ _ _ czero _ (fun _ => True)); [apply H|by eapply costs_expect, costs_module|]. intros r _. by apply costs_inert, inert_ret.
Qed.
(** An addition occurs in the expression, in the program. *)
Fixpoint has_add (e : iexp) : Prop :=
  match e with
  | IVar _ | IBig _ | IZero | IOne => False
  | IAdd _ _ => True
  | ISub e1 e2 | IMul e1 e2 | ICmp _ e1 e2 => has_add e1 \/ has_add e2
  | INeg e | IShl e _ | IShr e _ | ITrunc _ e => has_add e
  end.
(** The value of the expression consists of gates of variables: no operator but shifts that need no zeros. *)
Fixpoint wiring (n : nat) (e : iexp) : Prop :=
  match e with
  | IVar _ => True
  | IShr e _ => wiring n e
  | IShl e k => k = O /\ wiring n e
  | ITrunc k e => k = n /\ wiring n e
  | _ => False
  end.
Definition instr_is (P : iexp -> Prop) (i : sinstr) : Prop := match i with SLet e | SSet _ e => P e | _ => False end.
Definition just_wires (n : nat) (p : list sinstr) : Prop := Forall (fun i => match i with SLet e | SSet _ e => wiring n e | _ => True end) p.
Lemma tri_pos w : 1 <= w -> 0 < w * (w + 1) / 2.
Proof. intros H. apply N.div_str_pos. nia. Qed.
Lemma wiring_or m n e : (1 <= n)%nat -> iwf m n e -> wiring n e \/ 0 < t_k (icost n e) \/ has_add e.
Proof.
  intros Hn. assert (Ht : 0 < t_k (mul_size n)) by (cbn; apply tri_pos; lia).
  induction e; cbn [iwf wiring icost has_add]; intros W; cbn [cadd ctimes cconst cuse t_k czero] in *.
  - by left.
  - right; left. lia. - right; left. lia. - right; left. lia.
  - by right; right.
  - right; left. cbn. lia.
  - right; left. lia.
  - right; left. cbn. lia.
  - destruct W as [Hk W]. destruct (IHe W) as [?|[?|?]]; [|right; left; lia|by right; right]. destruct k; [by left|]. right; left. lia.
  - destruct W as [Hk W]. by apply IHe.
  - destruct W as [Hk W]. destruct (IHe W) as [?|[?|?]]; [|right; left; lia|by right; right]. destruct (decide (k = n)); [by left|]. right; left. lia.
  - right; left. destruct c; cbn; lia.
Qed.
Lemma wires_or n p : (1 <= n)%nat -> forall m, pwf n m p -> just_wires n p \/ 0 < t_k (scost n p) \/ Exists (instr_is has_add) p.
Proof.
  intros Hn. induction p as [|i p IH]; intros m W; [by left; constructor|]. destruct i as [|e|d e|k]; cbn [pwf scost] in *; cbn [cadd ctimes cinput coutput t_k].
  - destruct (IH _ W) as [?|[?|?]]; [left; by constructor|right; left; lia|right; right; by right].
  - destruct W as [We W]. destruct (IH _ W) as [?|[?|?]]; [|right; left; lia|right; right; by right].
    destruct (wiring_or _ _ _ Hn We) as [?|[?|?]]; [left; by constructor|right; left; lia|right; right; by left].
  - destruct W as (_ & We & W). destruct (IH _ W) as [?|[?|?]]; [|right; left; lia|right; right; by right].
    destruct (wiring_or _ _ _ Hn We) as [?|[?|?]]; [left; by constructor|right; left; lia|right; right; by left].
  - destruct W as (_ & W). destruct (IH _ W) as [?|[?|?]]; [left; by constructor|right; left; lia|right; right; by right].
Qed.
Section programs.
Context (L : lib) (st l n : nat) (cfg : int_config) (md : mode) (Hn : (1 <= n)%nat) (Href : ic_ref cfg = l) (HL : forall a, a ∈ int_lib cfg n -> a ∈ L).
Lemma calling_ibuild vars e : Forall (iok n cfg) vars -> iwf (length vars) n e -> has_add e -> calling L st l (ic_add cfg) (ibuild md cfg n vars e).
Proof using Hn Href HL.
  intros HV. assert (Hin : (ic_add cfg, add_size n) ∈ L) by (apply HL; set_solver).
  induction e; cbn [iwf has_add ibuild]; intros W Hadd; try done; try (lazymatch type of W with _ /\ _ => destruct W as [W1 W2] end).
  - eapply calling_right; [by eapply costs_ibuild|intros x Hx]. eapply calling_right; [by eapply costs_ibuild|intros y Hy]. by apply (calling_add _ _ _ n).
  - destruct Hadd as [Ha|Ha].
    + eapply calling_left; [by apply IHe1|by eapply costs_ibuild|intros x Hx]. eapply costs_bind; [by eapply costs_ibuild|intros y Hy]. by eapply costs_int_sub.
    + eapply calling_right; [by eapply costs_ibuild|intros x Hx]. eapply calling_left; [by apply IHe2|by eapply costs_ibuild|intros y Hy]. by eapply costs_int_sub.
  - destruct Hadd as [Ha|Ha].
    + eapply calling_left; [by apply IHe1|by eapply costs_ibuild|intros x Hx]. eapply costs_bind; [by eapply costs_ibuild|intros y Hy]. by eapply costs_int_mul.
    + eapply calling_right; [by eapply costs_ibuild|intros x Hx]. eapply calling_left; [by apply IHe2|by eapply costs_ibuild|intros y Hy]. by eapply costs_int_mul.
  - eapply calling_left; [by apply IHe|by eapply costs_ibuild|intros x Hx]. by eapply costs_int_neg.
  - eapply calling_left; [by apply IHe|by eapply costs_ibuild|intros x Hx]. by eapply costs_shift_left.
  - eapply calling_left; [by apply IHe|by eapply costs_ibuild|intros x Hx]. by eapply costs_shift_right.
  - eapply (calling_left _ _ _ _ _ _ _ (ctimes (n - k) cconst)); [by apply IHe|by eapply costs_ibuild|intros x [Hc Hx]]. rewrite Hc.
    eapply costs_eq; [by eapply costs_from_gate_ids|]. rewrite take_length, Hx. f_equal. lia.
  - destruct Hadd as [Ha|Ha].
    + eapply calling_left; [by apply IHe1|by eapply costs_ibuild|intros x Hx]. eapply costs_bind; [by eapply costs_ibuild|intros y Hy].
      eapply costs_bind; [by eapply costs_ccall|intros g _]. by eapply costs_from_bit.
    + eapply calling_right; [by eapply costs_ibuild|intros x Hx]. eapply calling_left; [by apply IHe2|by eapply costs_ibuild|intros y Hy].
      eapply costs_bind; [by eapply costs_ccall|intros g _]. by eapply costs_from_bit.
Qed.
Lemma calling_sbuild p : Exists (instr_is has_add) p -> forall vars, pwf n (length vars) p -> Forall (iok n cfg) vars -> calling L st l (ic_add cfg) (sbuild md cfg n vars p).
Proof using Hn Href HL.
  assert (Happ : forall vars x, Forall (iok n cfg) vars -> iok n cfg x -> Forall (iok n cfg) (vars ++ [x])) by (intros; apply Forall_app; split; [done|by apply Forall_singleton]).
  induction 1 as [i p Hi|i p Hp IH]; intros vars W HV; destruct i as [|e|d e|k]; cbn [instr_is] in *; try done; cbn [sbuild pwf] in *.
  - destruct W as [We W]. eapply calling_left; [by apply calling_ibuild|by eapply costs_ibuild|intros x Hx]. eapply costs_sbuild; [done|done|done| |by apply Happ].
    by rewrite app_length, Nat.add_1_r.
  - destruct W as (_ & We & W). eapply calling_left; [by apply calling_ibuild|by eapply costs_ibuild|intros x Hx]. eapply costs_sbuild; [done|done|done| |by apply Forall_insert].
    by rewrite insert_length.
  - eapply calling_right; [by eapply costs_new|intros x Hx]. apply IH; [by rewrite app_length, Nat.add_1_r|by apply Happ].
  - destruct W as [We W]. eapply calling_right; [by eapply costs_ibuild|intros x Hx]. apply IH; [by rewrite app_length, Nat.add_1_r|by apply Happ].
  - destruct W as (_ & We & W). eapply calling_right; [by eapply costs_ibuild|intros x Hx]. apply IH; [by rewrite insert_length|by apply Forall_insert].
  - destruct W as (_ & W). eapply calling_right; [apply costs_inert, inert_nth|intros x Hx]. cbn beta in Hx.
    assert (iok n cfg x) by (eapply Forall_lookup_1; [exact HV|exact Hx]). eapply calling_right; [by eapply costs_int_output|intros _ _]. by apply IH.
Qed.
End programs.
Lemma idle_move st0 x s h h' : idle st0 x s h -> (forall c, h_circ h !! s = Some c -> h_circ h' !! s = Some c) -> dead h' s.
Proof. intros [_ (c & gt & E & G)] H. eapply (idle_unused (h_stor h') x). split; [done|]. exists c, gt. split; [by apply H|exact G]. Qed.
Lemma icost_outputs n e : t_o (icost n e) = 0.
Proof. induction e; cbn [icost cadd ctimes cconst cuse czero t_o]; try lia. all: rewrite ?IHe, ?IHe1, ?IHe2; cbn; lia. Qed.
Lemma scost_outputs n p : t_o (scost n p) = N.of_nat (soutputs p * n).
Proof.
  induction p as [|[] p IH]; cbn [scost cadd ctimes t_o]; [done|..]; rewrite IH, ?icost_outputs; unfold soutputs; cbn [List.filter length cinput coutput t_o]; lia.
Qed.
(** What a program over AllocInt builds has a dead gate or a constant, unless it only moves bits from inputs to outputs. *)
Lemma program_dead md h l n p : (1 <= n)%nat -> BuildEval.fresh h l -> pwf n 0 p -> ~ just_wires n p -> forall h', straight_program md l n p h = (Ok tt, h') ->
  dead h' l \/ 0 < t_k (scost n p).
Proof.
  intros Hn Hf Hw Hj h' E. destruct (wires_or n p Hn 0%nat Hw) as [?|[?|Ha]]; [done|by right|left]. destruct (fresh_site _ _ Hf) as (st & Ec & S0).
  unfold straight_program in E. apply bind_Ok in E as (cfg & h1 & E1 & E2).
  destruct (int_config_steps [] st l md n h cfg h1 Hn S0 E1) as (Href & S1 & G1 & h0 & E0 & G0).
  destruct (adder_dead h l n _ _ (fresh_base _ _ Hf) E0) as (c0 & x & s & st0 & i & Ec0 & Ex & Em & Hne & Hi).
  pose proof (gr_old _ _ _ G1 _ _ Ec) as Ec1. pose proof (gr_old _ _ _ G0 _ _ Ec0) as Ec0'. rewrite Ec1 in Ec0'. injection Ec0' as <-. cbn [c_storage circuit_new] in Ex.
  destruct (gr_stor _ _ _ G0 _ Ex) as (x1 & Ex1 & Hsub).
  assert (HL : forall a, a ∈ int_lib cfg n -> a ∈ int_lib cfg n ++ []) by (intros; apply elem_of_app; by left).
  assert (C : costs (int_lib cfg n ++ []) st l (sbuild md cfg n [] p) (scost n p) (fun _ => True)) by (eapply costs_sbuild; [done|done|done|exact Hw|constructor]).
  destruct (C _ _ _ E2 (si_ready _ _ _ _ S1)) as [T _]. destruct (ta_self _ _ _ _ T _ Ec1) as (c' & E' & St & _).
  assert (K : called (ic_add cfg) c').
  { eapply (calling_sbuild _ st l n cfg md Hn Href HL p Ha []); [exact Hw|constructor|exact E2|apply S1| |exact E'].
    intros c2 E2'. rewrite Ec1 in E2'. injection E2' as <-. intros g Hg. apply lookup_empty. }
  destruct K as (g & il & ol & ids & oi & Eg). eapply (dead_callee h' l c' s E').
  - exists g, il, ol, ids, oi, (ic_add cfg), x1. split; [done|]. rewrite St, (ta_stor _ _ _ _ T). split; [done|]. by eapply lookup_weaken.
  - eapply idle_move; [exact Hi|]. intros c2 E2'. apply (ta_old _ _ _ _ T); [done|]. by apply (gr_old _ _ _ G0).
Qed.
Theorem C67_programs md h l n p : (1 <= n)%nat -> BuildEval.fresh h l -> cinv h -> pwf n 0 p -> ~ just_wires n p -> (0 < soutputs p)%nat ->
  exists h' c, straight_program md l n p h = (Ok tt, h') /\ h_circ h' !! l = Some c /\
  (sized c 0 -> forall first vals wog text st md2 h2 l2, first <= input_len c + num_const c -> writes h' first (writer_new l) vals wog text st -> target h2 l2 ->
    md2 = Debug \/ output_len c <= input_len c + num_gate c + 2 * num_const c -> exists p h3, read_fresh md2 l2 text h2 = (Panic p, h3)).
Proof.
  intros Hn Hf HC Hw Hj Ho. destruct (straight_ok md h l n p Hn Hf Hw) as (h' & E & R). destruct (C68_programs md h l n p Hn Hf Hw) as (h2 & E2 & c & Ec & Hc).
  rewrite E in E2. injection E2 as <-. exists h', c. split; [done|]. split; [done|]. intros Hs first vals wog text st md2 h2 l2 Hfi HW HT Hmd.
  destruct (dreach_inv h h' (base_d _ _ (fresh_base _ _ Hf)) HC R) as [D C].
  eapply (C67_unreadable h' l c first vals wog text st md2 h2 l2); try done.
  - destruct (program_dead md h l n p Hn Hf Hw Hj h' E) as [?|Hk]; [by left|right]. rewrite <- Hc in Hk. exact Hk.
  - assert (t_o (counters c) = N.of_nat (soutputs p * n)) as Hl by (rewrite Hc; apply scost_outputs). cbn in Hl. lia.
Qed.
(** A circuit with a dead gate, with what C67_exact and C67_lines say of it; the smallest adder; the sum of two bytes. *)
Definition byte_sum : list sinstr := [SInput; SInput; SLet (IAdd (IVar 0) (IVar 1)); SOut 2].
Example C67_example : (disciplined Debug heap_empty dead_gate /\ dead (run Debug dead_gate) 0) /\
  (base blank1 0 /\ match build_add 0 1 blank1 with (Ok mid, h') => get_module h' 0 mid | _ => Panic PAssert end = Ok 1%nat) /\
  BuildEval.fresh blank1 0 /\ cinv blank1 /\ pwf 8 0 byte_sum /\ ~ just_wires 8 byte_sum /\ (0 < soutputs byte_sum)%nat /\
  scost 8 byte_sum = Cost 45 0 16 8 /\ just_wires 8 [SInput; SLet (IShr (IVar 0) 3); SOut 1].
Proof.
  split. { destruct C26_not_exact as [D _]. split; [exact D|]. eapply (dead_own _ 0 _ 1 (GNot 0)); [vm_compute; reflexivity|vm_compute; reflexivity|done|].
    intros (k & o & Ek & Ht). assert (o = 2) as ->.
    { assert (k = 0) as ->. { apply dec_stable. intros Hk. revert Ek. change (output_map _) with (<[0 := 2]> ∅ : gmap N N). by rewrite lookup_insert_ne. }
      revert Ek. vm_compute. by intros [= <-]. }
    inversion Ht as [g y Hy|g gt a y Eg Ha Ht']; subst.
    - revert Hy. apply (bool_decide_unpack (1 ∉ blk _ 2)). vm_compute. done.
    - assert (gt = GNot 0) as -> by (revert Eg; vm_compute; by intros [= <-]). apply elem_of_list_singleton in Ha as ->.
      inversion Ht' as [g y Hy|g gt a y Eg' Ha Ht'']; subst.
      + revert Hy. apply (bool_decide_unpack (1 ∉ blk _ 0)). vm_compute. done.
      + assert (operands gt = []) as Hop by (revert Eg'; vm_compute; by intros [= <-]). rewrite Hop in Ha. by apply elem_of_nil in Ha. }
  split; [split; [apply fresh_base, fresh_blank1|vm_compute; reflexivity]|]. split; [apply fresh_blank1|]. split; [apply cinv_blank1|].
  split; [cbn; lia|]. split; [intros H; repeat (apply Forall_cons_1 in H as [? H]); done|]. split; [vm_compute; lia|]. split; [vm_compute; reflexivity|].
  repeat constructor.
Qed.
