(** Property C74: how deep the calls of the evaluator and of the writer nest. *)
From Verif Require Export Prop_Eval Prop_Outcomes Prop_Writer.
Open Scope N_scope.
Open Scope list_scope.

(** * Specification *)
(** Working on gate [g] of the circuit at [l] can directly require work on another gate: on an operand, or, when the gate belongs to a module
    call, on an output gate of the called circuit. *)
Inductive needs (h : heap) : nat * N -> nat * N -> Prop :=
| needs_operand l c g gt a : h_circ h !! l = Some c -> gate_map c !! g = Some gt -> a ∈ operands gt -> needs h (l, g) (l, a)
| needs_callee l c g il ol ids oi mid x l' c' k o : h_circ h !! l = Some c -> gate_map c !! g = Some (GModule il ol ids oi mid) ->
    h_stor h !! c_storage c = Some x -> module_map x !! mid = Some l' -> h_circ h !! l' = Some c' -> output_map c' !! k = Some o ->
    needs h (l, g) (l', o).
(** Every chain of such requirements that starts at the gate has at most [n] gates. *)
Definition within (h : heap) (l : nat) (g : N) (n : nat) : Prop := forall k q, nsteps (needs h) k (l, g) q -> (k < n)%nat.
(** Every chain from an output gate of the circuit has at most [n] gates. *)
Definition depth_le (h : heap) (l : nat) (n : nat) : Prop :=
  forall c k o, h_circ h !! l = Some c -> output_map c !! k = Some o -> within h l o n.
(** The number of gates of all circuits. *)
Definition all_gates (h : heap) : nat := sum_list_with (fun c => size (gate_map c)) (h_circ h).

(** * Upper bounds *)
Lemma within_pos h l g n : within h l g n -> (0 < n)%nat.
Proof. intros H. apply (H O (l, g)). constructor. Qed.
Lemma within_step h l g l' g' n : within h l g (S n) -> needs h (l, g) (l', g') -> within h l' g' n.
Proof. intros H N k q Hk. assert (S k < S n)%nat; [|lia]. apply (H (S k) q). by econstructor. Qed.

(** A computation that never runs out of call depth, where [P] holds of the results. *)
Definition deep {S A} (m : ST S A) : Prop := forall s, fst (m s) <> NoFuel.
Lemma deep_bind {S A B} (m : ST S A) (k : A -> ST S B) : deep m -> (forall a, deep (k a)) -> deep (st_bind m k).
Proof. intros Hm Hk s. specialize (Hm s). unfold st_bind. destruct (m s) as [[a|e|p|] s']; cbn in *; try done. apply Hk. Qed.
Lemma deep_ret {S A} (a : A) : deep (S := S) (st_ret a). Proof. done. Qed.
Lemma deep_lift {S A} (r : res A) : r <> NoFuel -> deep (S := S) (st_lift r). Proof. by intros H s. Qed.
Lemma deep_mapM {S A B} (f : A -> ST S B) xs : (forall x, x ∈ xs -> deep (f x)) -> deep (st_mapM f xs).
Proof.
  induction xs as [|x xs IH]; intros H; cbn [st_mapM]; [done|]. apply deep_bind; [apply H; left|]. intros y.
  apply deep_bind; [|intros; apply deep_ret]. apply IH. intros z Hz. apply H. by right.
Qed.
Lemma deep_iterM {S A} (f : A -> ST S unit) xs : (forall x, x ∈ xs -> deep (f x)) -> deep (st_iterM f xs).
Proof. induction xs as [|x xs IH]; intros H; cbn [st_iterM]; [done|]. apply deep_bind; [apply H; left|]. intros _. apply IH. intros z Hz. apply H. by right. Qed.
Lemma deep_foldM {S A B} (f : B -> A -> ST S B) xs : (forall b x, x ∈ xs -> deep (f b x)) -> forall b, deep (st_foldM f b xs).
Proof. induction xs as [|x xs IH]; intros H b; cbn [st_foldM]; [done|]. apply deep_bind; [apply H; left|]. intros a. apply IH. intros c z Hz. apply H. by right. Qed.

Lemma keys_size {A} (m : gmap N A) w k : (forall i, i < k -> is_Some (m !! (w + i))) -> (N.to_nat k <= size m)%nat.
Proof.
  intros H. assert (list_to_set (map (fun i => w + i) (nrange k)) ⊆ dom m) as Hs.
  { intros x. rewrite elem_of_list_to_set, elem_of_list_fmap, elem_of_dom. intros (i & -> & Hi). apply H. by apply elem_of_nrange. }
  apply subseteq_size in Hs. rewrite size_dom, size_list_to_set in Hs.
  - by rewrite map_length, nrange_length in Hs.
  - apply NoDup_fmap_2; [intros x y; lia|]. unfold nrange. apply NoDup_fmap_2; [intros x y; lia|]. apply NoDup_ListNoDup, seq_NoDup.
Qed.

(** The evaluator. *)
Lemma load_keys c k : forall w inputs s, fst (e_load c k w inputs s) = NoFuel -> forall i, i < N.of_nat k -> is_Some (input_map c !! (w + i)).
Proof.
  induction k as [|k IH]; intros w [|b inputs] s; cbn [e_load]; try done; try (intros; lia).
  destruct (input_map c !! w) as [[g|]|] eqn:E; try done; intros H i Hi.
  - destruct (decide (i = 0)) as [->|]; [rewrite N.add_0_r; eauto|]. replace (w + i) with (w + 1 + (i - 1)) by lia. eapply IH; [exact H|lia].
  - destruct (decide (i = 0)) as [->|]; [rewrite N.add_0_r; eauto|]. replace (w + i) with (w + 1 + (i - 1)) by lia. eapply IH; [exact H|lia].
Qed.
Lemma deep_load c k w inputs : (size (input_map c) < k)%nat -> deep (e_load c k w inputs).
Proof. intros Hk s H. pose proof (keys_size (input_map c) w (N.of_nat k) (load_keys c k w inputs s H)). lia. Qed.
Lemma deep_need eg id : deep (eg id) -> deep (e_need eg id).
Proof. intros H s. unfold e_need. destruct (evaled s !! id); [done|apply H]. Qed.
Lemma deep_get id : deep (e_get id). Proof. intros s. unfold e_get. by destruct (evaled s !! id). Qed.
Lemma deep_decr md id : deep (e_decr md id).
Proof. intros s. unfold e_decr. destruct (ndep s !! id) as [n|]; [|done]. destruct (usize_sub md n 1) as [n'| | |]; try done. by destruct (n' =? 0). Qed.
Lemma deep_nth {S A} (v : list A) i : deep (S := S) (st_nth v i). Proof. intros s. unfold st_nth. by destruct (v !! i). Qed.
Lemma deep_outputs c first bits k : forall i, deep (e_insert_outputs c first bits i k).
Proof. induction k as [|k IH]; intros i; cbn [e_insert_outputs]; [done|]. apply deep_bind; [apply deep_nth|]. intros b. apply deep_bind; [done|]. intros _. apply IH. Qed.
Lemma deep_output h eg l inputs : (forall c k o, h_circ h !! l = Some c -> output_map c !! k = Some o -> deep (eg l o)) ->
  eval_output_with h eg l inputs <> NoFuel.
Proof.
  intros H. unfold eval_output_with. destruct (h_circ h !! l) as [c|] eqn:E; [|done].
  destruct (negb _); [done|]. apply (deep_bind (S := estate)); [apply deep_load; lia|]. intros _. apply deep_mapM. intros w _. unfold e_single_output.
  destruct (negb _); [done|]. destruct (output_len c <=? w); [done|]. destruct (output_map c !! w) as [o|] eqn:Eo; [|done].
  intros s. destruct (evaled s !! o); [done|]. apply deep_bind; [by eapply H|]. intros _. apply deep_get.
Qed.
Lemma deep_binary md c eg f g a b : deep (eg a) -> deep (eg b) -> deep (e_binary md c eg f g a b).
Proof.
  intros Ha Hb. unfold e_binary. apply deep_bind; [by apply deep_need|]. intros _. apply deep_bind; [by apply deep_need|]. intros _.
  apply deep_bind; [apply deep_get|]. intros x. apply deep_bind; [apply deep_get|]. intros y.
  apply deep_bind; [apply deep_decr|]. intros _. apply deep_bind; [apply deep_decr|]. done.
Qed.
Lemma usize_sub_deep md a b : usize_sub md a b <> NoFuel.
Proof. unfold usize_sub. destruct (b <=? a); [done|]. by destruct md. Qed.
Lemma deep_gate md h fuel : forall l g, within h l g fuel -> deep (eval_gate md h fuel l g).
Proof.
  induction fuel as [|fuel IH]; intros l g Hw; [pose proof (within_pos _ _ _ _ Hw); lia|]. cbn [eval_gate].
  destruct (h_circ h !! l) as [c|] eqn:E; [|done]. destruct (gate_map c !! g) as [gt|] eqn:G; [|done].
  assert (Ho : forall a, a ∈ operands gt -> deep (eval_gate md h fuel l a)).
  { intros a Ha. apply IH. eapply within_step; [exact Hw|]. by econstructor. }
  destruct gt as [w|b|a|a b|a b|a b|il ol ids oi mid]; try done; cbn [operands] in Ho.
  - apply deep_bind; [apply deep_need, Ho; left|]. intros _. apply deep_bind; [apply deep_get|]. intros x. apply deep_bind; [apply deep_decr|]. done.
  - apply deep_binary; apply Ho; set_solver.
  - apply deep_binary; apply Ho; set_solver.
  - apply deep_binary; apply Ho; set_solver.
  - apply deep_bind. { apply deep_mapM. intros a Ha. apply deep_bind; [apply deep_need, Ho, Ha|]. intros _. apply deep_get. }
    intros bits. destruct (h_stor h !! c_storage c) as [x|] eqn:Ex; [|done]. destruct (module_map x !! mid) as [l'|] eqn:Em; [|done].
    apply deep_bind. { apply deep_lift, deep_output. intros c' k o E' Eo. apply IH. eapply within_step; [exact Hw|]. by econstructor. }
    intros outs. apply deep_bind; [apply deep_iterM; intros; apply deep_decr|]. intros _.
    apply deep_bind; [apply deep_lift, usize_sub_deep|]. intros f. apply deep_outputs.
Qed.
(** Whatever the circuits are, the calls of one evaluation nest no deeper than the longest chain of gates from an output. *)
Theorem C74_eval md h fuel l inputs : depth_le h l fuel -> eval_output md h fuel l inputs <> NoFuel.
Proof. intros H. apply deep_output. intros c k o E Eo. apply deep_gate. by eapply H. Qed.

(** The writer: it stays, or comes back, to the circuit it was called with. *)
Definition deepw {A} (l : nat) (m : WM A) (Q : A -> Prop) : Prop := forall s, w_c s = l ->
  match m s with (Ok a, s') => w_c s' = l /\ Q a | (NoFuel, _) => False | _ => True end.
Lemma dw_bind {A B} l (m : WM A) (k : A -> WM B) Q R : deepw l m Q -> (forall a, Q a -> deepw l (k a) R) -> deepw l (st_bind m k) R.
Proof. intros Hm Hk s Hs. specialize (Hm s Hs). unfold st_bind. destruct (m s) as [[a|e|p|] s']; try done. destruct Hm as [Hs' Ha]. by apply Hk. Qed.
Lemma dw_ret {A} l (a : A) (Q : A -> Prop) : Q a -> deepw l (st_ret a) Q. Proof. by intros H s Hs. Qed.
Lemma dw_weaken {A} l (m : WM A) (Q R : A -> Prop) : (forall a, Q a -> R a) -> deepw l m Q -> deepw l m R.
Proof. intros HQ Hm s Hs. specialize (Hm s Hs). destruct (m s) as [[a|e|p|] s']; try done. destruct Hm. auto. Qed.
Lemma dw_foldM {A B} l (f : B -> A -> WM B) (Q : B -> Prop) xs : (forall b x, Q b -> x ∈ xs -> deepw l (f b x) Q) ->
  forall b, Q b -> deepw l (st_foldM f b xs) Q.
Proof.
  induction xs as [|x xs IH]; intros H b Hb; cbn [st_foldM]; [by apply dw_ret|]. eapply dw_bind; [apply H; [done|left]|].
  intros a Ha. apply IH; [|done]. intros c z Hc Hz. apply H; [done|by right].
Qed.
Lemma dw_mapM {A B} l (f : A -> WM B) xs : (forall x, x ∈ xs -> deepw l (f x) (fun _ => True)) -> deepw l (st_mapM f xs) (fun _ => True).
Proof.
  induction xs as [|x xs IH]; intros H; cbn [st_mapM]; [by apply dw_ret|]. eapply dw_bind; [apply H; left|]. intros y _.
  eapply dw_bind; [|intros; by apply dw_ret]. apply IH. intros z Hz. apply H. by right.
Qed.
Lemma dw_lift {A} l (r : res A) (Q : A -> Prop) : r <> NoFuel -> (forall a, r = Ok a -> Q a) -> deepw l (st_lift r) Q.
Proof. intros H HQ s Hs. unfold st_lift. destruct r; try done. auto. Qed.
Lemma dw_circ h l : deepw l (w_circ h) (fun c => h_circ h !! l = Some c).
Proof. intros s <-. unfold w_circ. by destruct (h_circ h !! w_c s). Qed.
Lemma dw_gate h l id c : h_circ h !! l = Some c -> deepw l (w_gate h id) (fun g => gate_map c !! id = Some g).
Proof.
  intros E. eapply dw_bind; [apply dw_circ|]. intros c' E'. rewrite E in E'. injection E' as <-. unfold c_get_gate.
  apply dw_lift; destruct (gate_map c !! id); try done. by intros a [= <-].
Qed.
Lemma dw_key {A} l (m : gmap N A) k : deepw l (w_key m k) (fun _ => True).
Proof. intros s Hs. unfold w_key. by destruct (m !! k). Qed.
Lemma dw_get l : deepw l w_get (fun s => w_c s = l). Proof. by intros s Hs. Qed.
Lemma dw_update l id ws g wog : deepw l (update_wire id ws g wog) (fun _ => True).
Proof. intros s Hs. by destruct ws. Qed.

Section writer.
Context (h : heap) (f : nat) (single : N -> gate -> wmap -> WM wmap).
Context (Hsingle : forall l c id g wog, h_circ h !! l = Some c -> gate_map c !! id = Some g -> within h l id f -> deepw l (single id g wog) (fun _ => True)).
Lemma dw_ensure l c id wog : h_circ h !! l = Some c -> within h l id f -> deepw l (ensure h single wog id) (fun _ => True).
Proof using Hsingle.
  intros E Hw. unfold ensure. destruct (wog !! id); [by apply dw_ret|]. eapply dw_bind; [by apply dw_gate|]. intros g G. by eapply Hsingle.
Qed.
Lemma dw_ensure_all l c ids wog : h_circ h !! l = Some c -> (forall a, a ∈ ids -> within h l a f) -> deepw l (ensure_all h single wog ids) (fun _ => True).
Proof using Hsingle. intros E Hw. apply dw_foldM; [|done]. intros b x _ Hx. eapply dw_ensure; [done|auto]. Qed.
Lemma dw_ops l c g gt wog : h_circ h !! l = Some c -> gate_map c !! g = Some gt -> within h l g (S f) ->
  deepw l (ensure_all h single wog (operands gt)) (fun _ => True).
Proof using Hsingle. intros E G Hw. eapply dw_ensure_all; [done|]. intros a Ha. eapply within_step; [exact Hw|]. by econstructor. Qed.
Lemma dw_const l c wog id : h_circ h !! l = Some c -> deepw l (write_const h wog id) (fun _ => True).
Proof using. intros E. eapply dw_bind; [by apply dw_gate|]. intros g _. destruct g; by intros s Hs. Qed.
Lemma within_up l g n m : (n <= m)%nat -> within h l g n -> within h l g m.
Proof using. intros Hm H k q Hk. specialize (H k q Hk). lia. Qed.
Lemma dw_pass1 l c acc i : h_circ h !! l = Some c -> (forall k o, output_map c !! k = Some o -> within h l o f) ->
  (forall p, p ∈ acc.2 -> within h l p.1 f /\ gate_map c !! p.1 = Some p.2) ->
  deepw l (write_pass1 h single acc i) (fun r => forall p, p ∈ r.2 -> within h l p.1 f /\ gate_map c !! p.1 = Some p.2).
Proof using Hsingle.
  intros E Ho Ha. unfold write_pass1. eapply dw_bind; [apply dw_circ|]. intros c' E'. rewrite E in E'. injection E' as <-.
  eapply (dw_bind _ _ _ (fun o => output_map c !! i = Some o)).
  { unfold c_output_to_gate_id. apply dw_lift; destruct (output_map c !! i); try done. by intros a [= <-]. }
  intros o Eo. eapply (dw_bind _ _ _ (fun g => gate_map c !! o = Some g)).
  { unfold c_get_gate. apply dw_lift; destruct (gate_map c !! o); try done. by intros a [= <-]. }
  intros g G. assert (Hr : forall p, p ∈ acc.2 ++ [(o, g)] -> within h l p.1 f /\ gate_map c !! p.1 = Some p.2).
  { intros p [Hp|Hp%elem_of_list_singleton]%elem_of_app; [auto|]. subst p. eauto. }
  pose proof (dw_ops l c o g acc.1 E G (within_up _ _ _ _ (Nat.le_succ_diag_r f) (Ho _ _ Eo))) as Hops.
  destruct g; try (by apply dw_ret); (eapply dw_bind; [exact Hops|]; intros w _; by apply dw_ret).
Qed.
Lemma dw_pass2 l c wog p : h_circ h !! l = Some c -> within h l p.1 f -> gate_map c !! p.1 = Some p.2 -> deepw l (write_pass2 single wog p) (fun _ => True).
Proof using Hsingle. intros E Hw G. unfold write_pass2. destruct (wog !! p.1); [by apply dw_ret|]. by eapply Hsingle. Qed.
Lemma dw_all l wog : depth_le h l f -> deepw l (write_all h single wog) (fun _ => True).
Proof using Hsingle.
  intros Hd. unfold write_all. eapply dw_bind; [apply dw_circ|]. intros c E.
  eapply dw_bind. { apply (dw_foldM _ _ (fun _ => True)); [|done]. intros b x _ _. eapply dw_const; exact E. }
  intros w1 _. eapply dw_bind.
  { apply (dw_foldM _ _ (fun r => forall p, p ∈ r.2 -> within h l p.1 f /\ gate_map c !! p.1 = Some p.2)).
    - intros b x Hb _. apply dw_pass1; [done|intros k o Eo; exact (Hd c k o E Eo)|done].
    - intros p Hp. by apply elem_of_nil in Hp. }
  intros [w2 outs] Ho. cbn [fst snd] in Ho. apply dw_foldM; [|done]. intros b p _ Hp. destruct (Ho p Hp) as [Hp1 Hp2]. exact (dw_pass2 l c b p E Hp1 Hp2).
Qed.
Lemma args_keys m wog k : forall ids w new s, fst (bind_args k m wog ids w new s) = NoFuel -> forall i, i < N.of_nat k -> is_Some (input_map m !! (w + i)).
Proof using.
  induction k as [|k IH]; intros [|id ids] w new s; cbn [bind_args]; try done; try (intros; lia).
  unfold c_input_to_gate_id. unfold st_bind at 1, st_lift. destruct (input_map m !! w) as [[g|]|] eqn:E; try done; intros H i Hi.
  - unfold st_bind, w_key in H. destruct (wog !! id); [|done].
    destruct (decide (i = 0)) as [->|]; [rewrite N.add_0_r; eauto|]. replace (w + i) with (w + 1 + (i - 1)) by lia. eapply IH; [exact H|lia].
  - destruct (decide (i = 0)) as [->|]; [rewrite N.add_0_r; eauto|]. replace (w + i) with (w + 1 + (i - 1)) by lia. eapply IH; [exact H|lia].
Qed.
Lemma args_state k m wog : forall ids w new s, snd (bind_args k m wog ids w new s) = s.
Proof using.
  induction k as [|k IH]; intros [|id ids] w new s; cbn [bind_args]; try done.
  unfold st_bind at 1, st_lift. destruct (c_input_to_gate_id m w) as [[g|]| | |]; try done.
  unfold st_bind, w_key. destruct (wog !! id); [apply IH|done].
Qed.
Lemma dw_args l m wog k ids w new : (size (input_map m) < k)%nat -> deepw l (bind_args k m wog ids w new) (fun _ => True).
Proof using.
  intros Hk s Hs. pose proof (args_state k m wog ids w new s) as Es. pose proof (args_keys m wog k ids w new s) as Hn.
  destruct (bind_args k m wog ids w new s) as [[a|e|p|] s'] eqn:Eb; try done; cbn [fst snd] in *.
  - by subst.
  - pose proof (keys_size (input_map m) w (N.of_nat k) (Hn eq_refl)). lia.
Qed.
Lemma dw_body l c id g wog : h_circ h !! l = Some c -> gate_map c !! id = Some g -> within h l id (S f) -> deepw l (single_body h single id g wog) (fun _ => True).
Proof using Hsingle.
  intros E G Hw. pose proof (dw_ops l c id g wog E G Hw) as Hops.
  destruct g as [w|b|a|a b|a b|a b|il ol ids oi mid]; cbn [single_body]; [apply dw_update|by apply dw_ret| | | | |].
  - eapply dw_bind; [exact Hops|]. intros w1 _. eapply dw_bind; [apply dw_key|]. intros x _. apply dw_update.
  - eapply dw_bind; [exact Hops|]. intros w1 _. eapply dw_bind; [apply dw_key|]. intros x _. eapply dw_bind; [apply dw_key|]. intros y _. apply dw_update.
  - eapply dw_bind; [exact Hops|]. intros w1 _. eapply dw_bind; [apply dw_key|]. intros x _. eapply dw_bind; [apply dw_key|]. intros y _. apply dw_update.
  - eapply dw_bind; [exact Hops|]. intros w1 _. eapply dw_bind; [apply dw_key|]. intros x _. eapply dw_bind; [apply dw_key|]. intros y _. apply dw_update.
  - eapply dw_bind; [exact Hops|]. intros w1 _. eapply dw_bind; [apply dw_circ|]. intros c' E'. rewrite E in E'. injection E' as <-.
    eapply (dw_bind _ _ _ (fun l' => exists x, h_stor h !! c_storage c = Some x /\ module_map x !! mid = Some l')).
    { destruct (h_stor h !! c_storage c) as [x|] eqn:Ex; [|by intros s Hs]. destruct (module_map x !! mid) as [l'|] eqn:Em; [|by intros s Hs].
      apply dw_ret. eauto. }
    intros l' (x & Ex & Em). eapply (dw_bind _ _ _ (fun m => h_circ h !! l' = Some m)).
    { destruct (h_circ h !! l') as [m|] eqn:El; [|by intros s Hs]. by apply dw_ret. }
    intros m El. eapply dw_bind; [apply dw_args; lia|]. intros new _.
    eapply dw_bind; [apply dw_get|]. intros s0 Hs0. intros s Hs.
    assert (Hd : depth_le h l' f).
    { intros c' k o E' Eo. eapply within_step; [exact Hw|]. econstructor; [exact E|exact G|exact Ex|exact Em|exact E'|exact Eo]. }
    unfold st_bind at 1. cbn [w_set_c]. unfold st_bind at 1.
    pose proof (dw_all l' new Hd (WState l' (w_num s) (w_const s) (w_out s) (w_cow s)) eq_refl) as Ha.
    destruct (write_all h single new _) as [[new'|e|p|] s1]; try done. unfold st_bind at 1. cbn [w_set_c].
    refine (dw_foldM l (copy_out m new' (id - oi)) (fun _ => True) _ _ w1 Logic.I (WState (w_c s0) (w_num s1) (w_const s1) (w_out s1) (w_cow s1)) Hs0).
    intros b i _ _. unfold copy_out. eapply (dw_bind _ _ _ (fun _ => True)).
    { apply dw_lift; [|done]. unfold c_output_to_gate_id. by destruct (output_map m !! i). }
    intros o _. eapply dw_bind; [apply dw_key|]. intros y _. by apply dw_ret.
Qed.
End writer.
Lemma dw_single h fuel : forall l c id g wog, h_circ h !! l = Some c -> gate_map c !! id = Some g -> within h l id fuel ->
  deepw l (write_single h fuel id g wog) (fun _ => True).
Proof.
  induction fuel as [|fuel IH]; intros l c id g wog E G Hw; [pose proof (within_pos _ _ _ _ Hw); lia|].
  cbn [write_single]. by eapply (dw_body h fuel).
Qed.
Lemma within_input h l c g w n : h_circ h !! l = Some c -> gate_map c !! g = Some (GInput w) -> (0 < n)%nat -> within h l g n.
Proof.
  intros E G Hn k q Hk. destruct k as [|k]; [done|]. exfalso. inversion Hk as [|? ? y ? N Hs]; subst.
  inversion N as [l0 c0 g0 gt a E0 G0 Ha|]; simplify_eq. by apply elem_of_nil in Ha.
Qed.
Lemma dw_inputs h fuel l c : hinv h -> h_circ h !! l = Some c -> (0 < fuel)%nat -> forall n k w wog, w + N.of_nat k = input_len c -> (k <= n)%nat ->
  deepw l (write_inputs h n (write_single h fuel) k w wog) (fun _ => True).
Proof.
  intros Hi E Hf. induction n as [|n IH]; intros [|k] w wog Hw Hk; cbn [write_inputs]; try (by apply dw_ret); [lia|].
  eapply dw_bind; [apply dw_circ|]. intros c' E'. rewrite E in E'. injection E' as <-.
  destruct (wf_inputs c (hi_circ h Hi l c E) w) as (g & Ei & G); [lia|].
  eapply (dw_bind _ _ _ (fun o => o = Some g)). { unfold c_input_to_gate_id. rewrite Ei. apply dw_lift; [done|]. by intros a [= <-]. }
  intros o ->. eapply (dw_bind _ _ _ (fun gt => gt = GInput w)). { unfold c_get_gate. rewrite G. apply dw_lift; [done|]. by intros a [= <-]. }
  intros gt ->. eapply dw_bind. { apply (dw_single h fuel l c g (GInput w) wog E G). by eapply within_input. }
  intros w' _. apply IH; lia.
Qed.
(** The writer's calls nest no deeper either, whatever the state of the writer and the caller's map. *)
Theorem C74_write md ops fuel st first given : (0 < fuel)%nat -> depth_le (run md ops) (w_c st) fuel ->
  fst (write (run md ops) fuel first given st) <> NoFuel.
Proof.
  pose proof (run_hinv md ops) as Hi. set (h := run md ops) in *. clearbody h. intros Hf Hd. set (l := w_c st) in *.
  assert (deepw l (write h fuel first given) (fun _ => True)) as H.
  { unfold write. eapply dw_bind; [apply dw_circ|]. intros c E.
    eapply (dw_bind _ _ _ (fun _ => True)); [by intros s Hs|]. intros _ _.
    eapply (dw_bind _ _ _ (fun _ => True)); [destruct (first <=? _)%N; by intros s Hs|]. intros _ _.
    do 4 (eapply (dw_bind _ _ _ (fun _ => True)); [by intros s Hs|]; intros _ _).
    eapply dw_bind; [eapply dw_inputs; [done|exact E|done| |]; lia|]. intros w1 _.
    eapply (dw_bind _ _ _ (fun _ => True)); [by intros s Hs|]. intros _ _. eapply dw_bind; [apply dw_get|]. intros s1 _.
    eapply (dw_bind _ _ _ (fun _ => True)); [by intros s Hs|]. intros _ _.
    eapply dw_bind; [apply (dw_all h fuel); [intros; by eapply dw_single|exact Hd]|]. intros w2 _.
    eapply dw_bind; [apply dw_get|]. intros s2 _. eapply dw_bind; [apply dw_mapM; intros; apply dw_key|]. intros v _. by apply dw_ret. }
  specialize (H st eq_refl). destruct (write h fuel first given st) as [[]]; try done.
Qed.

(** * Disciplined circuits *)
Definition nodes (h : heap) : list (nat * N) :=
  concat (imap (fun l c => map (fun p => (l, p.1)) (map_to_list (gate_map c))) (h_circ h)).
Lemma imap_length_sum {A} (f : A -> nat) (g : nat -> A -> list (nat * N)) xs : (forall l x, length (g l x) = f x) ->
  length (concat (imap g xs)) = sum_list_with f xs.
Proof.
  revert g. induction xs as [|x xs IH]; intros g Hg; [done|]. cbn [imap concat sum_list_with]. rewrite app_length, Hg. f_equal. apply IH. intros l y. apply Hg.
Qed.
Lemma nodes_length h : length (nodes h) = all_gates h.
Proof. apply imap_length_sum. intros l c. by rewrite map_length. Qed.
Lemma elem_of_nodes h l c g : h_circ h !! l = Some c -> is_Some (gate_map c !! g) -> (l, g) ∈ nodes h.
Proof.
  intros E [gt G]. unfold nodes. apply elem_of_list_In, in_concat. eexists. split.
  - apply elem_of_list_In, elem_of_lookup_imap. eauto.
  - apply elem_of_list_In, elem_of_list_fmap. exists (g, gt). split; [done|]. by apply elem_of_map_to_list.
Qed.
(** A chain goes down in this order: callees first, then smaller gate ids. *)
Definition below (rank : nat -> nat) (p q : nat * N) : Prop := (rank p.1 < rank q.1)%nat \/ p.1 = q.1 /\ p.2 < q.2.
Lemma needs_below h rank p q : dinv h -> (forall l c l', h_circ h !! l = Some c -> calls h c l' -> (rank l' < rank l)%nat) ->
  needs h p q -> below rank q p.
Proof.
  intros D Hr N. inversion N as [l c g gt a E G Ha|l c g il ol ids oi mid x l' c' k o E G Ex Em E' Eo]; subst.
  - right. split; [done|]. cbn. pose proof (d_ops h c (di_disc h D l c E) g gt a G Ha). lia.
  - left. cbn. eapply Hr; [exact E|]. exists g, il, ol, ids, oi, mid, x. done.
Qed.
Definition real (h : heap) (p : nat * N) : Prop := exists c, h_circ h !! p.1 = Some c /\ is_Some (gate_map c !! p.2).
Lemma needs_real h p q : dinv h -> needs h p q -> real h q.
Proof.
  intros D N. inversion N as [l c g gt a E G Ha|l c g il ol ids oi mid x l' c' k o E G Ex Em E' Eo]; subst.
  - exists c. split; [done|]. cbn. pose proof (hi_circ h (di_inv h D) l c E) as W. apply (wf_gates c W).
    pose proof (d_ops h c (di_disc h D l c E) g gt a G Ha). pose proof (gm_lt c g gt W G). lia.
  - exists c'. split; [done|]. cbn. pose proof (hi_circ h (di_inv h D) l' c' E') as W. destruct (decide (k < output_len c')) as [Hk|Hk].
    + destruct (wf_outputs c' W k Hk) as (g' & Eg & Gg). congruence.
    + rewrite (wf_outputs_none c' W k) in Eo by lia. done.
Qed.
Lemma chain_path h rank k : dinv h -> (forall l c l', h_circ h !! l = Some c -> calls h c l' -> (rank l' < rank l)%nat) -> forall p q, real h p ->
  nsteps (needs h) k p q -> exists ps, length ps = k /\ NoDup (p :: ps) /\ (forall x, x ∈ p :: ps -> real h x) /\ (forall x, x ∈ ps -> below rank x p).
Proof.
  intros D Hr. induction k as [|k IH]; intros p q Hp Hk; inversion Hk as [|? ? y ? N Hs]; subst.
  - exists []. split; [done|]. split; [apply NoDup_singleton|]. split; [by intros x ->%elem_of_list_singleton|]. intros x Hx. by apply elem_of_nil in Hx.
  - destruct (IH y q (needs_real _ _ _ D N) Hs) as (ps & Hl & Hnd & Hre & Hb).
    pose proof (needs_below h rank p y D Hr N) as Hy.
    assert (forall x, x ∈ y :: ps -> below rank x p) as Hall.
    { intros x [->|Hx]%elem_of_cons; [done|]. specialize (Hb x Hx). unfold below in *. destruct Hb as [?|[? ?]], Hy as [?|[? ?]].
      - left. lia. - left. congruence. - left. congruence. - right. split; [congruence|lia]. }
    exists (y :: ps). split; [cbn; lia|]. split.
    + constructor; [|done]. intros Hx. destruct (Hall _ Hx) as [?|[? ?]]; lia.
    + split; [|done]. intros x [->|Hx]%elem_of_cons; [done|]. by apply Hre.
Qed.
Lemma within_dinv h l g : dinv h -> real h (l, g) -> within h l g (all_gates h).
Proof.
  intros D Hp k q Hk. destruct (di_rank h D) as [rank Hr]. destruct (chain_path h rank k D Hr _ _ Hp Hk) as (ps & <- & Hnd & Hre & _).
  assert (length ((l, g) :: ps) <= length (nodes h))%nat as Hle.
  { apply submseteq_length, NoDup_submseteq; [done|]. intros [l' g'] Hx. destruct (Hre _ Hx) as (c & E & G). by eapply elem_of_nodes. }
  rewrite nodes_length in Hle. cbn in Hle. lia.
Qed.
Lemma depth_dinv h l : dinv h -> depth_le h l (all_gates h).
Proof.
  intros D c k o E Eo. apply within_dinv; [done|]. exists c. split; [done|]. cbn. pose proof (hi_circ h (di_inv h D) l c E) as W.
  destruct (decide (k < output_len c)) as [Hk|Hk].
  - destruct (wf_outputs c W k Hk) as (g' & Eg & Gg). congruence.
  - rewrite (wf_outputs_none c W k) in Eo by lia. done.
Qed.
(** On circuits built without reusing ids that do not exist and without changing circuits that are called, both end: their calls never nest
    deeper than the number of gates there are. *)
Theorem C74_terminates md md' ops l inputs fuel st first given : disciplined md heap_empty ops -> (all_gates (run md ops) < fuel)%nat ->
  eval_output md' (run md ops) fuel l inputs <> NoFuel /\ fst (write (run md ops) fuel first given st) <> NoFuel.
Proof.
  intros D Hf. pose proof (dinv_run md ops D) as Di.
  assert (forall l, depth_le (run md ops) l fuel) as Hd.
  { intros l' c k o E Eo. eapply within_up; [|by eapply (depth_dinv _ l' Di)]. lia. }
  split; [by apply C74_eval|]. apply C74_write; [lia|done].
Qed.

(** * More depth changes nothing *)
Lemma le_mapM {S A B} (f f' : A -> ST S B) xs : (forall a, le_st (f a) (f' a)) -> le_st (st_mapM f xs) (st_mapM f' xs).
Proof. intros H. induction xs as [|x xs IH]; cbn [st_mapM]; [apply le_refl|]. apply le_bind; [apply H|]. intros y. apply le_bind; [exact IH|]. intros; apply le_refl. Qed.
Lemma le_need eg eg' id : le_st (eg id) (eg' id) -> le_st (e_need eg id) (e_need eg' id).
Proof. intros H s. unfold e_need. destruct (evaled s !! id); [by intros|apply H]. Qed.
Lemma le_output h eg eg' l inputs : (forall o, le_st (eg l o) (eg' l o)) -> eval_output_with h eg l inputs <> NoFuel ->
  eval_output_with h eg' l inputs = eval_output_with h eg l inputs.
Proof.
  intros H. unfold eval_output_with. destruct (h_circ h !! l) as [c|]; [|done]. destruct (negb _); [done|].
  set (m := (_ ;; st_mapM (e_single_output c (eg l) inputs) _)). set (m' := (_ ;; st_mapM (e_single_output c (eg' l) inputs) _)).
  assert (le_st m m') as Hm.
  { apply le_bind; [apply le_refl|]. intros _. apply le_mapM. intros w. unfold e_single_output. destruct (negb _); [apply le_refl|].
    destruct (output_len c <=? w); [apply le_refl|]. destruct (output_map c !! w) as [o|]; [|apply le_refl].
    intros s. destruct (evaled s !! o); [by intros|]. apply (le_bind (eg l o) (eg' l o)); [apply H|]. intros; apply le_refl. }
  intros Hn. destruct (m (EState ∅ ∅)) as [r s'] eqn:E. by rewrite (Hm _ _ _ E Hn).
Qed.
Lemma le_lift {S A} (r r' : res A) : (r <> NoFuel -> r' = r) -> le_st (S := S) (st_lift r) (st_lift r').
Proof. intros H s q s' [= <- <-] Hn. unfold st_lift. by rewrite H. Qed.
Lemma le_binary md c eg eg' f g a b : le_st (eg a) (eg' a) -> le_st (eg b) (eg' b) -> le_st (e_binary md c eg f g a b) (e_binary md c eg' f g a b).
Proof.
  intros Ha Hb. unfold e_binary. apply le_bind; [by apply le_need|]. intros _. apply le_bind; [by apply le_need|]. intros _. apply le_refl.
Qed.
Lemma le_gate md h n : forall m l g, (n <= m)%nat -> le_st (eval_gate md h n l g) (eval_gate md h m l g).
Proof.
  induction n as [|n IH]; intros m l g Hm.
  - intros s r s' H Hn. injection H as <- <-. done.
  - destruct m as [|m]; [lia|]. cbn [eval_gate]. destruct (h_circ h !! l) as [c|]; [|apply le_refl].
    assert (forall l a, le_st (eval_gate md h n l a) (eval_gate md h m l a)) as IH' by (intros; apply IH; lia).
    destruct (gate_map c !! g) as [[w|b|a|a b|a b|a b|il ol ids oi mid]|]; try apply le_refl; try (apply le_binary; apply IH').
    + apply le_bind; [apply le_need, IH'|]. intros; apply le_refl.
    + apply le_bind. { apply le_mapM. intros a. apply le_bind; [apply le_need, IH'|]. intros; apply le_refl. }
      intros bits. destruct (h_stor h !! c_storage c) as [x|]; [|apply le_refl]. destruct (module_map x !! mid) as [l'|]; [|apply le_refl].
      apply le_bind; [|intros; apply le_refl]. apply le_lift. intros Hn. apply le_output; [intros; apply IH'|done].
Qed.
Lemma eval_mono md h n m l inputs : (n <= m)%nat -> eval_output md h n l inputs <> NoFuel -> eval_output md h m l inputs = eval_output md h n l inputs.
Proof. intros Hm. apply le_output. intros o. by apply le_gate. Qed.
(** So what holds of these calls at some sufficient depth holds as soon as the depth exceeds the number of gates. *)
Theorem C74_enough md md' ops l inputs fuel fuel' st first given : disciplined md heap_empty ops ->
  (all_gates (run md ops) < fuel)%nat -> (fuel <= fuel')%nat ->
  eval_output md' (run md ops) fuel' l inputs = eval_output md' (run md ops) fuel l inputs /\
  write (run md ops) fuel' first given st = write (run md ops) fuel first given st.
Proof.
  intros D Hf Hf'. destruct (C74_terminates md md' ops l inputs fuel st first given D Hf) as [He Hw]. split; [by apply eval_mono|].
  destruct (write (run md ops) fuel first given st) as [r s'] eqn:E. by apply (write_mono _ fuel fuel' first given Hf' st r s').
Qed.
(** For example the completeness of evaluation (C13), with an explicit depth. *)
Theorem C74_complete md md' ops l fuel inputs : disciplined md heap_empty ops -> evaluable (run md ops) l ->
  (all_gates (run md ops) < fuel)%nat -> inputs_of (run md ops) l = Ok (N.of_nat (length inputs)) ->
  exists outs, eval_output md' (run md ops) fuel l inputs = Ok outs /\ outputs_of (run md ops) l = Ok (N.of_nat (length outs)) /\
    forall k b, outs !! k = Some b -> outv (run md ops) l (env_of inputs) (N.of_nat k) b.
Proof.
  intros D Ev Hf Hl. destruct (C13_complete md md' ops l D Ev) as [F HF]. destruct (HF (fuel + F)%nat inputs ltac:(lia) Hl) as (outs & E & H).
  destruct (C74_enough md md' ops l inputs fuel (fuel + F)%nat (writer_new l) 0 ∅ D Hf ltac:(lia)) as [E' _]. exists outs. split; [congruence|done].
Qed.

(** * Lower bound *)
(** The gate the evaluator turns to first when it works on a gate of a circuit of which only the inputs are known: the first operand that is
    no input; when there is none and the gate belongs to a module call, the first output gate of the called circuit. *)
Definition input_gate (c : circuit) (g : N) : Prop := exists w, gate_map c !! g = Some (GInput w).
Inductive first_need (h : heap) : nat * N -> nat * N -> Prop :=
| first_operand l c g gt pre a post : h_circ h !! l = Some c -> gate_map c !! g = Some gt -> operands gt = pre ++ a :: post ->
    (forall z, z ∈ pre -> input_gate c z) -> ~ input_gate c a -> first_need h (l, g) (l, a)
| first_callee l c g il ol ids oi mid x l' c' o : h_circ h !! l = Some c -> gate_map c !! g = Some (GModule il ol ids oi mid) ->
    (forall z, z ∈ ids -> input_gate c z) ->
    h_stor h !! c_storage c = Some x -> module_map x !! mid = Some l' -> h_circ h !! l' = Some c' -> input_len c' = N.of_nat (length ids) ->
    output_map c' !! 0 = Some o -> ~ input_gate c' o -> first_need h (l, g) (l', o).
Definition loaded (c : circuit) (s : estate) : Prop := forall g, is_Some (evaled s !! g) <-> input_gate c g.
Lemma loaded_load h l c k inputs : hinv h -> h_circ h !! l = Some c -> N.of_nat (length inputs) = input_len c -> (length inputs <= k)%nat ->
  exists s, e_load c k 0 inputs (EState ∅ ∅) = (Ok tt, s) /\ loaded c s.
Proof.
  intros Hi El Hl Hk. destruct (e_load_ok h l c Hi El k 0 inputs (EState ∅ ∅)) as (s & E & H1 & H2); [lia|done|].
  exists s. split; [done|]. intros g. split.
  - intros Hg. destruct (gate_map c !! g) as [[w| | | | | |]|] eqn:G; [by exists w| | | | | | |]; exfalso;
      (destruct (H2 g) as [Hn _]; [intros; congruence|]; rewrite Hn in Hg; cbn in Hg; rewrite lookup_empty in Hg; by destruct Hg).
  - intros [w G]. by apply (H1 g w G); lia.
Qed.
Lemma get_loaded c s g : loaded c s -> input_gate c g -> exists b, evaled s !! g = Some b.
Proof. intros L Hg. by apply L in Hg as [b Hb]; eauto. Qed.
Lemma none_loaded c s g : loaded c s -> ~ input_gate c g -> evaled s !! g = None.
Proof. intros L Hg. destruct (evaled s !! g) eqn:E; [|done]. exfalso. apply Hg, L. eauto. Qed.
Definition stuck {A} (m : ST estate A) (s : estate) : Prop := fst (m s) = NoFuel.
Lemma stuck_bind {A B} (m : ST estate A) (k : A -> ST estate B) s : stuck m s -> stuck (st_bind m k) s.
Proof. unfold stuck, st_bind. by destruct (m s) as [[]]. Qed.
Lemma stuck_after {A B} (m : ST estate A) (k : A -> ST estate B) s a : m s = (Ok a, s) -> stuck (k a) s -> stuck (st_bind m k) s.
Proof. unfold stuck, st_bind. by intros ->. Qed.
Lemma need_loaded c eg s g : loaded c s -> input_gate c g -> e_need eg g s = (Ok tt, s).
Proof. intros L Hg. destruct (get_loaded c s g L Hg) as [b Hb]. unfold e_need. by rewrite Hb. Qed.
Lemma need_stuck c (eg : N -> ST estate unit) s g : loaded c s -> ~ input_gate c g -> stuck (eg g) s -> stuck (e_need eg g) s.
Proof. intros L Hg. unfold stuck, e_need. by rewrite (none_loaded c s g L Hg). Qed.
Lemma args_loaded c eg s ids : loaded c s -> (forall z, z ∈ ids -> input_gate c z) ->
  exists bits, st_mapM (fun id => e_need eg id ;; e_get id) ids s = (Ok bits, s) /\ length bits = length ids.
Proof.
  intros L. induction ids as [|id ids IH]; intros H; [by exists []|]. destruct IH as (bits & E & Hl); [set_solver|].
  destruct (get_loaded c s id L) as [b Hb]; [set_solver|]. exists (b :: bits). split; [|cbn; lia]. cbn [st_mapM].
  rewrite (st_bind_ok _ _ s b s). - by rewrite (st_bind_ok _ _ s bits s). - unfold st_bind, e_need, e_get. by rewrite !Hb.
Qed.
Lemma args_stuck c eg s pre a post : loaded c s -> (forall z, z ∈ pre -> input_gate c z) -> ~ input_gate c a -> stuck (eg a) s ->
  stuck (st_mapM (fun id => e_need eg id ;; e_get id) (pre ++ a :: post)) s.
Proof.
  intros L Hp Ha Hs. induction pre as [|z pre IH]; cbn [app st_mapM].
  - by eapply stuck_bind, stuck_bind, need_stuck.
  - destruct (get_loaded c s z L) as [b Hb]; [set_solver|]. eapply (stuck_after _ _ _ b); [unfold st_bind, e_need, e_get; by rewrite !Hb|].
    apply stuck_bind, IH. set_solver.
Qed.
Lemma output_stuck h eg l c o inputs : hinv h -> h_circ h !! l = Some c -> N.of_nat (length inputs) = input_len c -> output_map c !! 0 = Some o ->
  ~ input_gate c o -> (forall s, loaded c s -> stuck (eg l o) s) -> eval_output_with h eg l inputs = NoFuel.
Proof.
  intros Hi E Hl Eo Ho Hs. pose proof (hi_circ h Hi l c E) as W. unfold eval_output_with. rewrite E, Hl, N.eqb_refl. cbn [negb].
  destruct (loaded_load h l c (length inputs + size (input_map c) + 1) inputs Hi E Hl ltac:(lia)) as (s & Es & L).
  unfold st_bind at 1. rewrite Es.
  assert (0 < output_len c) as Hpos. { destruct (decide (0 < output_len c)); [done|]. rewrite (wf_outputs_none c W 0) in Eo by lia. done. }
  replace (output_len c) with (N.succ (N.pred (output_len c))) by lia. unfold nrange. rewrite N2Nat.inj_succ. cbn [seq map st_mapM].
  change (N.of_nat 0) with 0. set (rest := st_mapM _ _). change (stuck (y <- e_single_output c (eg l) inputs 0 ;; ys <- rest ;; st_ret (y :: ys)) s).
  apply stuck_bind. unfold e_single_output. rewrite Hl, N.eqb_refl. cbn [negb]. destruct (N.leb_spec (output_len c) 0); [lia|]. rewrite Eo.
  unfold stuck. rewrite (none_loaded c s o L Ho). by apply stuck_bind, Hs.
Qed.
Lemma gate_stuck md h k : hinv h -> forall fuel l g q c s, nsteps (first_need h) k (l, g) q -> (fuel <= k)%nat -> h_circ h !! l = Some c -> loaded c s ->
  stuck (eval_gate md h fuel l g) s.
Proof.
  intros Hi. induction k as [|k IH]; intros fuel l g q c s Hk Hf E L.
  - destruct fuel; [done|lia].
  - destruct fuel as [|fuel]; [done|]. inversion Hk as [|? ? y ? N Hs]; subst. cbn [eval_gate]. rewrite E.
    inversion N as [l1 c1 g1 gt pre a post E1 G Ho Hpre Ha|l1 c1 g1 il ol ids oi mid x l' c' o E1 G Hids Ex Em E' Hl Eo Hno]; simplify_eq.
    + rewrite G. assert (stuck (eval_gate md h fuel l a) s) as Hst by (eapply IH; [exact Hs|lia|exact E|exact L]).
      assert (forall f p r, [p; r] = pre ++ a :: post -> stuck (e_binary md c (eval_gate md h fuel l) f g p r) s) as Hbin.
      { intros f p r Hb. unfold e_binary. destruct pre as [|z [|z' pre]]; cbn in Hb.
        - injection Hb as -> <-. by eapply stuck_bind, need_stuck.
        - injection Hb as -> -> _. eapply (stuck_after _ _ _ tt); [eapply need_loaded; [exact L|apply Hpre; left]|]. by eapply stuck_bind, need_stuck.
        - injection Hb as _ _ Hb. by destruct pre. }
      destruct gt as [w|b|p|p r|p r|p r|il ol ids oi mid]; cbn [operands] in Ho; try (by destruct pre); try (by apply Hbin).
      * destruct pre as [|z pre]; [|destruct pre; discriminate]. injection Ho as -> _. by eapply stuck_bind, need_stuck.
      * rewrite Ho. eapply stuck_bind. by eapply args_stuck.
    + rewrite G. destruct (args_loaded c (eval_gate md h fuel l) s ids L Hids) as (bits & Eb & Hlb).
      eapply stuck_after; [exact Eb|]. rewrite Ex, Em. eapply stuck_bind. unfold stuck, st_lift. cbn.
      eapply output_stuck; [exact Hi|exact E'|lia|exact Eo|done|]. intros s' L'. eapply IH; [exact Hs|lia|exact E'|exact L'].
Qed.
(** An evaluation does nest that deep on the way to the first output: with less stack it cannot finish, whatever the inputs. *)
Theorem C74_needed md md' ops l inputs k q fuel o : inputs_of (run md ops) l = Ok (N.of_nat (length inputs)) ->
  output_gate (run md ops) l 0 = Ok o -> (forall w, get_gate (run md ops) l o <> Ok (GInput w)) ->
  nsteps (first_need (run md ops)) k (l, o) q -> (fuel <= k)%nat ->
  eval_output md' (run md ops) fuel l inputs = NoFuel.
Proof.
  pose proof (run_hinv md ops) as Hi. set (h := run md ops) in *. clearbody h. intros Hl Ho Hni Hk Hf.
  unfold inputs_of, on in Hl. unfold output_gate, on, c_output_to_gate_id in Ho. unfold get_gate, on, c_get_gate in Hni.
  destruct (h_circ h !! l) as [c|] eqn:E; [|done]. injection Hl as Hl. destruct (output_map c !! 0) as [o'|] eqn:Eo; [|done]. injection Ho as ->.
  eapply output_stuck; [exact Hi|exact E|done|exact Eo| |].
  - intros [w G]. apply (Hni w). by rewrite G.
  - intros s L. by eapply gate_stuck.
Qed.

(** The same for the writer, which starts knowing the inputs and the constants, and looks at the operands of the output gates first. *)
Definition source (c : circuit) (g : N) : Prop := (exists w, gate_map c !! g = Some (GInput w)) \/ exists b, gate_map c !! g = Some (GConst b).
Inductive first_of (c : circuit) (g : N) : N -> Prop :=
| first_of_intro gt pre a post : gate_map c !! g = Some gt -> operands gt = pre ++ a :: post -> (forall z, z ∈ pre -> source c z) -> ~ source c a ->
    first_of c g a.
Inductive first_written (h : heap) : nat * N -> nat * N -> Prop :=
| written_operand l c g a : h_circ h !! l = Some c -> first_of c g a -> first_written h (l, g) (l, a)
| written_callee l c g il ol ids oi mid x l' c' o a : h_circ h !! l = Some c -> gate_map c !! g = Some (GModule il ol ids oi mid) ->
    (forall z, z ∈ ids -> source c z) ->
    h_stor h !! c_storage c = Some x -> module_map x !! mid = Some l' -> h_circ h !! l' = Some c' -> input_len c' = N.of_nat (length ids) ->
    output_map c' !! 0 = Some o -> first_of c' o a -> first_written h (l, g) (l', a).
Definition known (c : circuit) (wog : wmap) : Prop := forall g, is_Some (wog !! g) <-> source c g.
Definition wstuck {A} (m : WM A) (s : wstate) : Prop := fst (m s) = NoFuel.
Lemma wstuck_bind {A B} (m : WM A) (k : A -> WM B) s : wstuck m s -> wstuck (st_bind m k) s.
Proof. unfold wstuck, st_bind. by destruct (m s) as [[]]. Qed.
Lemma wstuck_after {A B} (m : WM A) (k : A -> WM B) s a s' : m s = (Ok a, s') -> wstuck (k a) s' -> wstuck (st_bind m k) s.
Proof. unfold wstuck, st_bind. by intros ->. Qed.
Lemma ensure_stuck h c single l s pre a post gt wog : h_circ h !! l = Some c -> w_c s = l -> known c wog -> (forall z, z ∈ pre -> source c z) -> ~ source c a ->
  gate_map c !! a = Some gt -> wstuck (single a gt wog) s -> wstuck (ensure_all h single wog (pre ++ a :: post)) s.
Proof.
  intros E Hs K Hp Ha G Hst. unfold ensure_all. induction pre as [|z pre IH]; cbn [app st_foldM].
  - apply wstuck_bind. unfold ensure. destruct (wog !! a) eqn:Ew; [destruct Ha; apply K; eauto|].
    eapply (wstuck_after _ _ _ gt s); [|done]. unfold w_gate, w_circ, st_bind, st_lift, c_get_gate. by rewrite Hs, E, G.
  - eapply (wstuck_after _ _ _ wog s); [|apply IH; set_solver]. unfold ensure. destruct (proj2 (K z)) as [x Hx]; [apply Hp; left|]. by rewrite Hx.
Qed.
Lemma ensure_known h c single wog ids s : known c wog -> (forall z, z ∈ ids -> source c z) -> ensure_all h single wog ids s = (Ok wog, s).
Proof.
  intros K. unfold ensure_all. induction ids as [|z ids IH]; intros H; [done|]. cbn [st_foldM]. rewrite (st_bind_ok _ _ s wog s); [apply IH; set_solver|].
  unfold ensure. destruct (proj2 (K z)) as [x Hx]; [set_solver|]. by rewrite Hx.
Qed.
Lemma args_known m wog : cwf m -> forall k ids w new s, (forall z, z ∈ ids -> is_Some (wog !! z)) -> w + N.of_nat (length ids) = input_len m -> (length ids <= k)%nat ->
  exists new', bind_args k m wog ids w new s = (Ok new', s) /\
    forall g, is_Some (new' !! g) <-> is_Some (new !! g) \/ exists w', w <= w' /\ gate_map m !! g = Some (GInput w').
Proof.
  intros W k. induction k as [|k IH]; intros [|id ids] w new s Hz Hl Hk; cbn [bind_args length] in *; try lia.
  1, 2: exists new; split; [done|]; intros g; split; [auto|]; intros [?|(w' & Hw' & G)]; [done|]; apply (wf_input_gates m W) in G;
    rewrite (wf_inputs_none m W) in G by lia; done.
  destruct (wf_inputs m W w) as (g0 & Ei & Eg); [lia|]. destruct (Hz id) as [x Hx]; [left|].
  destruct (IH ids (w + 1) (<[g0 := x]> new) s) as (new' & En & Hn); [set_solver|lia|lia|]. exists new'. split.
  { unfold st_bind at 1, st_lift, c_input_to_gate_id. rewrite Ei. unfold st_bind, w_key. by rewrite Hx. }
  intros g. rewrite Hn, lookup_insert_is_Some. split.
  - intros [[-> |[_ ?]]|(w' & ? & ?)]; [right; exists w; split; [lia|done]|by left|right; exists w'; split; [lia|done]].
  - intros [Hg|(w' & Hw' & G)]; [left; destruct (decide (g0 = g)); auto|]. destruct (decide (w' = w)) as [-> |]; [|right; exists w'; split; [lia|done]].
    left. left. apply (wf_input_gates m W) in G. congruence.
Qed.
Lemma consts_known h l c ids wog s : h_circ h !! l = Some c -> w_c s = l -> (forall z, z ∈ ids -> exists b, gate_map c !! z = Some (GConst b)) ->
  exists wog' s', st_foldM (write_const h) wog ids s = (Ok wog', s') /\ w_c s' = l /\ forall g, is_Some (wog' !! g) <-> is_Some (wog !! g) \/ g ∈ ids.
Proof.
  intros E. revert wog s. induction ids as [|id ids IH]; intros wog s Hs Hz.
  - exists wog, s. split; [done|]. split; [done|]. intros g. rewrite elem_of_nil. tauto.
  - destruct (Hz id) as [b G]; [left|]. cbn [st_foldM].
    destruct (IH (<[id := w_const s]> wog) (WState (w_c s) (w_num s) (w_const s + 1) (w_out s) (<[w_const s := b]> (w_cow s)))) as (wog' & s' & Ew & Hs' & Hw);
      [done|set_solver|].
    exists wog', s'. split; [|split; [done|]].
    + unfold st_bind at 1. assert (write_const h wog id s = (Ok (<[id := w_const s]> wog), WState (w_c s) (w_num s) (w_const s + 1) (w_out s) (<[w_const s := b]> (w_cow s)))) as ->; [|exact Ew].
      unfold write_const, w_gate, w_circ, st_bind, st_lift, c_get_gate. subst l. rewrite E, G. reflexivity.
    + intros g. rewrite Hw, lookup_insert_is_Some, elem_of_cons. destruct (decide (id = g)); naive_solver.
Qed.
Lemma all_stuck h single l c o a gt wog s : hinv h -> h_circ h !! l = Some c -> w_c s = l -> output_map c !! 0 = Some o -> first_of c o a ->
  (forall g, is_Some (wog !! g) <-> exists w, gate_map c !! g = Some (GInput w)) -> gate_map c !! a = Some gt ->
  (forall wog' s', known c wog' -> w_c s' = l -> wstuck (single a gt wog') s') -> wstuck (write_all h single wog) s.
Proof.
  intros Hi E Hs Eo Fo Hwog G Hst. pose proof (hi_circ h Hi l c E) as W. unfold write_all.
  eapply (wstuck_after _ _ _ c s); [unfold w_circ; by rewrite Hs, E|].
  assert (forall z, z ∈ c_get_const_gates c <-> exists b, gate_map c !! z = Some (GConst b)) as Hcg.
  { intros z. change (c_get_const_gates c) with (const_gates c). rewrite (wf_consts c W). rewrite elem_of_list_In, filter_In, <- elem_of_list_In, elem_of_nrange. unfold const_at. split.
    - intros [_ Hz]. destruct (gate_map c !! z) as [[]|]; try done. eauto.
    - intros [b Gz]. rewrite Gz. split; [by eapply gm_lt|done]. }
  destruct (consts_known h l c (c_get_const_gates c) wog s E Hs) as (wog1 & s1 & Ec & Hs1 & Hw1); [intros z; apply Hcg|].
  eapply wstuck_after; [exact Ec|]. assert (known c wog1) as K. { intros g. rewrite Hw1, Hwog, Hcg. done. }
  assert (0 < output_len c) as Hpos. { destruct (decide (0 < output_len c)); [done|]. rewrite (wf_outputs_none c W 0) in Eo by lia. done. }
  replace (output_len c) with (N.succ (N.pred (output_len c))) by lia. unfold nrange. rewrite N2Nat.inj_succ. cbn [seq map st_foldM].
  change (N.of_nat 0) with 0. apply wstuck_bind, wstuck_bind. unfold write_pass1.
  eapply (wstuck_after _ _ _ c s1); [unfold w_circ; by rewrite Hs1, E|].
  eapply (wstuck_after _ _ _ o s1); [unfold st_lift, c_output_to_gate_id; by rewrite Eo|].
  destruct Fo as [gt' pre a post G' Ho Hpre Ha]. eapply (wstuck_after _ _ _ gt' s1); [unfold st_lift, c_get_gate; by rewrite G'|].
  assert (wstuck (ensure_all h single wog1 (operands gt')) s1) as Hen.
  { rewrite Ho. eapply (ensure_stuck h c single l); [exact E|done|done|done|done|exact G|]. by apply Hst. }
  destruct gt'; cbn [operands] in Ho; try (by destruct pre); (apply wstuck_bind; exact Hen).
Qed.
(** A gate that is turned to exists. *)
Lemma single_stuck h k : hinv h -> forall fuel l g q c gt wog s, nsteps (first_written h) k (l, g) q -> real h q -> (fuel <= k)%nat -> h_circ h !! l = Some c ->
  gate_map c !! g = Some gt -> known c wog -> w_c s = l -> wstuck (write_single h fuel g gt wog) s.
Proof.
  intros Hi. induction k as [|k IH]; intros fuel l g q c gt wog s Hk Hq Hf E G K Hs.
  - destruct fuel; [done|lia].
  - destruct fuel as [|fuel]; [done|]. inversion Hk as [|? ? y ? N Hn]; subst. cbn [write_single].
    assert (forall l' g', y = (l', g') -> exists c' gt', h_circ h !! l' = Some c' /\ gate_map c' !! g' = Some gt') as Hy.
    { intros l' g' ->. destruct k as [|k'].
      - inversion Hn; subst. destruct Hq as (c' & ? & [gt' ?]). eauto.
      - inversion Hn as [|? ? y' ? N' Hn']; subst. inversion N'; simplify_eq; [|eauto].
        match goal with H : first_of _ _ _ |- _ => destruct H end. eauto. }
    inversion N as [l1 c1 g1 a E1 Fo|l1 c1 g1 il ol ids oi mid x l' c' o a E1 G1 Hids Ex Em E' Hl Eo Fo]; simplify_eq.
    + destruct (Hy _ _ eq_refl) as (c' & gt' & E' & G'). rewrite E in E'. injection E' as <-.
      destruct Fo as [gt0 pre a post G0 Ho Hpre Ha]. rewrite G in G0. injection G0 as <-.
      assert (wstuck (ensure_all h (write_single h fuel) wog (operands gt)) s) as Hen.
      { rewrite Ho. eapply (ensure_stuck h c _ (w_c s)); [exact E|done|done|done|done|exact G'|]. eapply IH; [exact Hn|done|lia|exact E|done|done|done]. }
      destruct gt; cbn [operands] in Ho; try (by destruct pre); cbn [single_body]; (apply wstuck_bind; exact Hen).
    + destruct (Hy _ _ eq_refl) as (c2 & gt' & E2 & G'). rewrite E' in E2. injection E2 as <-. cbn [single_body].
      eapply (wstuck_after _ _ _ wog s); [by eapply ensure_known|]. eapply (wstuck_after _ _ _ c s); [unfold w_circ; by rewrite E|].
      rewrite Ex, Em. eapply (wstuck_after _ _ _ l' s); [done|]. rewrite E'. eapply (wstuck_after _ _ _ c' s); [done|].
      pose proof (hi_circ h Hi l' c' E') as W'.
      destruct (args_known c' wog W' (length ids + size (input_map c') + 1) ids 0 ∅ s) as (new & En & Hnew); [intros z Hz; by apply K, Hids|lia|lia|].
      eapply wstuck_after; [exact En|]. eapply (wstuck_after _ _ _ s s); [done|]. eapply wstuck_after; [reflexivity|]. apply wstuck_bind.
      eapply all_stuck; [exact Hi|exact E'|done|exact Eo|exact Fo| |exact G'|].
      * intros g0. rewrite Hnew, lookup_empty. split; [intros [[? ?]|(w & _ & ?)]; [done|eauto]|]. intros [w Hw]. right. exists w. split; [lia|done].
      * intros wog' s' K' Hs'. eapply IH; [exact Hn|done|lia|exact E'|done|done|done].
Qed.
Lemma inputs_known h fuel l c : hinv h -> h_circ h !! l = Some c -> forall n k w wog s, w_c s = l -> w + N.of_nat k = input_len c -> (k <= n)%nat ->
  exists wog' s', write_inputs h n (write_single h (S fuel)) k w wog s = (Ok wog', s') /\ w_c s' = l /\
    forall g, is_Some (wog' !! g) <-> is_Some (wog !! g) \/ exists w', w <= w' /\ gate_map c !! g = Some (GInput w').
Proof.
  intros Hi E. pose proof (hi_circ h Hi l c E) as W. induction n as [|n IH]; intros [|k] w wog s Hs Hw Hk; try lia.
  1, 2: exists wog, s; split; [done|]; split; [done|]; intros g; split; [auto|]; intros [?|(w' & Hw' & G)]; [done|]; apply (wf_input_gates c W) in G;
    rewrite (wf_inputs_none c W) in G by lia; done.
  destruct (wf_inputs c W w) as (g0 & Ei & G); [lia|]. cbn [write_inputs].
  destruct (IH k (w + 1) (<[g0 := w_num s]> wog) (WState (w_c s) (w_num s + 1) (w_const s) (w_out s) (w_cow s))) as (wog' & s' & Ew & Hs' & Hn); [done|lia|lia|].
  exists wog', s'. split; [|split; [done|]].
  - rewrite (st_bind_ok _ _ s c s) by (unfold w_circ; by rewrite Hs, E). rewrite (st_bind_ok _ _ s (Some g0) s) by (unfold st_lift, c_input_to_gate_id; by rewrite Ei).
    rewrite (st_bind_ok _ _ s (GInput w) s) by (unfold st_lift, c_get_gate; by rewrite G). erewrite st_bind_ok; [exact Ew|reflexivity].
  - intros g. rewrite Hn, lookup_insert_is_Some. split.
    + intros [[-> |[_ ?]]|(w' & ? & ?)]; [right; exists w; split; [lia|done]|by left|right; exists w'; split; [lia|done]].
    + intros [Hg|(w' & Hw' & G')]; [left; destruct (decide (g0 = g)); auto|]. destruct (decide (w' = w)) as [-> |]; [|right; exists w'; split; [lia|done]].
      left. left. apply (wf_input_gates c W) in G'. congruence.
Qed.
(** Writing does nest that deep too, on the way to the operands of the first output. *)
Theorem C74_write_needed md ops st c first k a q fuel o : let h := run md ops in h_circ h !! w_c st = Some c ->
  first <= input_len c + num_const c -> output_map c !! 0 = Some o -> first_of c o a ->
  nsteps (first_written h) k (w_c st, a) q -> real h q -> (0 < fuel <= k)%nat ->
  fst (write h fuel first ∅ st) = NoFuel.
Proof.
  pose proof (run_hinv md ops) as Hi. intros h. fold h in Hi. clearbody h. intros E Hfirst Eo Fo Hk Hq Hf.
  assert (exists gt, gate_map c !! a = Some gt) as [gt Ga].
  { destruct k as [|k]; [lia|]. inversion Hk as [|? ? y ? N Hn]; subst. inversion N; simplify_eq; [|eauto].
    match goal with H : first_of _ a _ |- _ => destruct H end. eauto. }
  destruct fuel as [|fuel]; [lia|]. change (wstuck (write h (S fuel) first ∅) st). unfold write.
  eapply (wstuck_after _ _ _ c st); [unfold w_circ; by rewrite E|].
  eapply wstuck_after; [reflexivity|]. cbn zeta. rewrite (proj2 (N.leb_le _ _) Hfirst).
  do 5 (eapply wstuck_after; [reflexivity|]). cbn [w_c w_out].
  match goal with |- wstuck _ ?s => destruct (inputs_known h fuel (w_c st) c Hi E (N.to_nat (input_len c) + size (input_map c) + 1) (N.to_nat (input_len c)) 0 ∅ s) as (wog & s1 & Ew & Hs1 & Hw); [done|lia|lia|] end.
  eapply wstuck_after; [exact Ew|]. do 3 (eapply wstuck_after; [reflexivity|]). apply wstuck_bind.
  eapply all_stuck; [exact Hi|exact E|done|exact Eo|exact Fo| |exact Ga|].
  - intros g. rewrite Hw, lookup_empty. split; [intros [[? ?]|(w & _ & ?)]; [done|eauto]|]. intros [w Gw]. right. exists w. split; [lia|done].
  - intros wog' s' K Hs'. eapply single_stuck; [exact Hi|exact Hk|exact Hq|lia|exact E|exact Ga|exact K|exact Hs'].
Qed.

(** * Endless recursion *)
Lemma nsteps_loop {A} (R : A -> A -> Prop) b p n : nsteps R (S b) p p -> nsteps R (n * S b) p p.
Proof. intros H. induction n as [|n IH]; [constructor|]. cbn [Nat.mul]. eapply nsteps_trans; [exact H|exact IH]. Qed.
(** A circuit whose first output leads back to a gate on the way cannot be evaluated with any stack. The public functions can build one,
    since operands need not exist (C06) and a circuit can be changed after it was called. *)
Theorem C74_endless md md' ops l inputs o a b p fuel : inputs_of (run md ops) l = Ok (N.of_nat (length inputs)) ->
  output_gate (run md ops) l 0 = Ok o -> (forall w, get_gate (run md ops) l o <> Ok (GInput w)) ->
  nsteps (first_need (run md ops)) a (l, o) p -> nsteps (first_need (run md ops)) (S b) p p ->
  eval_output md' (run md ops) fuel l inputs = NoFuel.
Proof.
  intros Hl Ho Hni Ha Hb. eapply C74_needed; [exact Hl|exact Ho|exact Hni|eapply nsteps_trans; [exact Ha|exact (nsteps_loop _ b p fuel Hb)]|]. nia.
Qed.
(** The steps of [first_need] in terms of the public functions. *)
Lemma first_operand_api h l g gt pre a post : get_gate h l g = Ok gt -> operands gt = pre ++ a :: post ->
  (forall z, z ∈ pre -> exists w, get_gate h l z = Ok (GInput w)) -> (forall w, get_gate h l a <> Ok (GInput w)) -> first_need h (l, g) (l, a).
Proof.
  intros (c & E & G)%get_gate_ok Ho Hpre Ha. eapply first_operand; [exact E|exact G|exact Ho| |].
  - intros z Hz. destruct (Hpre z Hz) as [w (c' & E' & G')%get_gate_ok]. exists w. congruence.
  - intros [w Hw]. apply (Ha w), get_gate_ok. eauto.
Qed.
Lemma first_callee_api h l g il ol ids oi mid l' o : get_gate h l g = Ok (GModule il ol ids oi mid) ->
  (forall z, z ∈ ids -> exists w, get_gate h l z = Ok (GInput w)) -> get_module h l mid = Ok l' -> inputs_of h l' = Ok (N.of_nat (length ids)) ->
  output_gate h l' 0 = Ok o -> (forall w, get_gate h l' o <> Ok (GInput w)) -> first_need h (l, g) (l', o).
Proof.
  intros (c & E & G)%get_gate_ok Hids (c0 & x & E0 & Ex & Em)%get_module_ok Hl Ho Hni. rewrite E in E0. injection E0 as <-.
  unfold inputs_of, on in Hl. unfold output_gate, on, c_output_to_gate_id in Ho. destruct (h_circ h !! l') as [c'|] eqn:E'; [|done]. injection Hl as Hl.
  destruct (output_map c' !! 0) as [o'|] eqn:Eo; [|done]. injection Ho as ->.
  eapply first_callee; [exact E|exact G| |exact Ex|exact Em|exact E'|exact Hl|exact Eo|].
  - intros z Hz. destruct (Hids z Hz) as [w (c2 & E2 & G2)%get_gate_ok]. exists w. congruence.
  - intros [w Hw]. apply (Hni w), get_gate_ok. eauto.
Qed.
(** A gate that is its own operand, and two circuits that call each other. *)
Definition self_loop : list op := [OpNewStorage; OpNewCircuit 0; OpInput 0; OpNot 0 1; OpOutput 0 1].
Definition ping_pong : list op := [OpNewStorage; OpNewCircuit 0; OpNewCircuit 0; OpRegister 0 0; OpRegister 0 1;
  OpInput 0; OpNot 0 2; OpOutput 0 1; OpInput 1; OpModule 1 0 [0]; OpOutput 1 1; OpModule 0 1 [0]].
Example C74_endless_examples md md' fuel x :
  eval_output md' (run md self_loop) fuel 0 [x] = NoFuel /\ eval_output md' (run md ping_pong) fuel 0 [x] = NoFuel.
Proof.
  split.
  - apply (C74_endless md md' self_loop 0 [x] 1 0 0 (0%nat, 1));
      [destruct md; vm_compute; reflexivity|destruct md; vm_compute; reflexivity|intros w; destruct md; vm_compute; discriminate|constructor|].
    apply nsteps_once. apply (first_operand_api _ _ _ (GNot 1) [] 1 []);
      [destruct md; vm_compute; reflexivity|reflexivity|intros z Hz; by apply elem_of_nil in Hz|intros w; destruct md; vm_compute; discriminate].
  - apply (C74_endless md md' ping_pong 0 [x] 1 0 2 (0%nat, 1));
      [destruct md; vm_compute; reflexivity|destruct md; vm_compute; reflexivity|intros w; destruct md; vm_compute; discriminate|constructor|].
    apply (nsteps_l _ _ _ (0%nat, 2)).
    { apply (first_operand_api _ _ _ (GNot 2) [] 2 []);
        [destruct md; vm_compute; reflexivity|reflexivity|intros z Hz; by apply elem_of_nil in Hz|intros w; destruct md; vm_compute; discriminate]. }
    apply (nsteps_l _ _ _ (1%nat, 1)).
    { apply (first_callee_api _ _ _ 1 1 [0] 0 1);
        [destruct md; vm_compute; reflexivity| |destruct md; vm_compute; reflexivity|destruct md; vm_compute; reflexivity|destruct md; vm_compute; reflexivity|intros w; destruct md; vm_compute; discriminate].
      intros z ->%elem_of_list_singleton. exists 0. destruct md; vm_compute; reflexivity. }
    apply nsteps_once. apply (first_callee_api _ _ _ 1 1 [0] 0 0);
        [destruct md; vm_compute; reflexivity| |destruct md; vm_compute; reflexivity|destruct md; vm_compute; reflexivity|destruct md; vm_compute; reflexivity|intros w; destruct md; vm_compute; discriminate].
      intros z ->%elem_of_list_singleton. exists 0. destruct md; vm_compute; reflexivity.
Qed.

(** * Chains of negations *)
Definition chain (n : nat) : list op := [OpNewStorage; OpNewCircuit 0; OpInput 0] ++ map (fun i => OpNot 0 (N.of_nat i)) (seq 0 n).
Lemma chain_S n : chain (S n) = chain n ++ [OpNot 0 (N.of_nat n)].
Proof. unfold chain. by rewrite seq_S, map_app, app_assoc. Qed.
Lemma chain_run md n : exists c, h_circ (run md (chain n)) = [c] /\ gate_index c = N.of_nat (S n) /\ input_len c = 1 /\ output_len c = 0 /\ num_const c = 0 /\
  gate_map c !! 0 = Some (GInput 0) /\ forall i, i < N.of_nat n -> gate_map c !! (i + 1) = Some (GNot i).
Proof.
  induction n as [|n (c & E & Hg & Hi & Ho & Hc & G0 & G)].
  - destruct md; (eexists; split; [reflexivity|]; repeat (split; [reflexivity|]); intros; lia).
  - rewrite chain_S, run_snoc. set (h := run md (chain n)) in *. assert (h_circ h !! 0%nat = Some c) as E0 by by rewrite E.
    destruct (r_not_ok h 0 c E0 (N.of_nat n)) as (c' & Er & P).
    unfold step. cbn [run_op]. unfold as_ret, st_bind. rewrite Er. cbn [snd]. exists c'. split; [unfold upd; cbn [h_circ]; by rewrite E|].
    split; [rewrite (p_gi _ _ _ P); lia|]. split; [rewrite (p_il _ _ _ P); cbn; lia|]. split; [by rewrite (p_ol _ _ _ P)|]. split; [rewrite (p_nc _ _ _ P); cbn; lia|].
    rewrite (p_gm _ _ _ P), Hg. split; [by rewrite lookup_insert_ne by lia|]. intros i Hlt. destruct (decide (i = N.of_nat n)) as [-> |].
    + replace (N.of_nat n + 1) with (N.of_nat (S n)) by lia. by rewrite lookup_insert.
    + rewrite lookup_insert_ne by lia. apply G. lia.
Qed.
(** With the last gate as output: the calls of an evaluation nest exactly as deep as there are gates, those of a writer about as deep. So the
    stack a circuit needs is not bounded, and a circuit within all limits on its size can exhaust it. *)
Theorem C74_chain md md' n x fuel st : w_c st = 0%nat -> let h := run md (chain (S n) ++ [OpOutput 0 (N.of_nat (S n))]) in
  (eval_output md' h fuel 0 [x] = NoFuel <-> (fuel < S n)%nat) /\
  ((0 < fuel < n)%nat -> fst (write h fuel 1 ∅ st) = NoFuel) /\
  ((S n < fuel)%nat -> fst (write h fuel 1 ∅ st) <> NoFuel).
Proof.
  intros Hst h. destruct (chain_run md (S n)) as (c & E & Hg & Hi & Ho & Hc & G0 & G).
  assert (exists c', h_circ h = [c'] /\ gate_map c' = gate_map c /\ input_len c' = 1 /\ num_const c' = 0 /\ output_len c' = 1 /\ output_map c' !! 0 = Some (N.of_nat (S n)) /\
    forall k o, output_map c' !! k = Some o -> o = N.of_nat (S n)) as (c' & E' & Gm & Hi' & Hc' & Hol & Ho' & Hu).
  { subst h. rewrite run_snoc. set (h := run md (chain (S n))) in *. assert (h_circ h !! 0%nat = Some c) as E0 by (by rewrite E).
    destruct (r_output_cases h 0 c E0 (N.of_nat (S n))) as [[H _]|(c' & Er & [_ P])].
    - exfalso. specialize (G (N.of_nat n)). replace (N.of_nat n + 1) with (N.of_nat (S n)) in G by lia. rewrite G in H by lia. done.
    - unfold step. cbn [run_op]. unfold as_ret, st_bind. rewrite Er. cbn [snd]. exists c'. split; [unfold upd; cbn [h_circ]; by rewrite E|].
      assert (output_map c = ∅) as Hem.
      { apply map_eq. intros k. rewrite lookup_empty. apply (wf_outputs_none c); [|lia]. apply (hi_circ h (run_hinv md (chain (S n))) 0%nat c E0). }
      subst c'. cbn [gate_map input_len num_const output_map output_len]. rewrite Ho, Hem. split; [done|]. split; [done|]. split; [done|]. split; [done|].
      split; [by rewrite lookup_insert|]. intros k o. destruct (decide (k = 0)) as [-> |]; [rewrite lookup_insert; congruence|].
      rewrite lookup_insert_ne by done. by rewrite lookup_empty. }
  assert (h_circ h !! 0%nat = Some c') as E0 by (by rewrite E'). rewrite <- Gm in G0, G. clear E Hg Hi Ho Hc. clear dependent c.
  pose proof (run_hinv md (chain (S n) ++ [OpOutput 0 (N.of_nat (S n))])) as Hinv. fold h in Hinv.
  assert (forall i, (1 <= i <= S n)%nat -> gate_map c' !! N.of_nat i = Some (GNot (N.of_nat (i - 1)))) as Gi.
  { intros i Hlt. replace (N.of_nat i) with (N.of_nat (i - 1) + 1) by lia. apply G. lia. }
  assert (forall i, (i < S n)%nat -> nsteps (first_need h) i (0%nat, N.of_nat (S i)) (0%nat, 1)) as Hfirst.
  { induction i as [|i IH]; intros Hlt; [constructor|]. eapply nsteps_l; [|apply IH; lia].
    eapply (first_operand h 0%nat c' _ _ [] (N.of_nat (S i)) []); [exact E0|apply Gi; lia|cbn; do 2 f_equal; lia|intros z Hz; by apply elem_of_nil in Hz|].
    intros [w Hw]. rewrite Gi in Hw by lia. done. }
  split; [split|split].
  - intros H. destruct (decide (fuel < S n)%nat) as [|Hf]; [done|]. exfalso.
    assert (forall f i s, (1 <= i <= f)%nat -> (i <= S n)%nat -> is_Some (evaled s !! 0) -> ~ stuck (eval_gate md' h f 0 (N.of_nat i)) s) as Hok.
    { clear - E0 Gi. induction f as [|f IH]; intros i s Hif Hin Hs Hst; [lia|]. unfold stuck in Hst. cbn [eval_gate] in Hst. rewrite E0, Gi in Hst by lia.
      assert (fst (e_need (eval_gate md' h f 0) (N.of_nat (i - 1)) s) <> NoFuel) as Hn.
      { unfold e_need. destruct (evaled s !! N.of_nat (i - 1)) eqn:Ee; [done|]. destruct (decide (i = 1%nat)) as [-> |].
        - cbn in Ee. rewrite Ee in Hs. by destruct Hs.
        - apply (IH (i - 1)%nat); [lia|lia|done]. }
      unfold st_bind at 1 in Hst. destruct (e_need _ _ s) as [[a|e|p|] s1]; try done. revert Hst.
      apply (deep_bind (e_get (N.of_nat (i - 1)))); [apply deep_get|]. intros b. apply deep_bind; [apply deep_decr|]. done. }
    unfold eval_output, eval_output_with in H. rewrite E0, Hi' in H. cbn [length negb] in H. change (N.of_nat 1 =? 1) with true in H. cbn [negb] in H.
    destruct (loaded_load h 0%nat c' (1 + size (input_map c') + 1) [x] Hinv E0 ltac:(by rewrite Hi') ltac:(cbn; lia)) as (s & Es & L).
    unfold st_bind at 1 in H. rewrite Es in H. revert H. 
    assert (is_Some (evaled s !! 0)) as Hs by (apply L; by exists 0).
    rewrite Hol. change (nrange 1) with [0].
    assert (fst (e_single_output c' (eval_gate md' h fuel 0) [x] 0 s) <> NoFuel) as Hn.
    { unfold e_single_output. rewrite Hi', Hol, Ho'. cbn [length negb]. change (N.of_nat 1 =? 1) with true. change (1 <=? 0) with false. cbn [negb].
      destruct (evaled s !! N.of_nat (S n)); [done|]. specialize (Hok fuel (S n) s ltac:(lia) ltac:(lia) Hs). unfold stuck in Hok. unfold st_bind.
      destruct (eval_gate md' h fuel 0 (N.of_nat (S n)) s) as [[a|e|p|] s1]; try done. apply deep_get. }
    cbn [st_mapM]. unfold st_bind at 1. destruct (e_single_output c' (eval_gate md' h fuel 0) [x] 0 s) as [[y|e|p|] s1]; done.
  - intros Hf. eapply (C74_needed md md' _ 0 [x] n (0%nat, 1) fuel (N.of_nat (S n))); fold h.
    + unfold inputs_of, on. by rewrite E0, Hi'.
    + unfold output_gate, on, c_output_to_gate_id. by rewrite E0, Ho'.
    + intros w. unfold get_gate, on, c_get_gate. rewrite E0, Gi by lia. done.
    + apply Hfirst. lia.
    + lia.
  - intros Hf. assert (forall i, (1 <= i <= S n)%nat -> ~ source c' (N.of_nat i)) as Hns.
    { intros i Hlt [[w Hw]|[b Hb]]; rewrite Gi in * by lia; done. }
    assert (forall i, (1 <= i <= n)%nat -> first_of c' (N.of_nat (S i)) (N.of_nat i)) as Hof.
    { intros i Hlt. eapply (first_of_intro c' _ _ [] _ []); [apply Gi; lia|cbn; do 2 f_equal; lia|intros z Hz; by apply elem_of_nil in Hz|apply Hns; lia]. }
    assert (forall i, (i < n)%nat -> nsteps (first_written h) i (0%nat, N.of_nat (S i)) (0%nat, 1)) as Hw.
    { induction i as [|i IH]; intros Hlt; [constructor|]. eapply nsteps_l; [|apply IH; lia]. eapply written_operand; [exact E0|apply Hof; lia]. }
    eapply (C74_write_needed md _ st c' 1 (n - 1) (N.of_nat n) (0%nat, 1) fuel (N.of_nat (S n))); fold h; rewrite ?Hst.
    + done.
    + rewrite Hi'. lia.
    + done.
    + apply Hof. lia.
    + specialize (Hw (n - 1)%nat). replace (S (n - 1)) with n in Hw by lia. apply Hw. lia.
    + exists c'. split; [done|]. cbn. specialize (Gi 1%nat). cbn in Gi. rewrite Gi by lia. eauto.
    + lia.
  - intros Hf. apply C74_write; [lia|]. fold h. rewrite Hst. intros c2 k o E2 Eo. rewrite E0 in E2. injection E2 as <-. apply Hu in Eo as ->.
    assert (forall i y, (i <= S n)%nat -> needs h (0%nat, N.of_nat i) y -> exists i', i = S i' /\ y = (0%nat, N.of_nat i')) as Hone.
    { intros i y Hlt Ny. assert (gate_map c' !! N.of_nat i = Some (match i with O => GInput 0 | S i => GNot (N.of_nat i) end)) as Gg.
      { destruct i as [|i]; [exact G0|]. rewrite Gi by lia. do 3 f_equal. lia. }
      inversion Ny as [l c0 g gt a El Ga Ha|l c0 g il ol ids oi mid xx l' c2 kk oo El Ga]; subst; rewrite E0 in El; injection El as <-; rewrite Gg in Ga; injection Ga as Ga; subst.
      - destruct i as [|i]; cbn [operands] in Ha; [by apply elem_of_nil in Ha|]. apply elem_of_list_singleton in Ha as ->. eauto.
      - by destruct i. }
    assert (forall i j q, (i <= S n)%nat -> nsteps (needs h) j (0%nat, N.of_nat i) q -> (j <= i)%nat) as Hlen.
    { induction i as [|i IH]; intros j q Hlt Hj; (destruct j as [|j]; [lia|]); inversion Hj as [|? ? y ? Ny Hs]; subst;
        destruct (Hone _ _ Hlt Ny) as (i' & Ei & ->); [done|]. injection Ei as <-. apply IH in Hs; lia. }
    intros j q Hj. apply Hlen in Hj; lia.
Qed.
(** A disciplined history with nested modules: it has ten gates, and a depth of eleven suffices; the chain of a thousand negations needs a
    thousand nested calls. *)
Example C74_example : disciplined Debug heap_empty nested /\ evaluable (run Debug nested) 0 /\ all_gates (run Debug nested) = 10%nat /\
  eval_output Debug (run Debug nested) 11 0 [true; false] = Ok [true; true] /\
  (forall x, eval_output Release (run Release (chain 1000 ++ [OpOutput 0 1000])) 999 0 [x] = NoFuel).
Proof.
  destruct C13_example as (D & Ev & _). split; [exact D|]. split; [exact Ev|]. split; [vm_compute; reflexivity|]. split; [vm_compute; reflexivity|].
  intros x. refine (proj2 (proj1 (C74_chain Release Release 999 x 999 (writer_new 0) eq_refl)) _). lia.
Qed.
