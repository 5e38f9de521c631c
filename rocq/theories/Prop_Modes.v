(** Builds with and without overflow checks: C98. *)
From Verif Require Import DiscDec.
From Verif Require Export Prop_Faults Prop_Reader Prop_Errors.
Open Scope N_scope.
Open Scope list_scope.

(** * Specification *)
(** What the build with checks ([D]) and the one without ([R]) do from the same state: the latter has no arithmetic panic, and both do the same unless the
    former has one. *)
Definition modes_agree {S A} (D R : ST S A) : Prop := forall s, fst (R s) <> Panic PArith /\ (fst (D s) = Panic PArith \/ D s = R s).
(** No call of the history has an arithmetic panic. *)
Fixpoint no_overflow (md : mode) (h : heap) (ops : list op) : Prop :=
  match ops with [] => True | o :: ops => fst (run_op md o h) <> Panic PArith /\ no_overflow md (step md h o) ops end.

(** * Simulation *)
Lemma ma_bind {S A B} (D R : ST S A) (k k' : A -> ST S B) : modes_agree D R -> (forall a, modes_agree (k a) (k' a)) -> modes_agree (st_bind D k) (st_bind R k').
Proof.
  intros H1 H2 s. destruct (H1 s) as [Hq Hd]. unfold st_bind. destruct (D s) as [d s1], (R s) as [r s2]. cbn in *.
  destruct Hd as [->|[= <- <-]].
  - split; [|by left]. destruct r; cbn; try done; [by apply H2|congruence].
  - destruct d; cbn; try (split; [congruence|by right]). apply H2.
Qed.
Lemma ma_refl {S A} (m : ST S A) : (forall s, fst (m s) <> Panic PArith) -> modes_agree m m.
Proof. intros H s. split; [apply H|by right]. Qed.
Lemma ma_ret {S A} (a : A) : modes_agree (S := S) (st_ret a) (st_ret a).
Proof. by apply ma_refl. Qed.
Lemma ma_err {S A} e : modes_agree (S := S) (A := A) (st_err e) (st_err e).
Proof. by apply ma_refl. Qed.
Lemma ma_panic {S A} p : p <> PArith -> modes_agree (S := S) (A := A) (st_panic p) (st_panic p).
Proof. intros H. apply ma_refl. intros s [= E]. done. Qed.
Lemma ma_lift {S A} (d r : res A) : r <> Panic PArith -> d = Panic PArith \/ d = r -> modes_agree (S := S) (st_lift d) (st_lift r).
Proof. intros H1 [->| ->] s; (split; [done|]); [by left|by right]. Qed.
Lemma ma_mapM {S X A} (f f' : X -> ST S A) xs : (forall x, modes_agree (f x) (f' x)) -> modes_agree (st_mapM f xs) (st_mapM f' xs).
Proof.
  intros H. induction xs as [|x xs IH]; cbn [st_mapM]; [apply ma_ret|]. apply ma_bind; [apply H|]. intros a. apply ma_bind; [exact IH|]. intros. apply ma_ret.
Qed.
Lemma ma_iterM {S X} (f f' : X -> ST S unit) xs : (forall x, modes_agree (f x) (f' x)) -> modes_agree (st_iterM f xs) (st_iterM f' xs).
Proof. intros H. induction xs as [|x xs IH]; cbn [st_iterM]; [apply ma_ret|]. apply ma_bind; [apply H|]. by intros _. Qed.
Lemma sub_modes a b : usize_sub Release a b <> Panic PArith /\ (usize_sub Debug a b = Panic PArith \/ usize_sub Debug a b = usize_sub Release a b).
Proof. unfold usize_sub. destruct (b <=? a); (split; [done|]); [by right|by left]. Qed.
Lemma add_modes a b : usize_add Release a b <> Panic PArith /\ (usize_add Debug a b = Panic PArith \/ usize_add Debug a b = usize_add Release a b).
Proof. unfold usize_add. destruct (a + b <? usize_modulus); (split; [done|]); [by right|by left]. Qed.

(** ** The calls *)
Lemma ma_circ l : modes_agree (get_circ l) (get_circ l).
Proof. apply ma_refl. intros h. unfold get_circ. by destruct (h_circ h !! l). Qed.
Lemma ma_stor l : modes_agree (get_stor l) (get_stor l).
Proof. apply ma_refl. intros h. unfold get_stor. by destruct (h_stor h !! l). Qed.
Lemma ma_put l c : modes_agree (put_circ l c) (put_circ l c).
Proof. by apply ma_refl. Qed.
Lemma ma_alloc c : modes_agree (alloc_circ c) (alloc_circ c).
Proof. by apply ma_refl. Qed.
Lemma ma_on {A} l (f : circuit -> A * circuit) : modes_agree (on_circ l f) (on_circ l f).
Proof. apply ma_bind; [apply ma_circ|]. intros c. destruct (f c). apply ma_bind; [apply ma_put|]. intros _. apply ma_ret. Qed.
Lemma ma_register s l : modes_agree (s_register s l) (s_register s l).
Proof. apply ma_bind; [apply ma_stor|]. intros x. apply ma_bind; [by apply ma_refl|]. intros _. apply ma_ret. Qed.
Lemma ma_output l g : modes_agree (r_output l g) (r_output l g).
Proof.
  apply ma_refl. intros h. unfold r_output, on_circ, st_bind, get_circ. destruct (h_circ h !! l) as [c|]; [|done]. unfold c_output. by destruct (gate_map c !! g).
Qed.
Lemma ma_module l mid ids : modes_agree (r_module Debug l mid ids) (r_module Release l mid ids).
Proof.
  apply ma_bind.
  { apply ma_bind; [apply ma_circ|]. intros c. apply ma_bind; [apply ma_stor|]. intros x. destruct (module_map x !! mid); [apply ma_ret|apply ma_err]. }
  intros l'. destruct (decide (l' = l)); [by apply ma_panic|]. apply ma_bind; [apply ma_circ|]. intros m. apply ma_bind; [apply ma_circ|]. intros c.
  unfold c_module. destruct (_ <? 0)%Z.
  - intros s. split; [|by left]. by destruct (add_module_gates _ _ _ _ _ _ _).
  - destruct (add_module_gates _ _ _ _ _ _ _). apply ma_bind; [apply ma_put|]. intros _. apply ma_ret.
Qed.
Lemma ma_op o : modes_agree (run_op Debug o) (run_op Release o).
Proof.
  destruct o; cbn [run_op]; (apply ma_bind; [|intros; apply ma_ret]).
  - by apply ma_refl.
  - apply ma_bind; [apply ma_stor|]. intros _. apply ma_alloc.
  - apply ma_bind; [apply ma_circ|]. intros c. apply ma_alloc.
  - apply ma_on.
  - apply ma_output.
  - apply ma_on.
  - apply ma_on.
  - apply ma_on.
  - apply ma_on.
  - apply ma_on.
  - apply ma_on.
  - apply ma_on.
  - apply ma_bind; [apply ma_circ|]. intros c. apply ma_bind; [apply ma_circ|]. intros _. apply ma_register.
  - apply ma_bind; [apply ma_circ|]. intros c. apply ma_bind; [apply ma_stor|]. intros _. apply ma_bind; [apply ma_alloc|]. intros l'.
    apply ma_bind; [apply ma_register|]. intros mid. apply ma_ret.
  - apply ma_module.
  - apply ma_bind; [apply ma_circ|]. intros _. apply ma_register.
Qed.

(** ** The evaluator *)
Lemma ma_need (f f' : N -> ST estate unit) id : (forall g, modes_agree (f g) (f' g)) -> modes_agree (e_need f id) (e_need f' id).
Proof. intros H s. unfold e_need. destruct (evaled s !! id); [split; [done|by right]|apply H]. Qed.
Lemma ma_get id : modes_agree (e_get id) (e_get id).
Proof. apply ma_refl. intros s. unfold e_get. by destruct (evaled s !! id). Qed.
Lemma ma_insert c g b : modes_agree (e_insert c g b) (e_insert c g b).
Proof. by apply ma_refl. Qed.
Lemma ma_decr id : modes_agree (e_decr Debug id) (e_decr Release id).
Proof.
  intros s. unfold e_decr. destruct (ndep s !! id) as [n|]; [|split; [done|by right]]. unfold usize_sub. destruct (1 <=? n).
  - destruct (n - 1 =? 0); (split; [done|by right]).
  - split; [|by left]. by destruct (usize_modulus + n - 1 =? 0).
Qed.
Lemma ma_insert_outputs c first bits k : forall i, modes_agree (e_insert_outputs c first bits i k) (e_insert_outputs c first bits i k).
Proof.
  induction k as [|k IH]; intros i; cbn [e_insert_outputs]; [apply ma_ret|]. apply ma_bind.
  - apply ma_refl. intros s. unfold st_nth. by destruct (bits !! N.to_nat i).
  - intros b. apply ma_bind; [apply ma_insert|]. intros _. apply IH.
Qed.
Lemma ma_load c k : forall w inputs, modes_agree (e_load c k w inputs) (e_load c k w inputs).
Proof.
  induction k as [|k IH]; intros w inputs; destruct inputs as [|b inputs]; cbn [e_load]; try apply ma_ret; [by apply ma_refl|].
  destruct (input_map c !! w) as [[id|]|]; [|apply IH|apply ma_err]. apply ma_bind; [apply ma_insert|]. intros _. apply IH.
Qed.
Lemma ma_single c (f f' : N -> ST estate unit) inputs w : (forall g, modes_agree (f g) (f' g)) ->
  modes_agree (e_single_output c f inputs w) (e_single_output c f' inputs w).
Proof.
  intros H. unfold e_single_output. destruct (negb _); [apply ma_err|]. destruct (_ <=? _); [apply ma_err|]. destruct (output_map c !! w) as [o|]; [|apply ma_err].
  intros s. destruct (evaled s !! o); [split; [done|by right]|]. apply (ma_bind (f o) (f' o)); [apply H|]. intros _. apply ma_get.
Qed.
Lemma output_modes h (f f' : nat -> N -> ST estate unit) l inputs : (forall l g, modes_agree (f l g) (f' l g)) ->
  eval_output_with h f' l inputs <> Panic PArith /\
  (eval_output_with h f l inputs = Panic PArith \/ eval_output_with h f l inputs = eval_output_with h f' l inputs).
Proof.
  intros H. unfold eval_output_with. destruct (h_circ h !! l) as [c|]; [|split; [done|by right]]. destruct (negb _); [split; [done|by right]|].
  assert (M : modes_agree (e_load c (length inputs + size (input_map c) + 1) 0 inputs ;; st_mapM (e_single_output c (f l) inputs) (nrange (output_len c)))
    (e_load c (length inputs + size (input_map c) + 1) 0 inputs ;; st_mapM (e_single_output c (f' l) inputs) (nrange (output_len c)))).
  { apply ma_bind; [apply ma_load|]. intros _. apply ma_mapM. intros w. apply ma_single, H. }
  destruct (M (EState ∅ ∅)) as [M1 [M2|M2]]; (split; [exact M1|]); [by left|right; by rewrite M2].
Qed.
Lemma ma_gate h fuel : forall l g, modes_agree (eval_gate Debug h fuel l g) (eval_gate Release h fuel l g).
Proof.
  induction fuel as [|fuel IH]; intros l g; cbn [eval_gate]; [by apply ma_refl|]. destruct (h_circ h !! l) as [c|]; [|by apply ma_panic].
  assert (X : forall f a b, modes_agree (e_binary Debug c (eval_gate Debug h fuel l) f g a b) (e_binary Release c (eval_gate Release h fuel l) f g a b)).
  { intros f a b. apply ma_bind; [apply ma_need, IH|]. intros _. apply ma_bind; [apply ma_need, IH|]. intros _. apply ma_bind; [apply ma_get|]. intros x.
    apply ma_bind; [apply ma_get|]. intros y. apply ma_bind; [apply ma_decr|]. intros _. apply ma_bind; [apply ma_decr|]. intros _. apply ma_insert. }
  destruct (gate_map c !! g) as [[w|b|a|a b|a b|a b|il ol ids oi mid]|]; [apply ma_ret|apply ma_insert| |apply X|apply X|apply X| |apply ma_err].
  - apply ma_bind; [apply ma_need, IH|]. intros _. apply ma_bind; [apply ma_get|]. intros x. apply ma_bind; [apply ma_decr|]. intros _. apply ma_insert.
  - apply ma_bind; [apply ma_mapM; intros id; apply ma_bind; [apply ma_need, IH|intros _; apply ma_get]|]. intros bits.
    destruct (h_stor h !! c_storage c) as [x|]; [|by apply ma_panic]. destruct (module_map x !! mid) as [l'|]; [|apply ma_err].
    apply ma_bind; [apply ma_lift; apply (output_modes h _ _ l' bits IH)|]. intros outs. apply ma_bind; [apply ma_iterM, ma_decr|]. intros _.
    apply ma_bind; [apply ma_lift; apply sub_modes|]. intros first. apply ma_insert_outputs.
Qed.

(** ** The reader *)
Lemma ma_rd {A} (m m' : M A) : modes_agree m m' -> modes_agree (rd_h m) (rd_h m').
Proof.
  intros H [gw h]. destruct (H h) as [H1 H2]. unfold rd_h. cbn. destruct (m h) as [d h1], (m' h) as [r h2]. cbn in *. split; [done|].
  destruct H2 as [->|[= <- <-]]; [by left|by right].
Qed.
Definition quiet {A} (r : res A) : Prop := r <> Panic PArith.
Lemma parse_quiet t : quiet (parse_usize t).
Proof. destruct (parse_cases t) as [(n & _ & ->)|(k & -> & _)]; done. Qed.
Lemma ma_quiet {S A} (r : res A) : quiet r -> modes_agree (S := S) (st_lift r) (st_lift r).
Proof. intros H. apply ma_lift; [exact H|by right]. Qed.
Lemma quiet_bind {A B} (r : res A) (k : A -> res B) : quiet r -> (forall a, quiet (k a)) -> quiet (res_bind r k).
Proof. intros H1 H2. destruct r; cbn; [apply H2|done|intros [= ->]; by apply H1|done]. Qed.
Lemma num_quiet ts : quiet (next_num ts).
Proof. destruct ts as [|t ts]; [done|]. unfold next_num. cbn. apply quiet_bind; [apply parse_quiet|]. done. Qed.
Lemma line_quiet n ls : quiet (next_line n ls).
Proof. by destruct ls. Qed.
Lemma operands_quiet gw : forall ts k, quiet (rd_operands gw ts k).
Proof.
  induction ts as [|t ts IH]; intros k; cbn [rd_operands]; destruct (k =? 0); try done. apply quiet_bind; [apply parse_quiet|]. intros w.
  destruct (gw !! w); [|done]. apply quiet_bind; [apply IH|]. by intros [].
Qed.
Lemma nums_quiet : forall ts k, quiet (rd_nums ts k).
Proof.
  induction ts as [|t ts IH]; intros k; cbn [rd_nums]; destruct (k =? 0); try done. apply quiet_bind; [apply parse_quiet|]. intros w.
  apply quiet_bind; [apply IH|]. by intros [].
Qed.
Lemma ma_rd_insert w g : modes_agree (rd_insert w g) (rd_insert w g).
Proof. by apply ma_refl. Qed.
Lemma ma_inputs l k : forall w, modes_agree (rd_inputs l k w) (rd_inputs l k w).
Proof.
  induction k as [|k IH]; intros w; cbn [rd_inputs]; [apply ma_ret|]. apply ma_bind; [apply ma_rd, ma_on|]. intros g. apply ma_bind; [apply ma_rd_insert|].
  intros _. apply IH.
Qed.
Lemma ma_groups l : forall ts k sum, modes_agree (rd_groups l ts k sum) (rd_groups l ts k sum).
Proof.
  induction ts as [|t ts IH]; intros k sum; cbn [rd_groups]; destruct (k =? 0); try apply ma_ret; [apply ma_err|].
  apply ma_bind; [apply ma_quiet, parse_quiet|]. intros n. apply ma_bind; [apply ma_inputs|]. intros _. apply IH.
Qed.
Lemma ma_sum : forall ts k sum, rd_sum Release ts k sum <> Panic PArith /\
  (rd_sum Debug ts k sum = Panic PArith \/ rd_sum Debug ts k sum = rd_sum Release ts k sum).
Proof.
  induction ts as [|t ts IH]; intros k sum; cbn [rd_sum]; destruct (k =? 0); try (split; [done|by right]).
  pose proof (parse_quiet t) as Q. destruct (parse_usize t) as [n| |p|]; cbn; try (split; [done|by right]).
  unfold usize_add. destruct (sum + n <? usize_modulus); cbn; [apply IH|]. split; [apply IH|by left].
Qed.
Lemma ma_nth {S A} (xs : list A) i : modes_agree (S := S) (st_nth xs i) (st_nth xs i).
Proof. apply ma_refl. intros s. unfold st_nth. by destruct (xs !! i). Qed.
Lemma ma_rd_gate l ty gs os : modes_agree (rd_gate l ty gs os) (rd_gate l ty gs os).
Proof.
  unfold rd_gate. repeat match goal with |- modes_agree (if ?b then _ else _) _ => destruct b end; [| | | | |apply ma_err];
    repeat (apply ma_bind; [first [apply ma_nth|apply ma_rd, ma_on]|intros ?]); apply ma_rd_insert.
Qed.
Lemma ma_line l ts : modes_agree (rd_line l ts) (rd_line l ts).
Proof.
  apply ma_bind; [apply ma_quiet, num_quiet|]. intros [n t1]. apply ma_bind; [apply ma_quiet, num_quiet|]. intros [m t2].
  apply ma_bind; [by apply ma_refl|]. intros gw. apply ma_bind; [apply ma_quiet, operands_quiet|]. intros [gs t3].
  apply ma_bind; [apply ma_quiet, nums_quiet|]. intros [os t4]. apply ma_bind; [apply ma_quiet; by destruct t4|]. intros [ty t5]. apply ma_rd_gate.
Qed.
Lemma ma_lines l ls : modes_agree (rd_lines l ls) (rd_lines l ls).
Proof. induction ls as [|x r IH]; cbn [rd_lines]; [apply ma_ret|]. destruct (String.eqb x ""); [apply ma_ret|]. apply ma_bind; [apply ma_line|]. by intros _. Qed.
Lemma ma_outputs l k : forall w, modes_agree (rd_outputs l k w) (rd_outputs l k w).
Proof.
  induction k as [|k IH]; intros w; cbn [rd_outputs]; [apply ma_ret|]. apply ma_bind; [by apply ma_refl|]. intros gw. destruct (gw !! w); [|by apply ma_panic].
  apply ma_bind; [apply ma_rd, ma_output|]. intros _. apply IH.
Qed.
Lemma ma_read l text : modes_agree (read Debug l text) (read Release l text).
Proof.
  apply ma_bind; [apply ma_quiet, line_quiet|]. intros [l1 ls]. apply ma_bind; [apply ma_quiet, num_quiet|]. intros [ng ts].
  apply ma_bind; [apply ma_quiet, num_quiet|]. intros [nw ts']. apply ma_bind; [apply ma_quiet, line_quiet|]. intros [l2 ls2].
  apply ma_bind; [apply ma_quiet, num_quiet|]. intros [ni ts2]. apply ma_bind; [apply ma_groups|]. intros _.
  apply ma_bind; [apply ma_quiet, line_quiet|]. intros [l3 ls3]. apply ma_bind; [apply ma_quiet, num_quiet|]. intros [no ts3].
  apply ma_bind; [apply ma_lift; apply ma_sum|]. intros os. apply ma_bind; [apply ma_quiet, line_quiet|]. intros [l4 ls4].
  apply ma_bind; [apply ma_lines|]. intros _. apply ma_bind; [apply ma_lift; apply sub_modes|]. intros lo. apply ma_outputs.
Qed.

(** * C98 *)
(** Every call on every heap: without checks there is no arithmetic panic, and unless there is one with checks the reply and the heap are the same. *)
Theorem C98_calls o h : fst (run_op Release o h) <> Panic PArith /\ (fst (run_op Debug o h) = Panic PArith \/ run_op Debug o h = run_op Release o h).
Proof. apply (ma_op o h). Qed.
(** Only [module] can have one, called on a module that is not the circuit itself and has fewer wires than inputs and outputs; it changes nothing then. *)
Theorem C98_cause o h h' : run_op Debug o h = (Panic PArith, h') -> h' = h /\
  exists l mid ids l' m, o = OpModule l mid ids /\ get_module h l mid = Ok l' /\ l' <> l /\ h_circ h !! l' = Some m /\
    (num_wire m < Z.of_N (input_len m) + Z.of_N (output_len m))%Z.
Proof.
  intros E. assert (Q : (forall l mid ids, o <> OpModule l mid ids) -> False).
  { intros Ho. assert (X : run_op Debug o = run_op Release o) by (destruct o; try reflexivity; by destruct (Ho l mid ids)).
    pose proof (proj1 (C98_calls o h)) as H. rewrite <- X, E in H. by apply H. }
  destruct o; try (exfalso; apply Q; done). clear Q. revert E. cbn [run_op]. unfold Circuit.as_ret, r_module, get_module, r_get_module, st_bind, get_circ, get_stor.
  destruct (h_circ h !! l) as [c|] eqn:Ec; [|done]. destruct (h_stor h !! c_storage c) as [x|] eqn:Es; [|done]. destruct (module_map x !! mid) as [l'|] eqn:Em; [|done].
  cbn. destruct (decide (l' = l)) as [|Hl]; [done|]. destruct (h_circ h !! l') as [m|] eqn:E'; [|done]. rewrite ?Ec. unfold c_module.
  destruct (Z.ltb_spec (num_wire m - Z.of_N (input_len m) - Z.of_N (output_len m)) 0).
  - intros [= <-]. split; [done|]. exists l, mid, ids, l', m.
    split; [done|]. split; [rewrite Ec; cbn; rewrite Es; cbn; by rewrite Em|]. split; [done|]. split; [done|]. lia.
  - by destruct (add_module_gates _ _ _ _ _ _ _).
Qed.
(** So histories build the same circuits in both builds, unless a call has an arithmetic panic with checks. *)
Theorem C98_histories ops : no_overflow Debug heap_empty ops -> run Debug ops = run Release ops.
Proof.
  unfold run. generalize heap_empty. induction ops as [|o ops IH]; intros h; [done|]. cbn [no_overflow fold_left]. intros [H1 H2].
  destruct (proj2 (C98_calls o h)) as [E|E]; [done|]. unfold step at 4. rewrite <- E. by apply IH.
Qed.
(** Evaluations of every heap agree in the same way; after any history there is no exception. *)
Theorem C98_eval_any h fuel l inputs : eval_output Release h fuel l inputs <> Panic PArith /\
  (eval_output Debug h fuel l inputs = Panic PArith \/ eval_output Debug h fuel l inputs = eval_output Release h fuel l inputs).
Proof. apply output_modes. intros. apply ma_gate. Qed.
Theorem C98_eval md ops fuel l inputs : eval_output Debug (run md ops) fuel l inputs = eval_output Release (run md ops) fuel l inputs.
Proof.
  destruct (h_circ (run md ops) !! l) as [c|] eqn:Ec.
  - destruct (proj2 (C98_eval_any (run md ops) fuel l inputs)) as [E|E]; [|done]. exfalso.
    pose proof (C88_only md Debug ops fuel l inputs) as H. rewrite E in H. apply H. exists (input_len c). unfold inputs_of, on. by rewrite Ec.
  - unfold eval_output, eval_output_with. by rewrite Ec.
Qed.
(** Readings, with a reader and heap in any state. *)
Theorem C98_read l text s : fst (read Release l text s) <> Panic PArith /\ (fst (read Debug l text s) = Panic PArith \/ read Debug l text s = read Release l text s).
Proof. apply (ma_read l text s). Qed.

(** * Examples *)
Lemma demo_no_overflow : no_overflow Debug heap_empty demo.
Proof. unfold demo. cbn [no_overflow]. repeat (split; [vm_compute; discriminate|]). exact Logic.I. Qed.
Definition forwarding : list op := [OpNewStorage; OpNewCircuit 0; OpInput 0; OpSub 0; OpInput 1; OpOutput 1 0].
Definition more_outputs : string := unlines ["0 1"; "1 1"; "1 2"; ""]%string.
(** Evaluations of the demo; a module that forwards its input, with both builds; a text with more outputs than wires. *)
Example C98_example : forall md, no_overflow Debug heap_empty demo /\ eval_output md (run Debug demo) 9 0 [false; true] = Ok [false] /\
  eval_output md (run Release demo) 9 0 [false; true] = Ok [false] /\
  fst (run_op Debug (OpModule 0 0 [0]) (run md forwarding)) = Panic PArith /\ fst (run_op Release (OpModule 0 0 [0]) (run md forwarding)) = Ok (RGates [1]) /\
  fst (read Debug 0 more_outputs (∅, blank)) = Panic PArith /\ fst (read Release 0 more_outputs (∅, blank)) = Ok tt.
Proof.
  intros md. split; [exact demo_no_overflow|]. split; [destruct md; vm_compute; reflexivity|]. split; [destruct md; vm_compute; reflexivity|].
  split; [destruct md; vm_compute; reflexivity|]. split; [destruct md; vm_compute; reflexivity|]. split; vm_compute; reflexivity.
Qed.
