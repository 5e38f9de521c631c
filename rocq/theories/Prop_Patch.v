(** Gates and outputs exchanged by the caller: C93. *)
From Verif Require Import DiscDec EvalDec.
From Verif Require Export Prop_Fields Prop_Writer.
Open Scope N_scope.
Open Scope list_scope.

(** * Specification *)
(** Two gates that may stand for each other: constants, or gates of two operands that have the same operands in the same or in the other order. *)
Definition two (gt : gate) : option (N * N) := match gt with GXor a b | GAnd a b | GOr a b => Some (a, b) | _ => None end.
Definition exchange (gt gt' : gate) : Prop :=
  (exists x y, gt = GConst x /\ gt' = GConst y) \/
  exists a b, two gt = Some (a, b) /\ (two gt' = Some (a, b) \/ two gt' = Some (b, a)).
(** Between API calls the caller replaces a gate or the gate of an output in the public fields of a circuit, which need not be a circuit that nobody calls:
    [circuit.borrow_mut().gate_map.insert(g, gt)] and [circuit.borrow_mut().output_map.insert(w, g)] (/repo/src/bool_circuit.rs 90-92, 406 and 407). *)
Inductive patch := PCall (o : op) | PGate (l : nat) (g : N) (gt : gate) | POutput (l : nat) (w g : N).
Definition set_gate (g : N) (gt : gate) (c : circuit) : circuit :=
  Circuit (input_map c) (output_map c) (<[g := gt]> (gate_map c)) (c_storage c) (dep_map c) (const_gates c) (input_len c) (output_len c)
    (num_wire c) (num_gate c) (num_const c) (gate_index c).
Definition set_output (w g : N) (c : circuit) : circuit :=
  Circuit (input_map c) (<[w := g]> (output_map c)) (gate_map c) (c_storage c) (dep_map c) (const_gates c) (input_len c) (output_len c)
    (num_wire c) (num_gate c) (num_const c) (gate_index c).
Definition do_patch (md : mode) (h : heap) (p : patch) : heap :=
  match p with
  | PCall o => step md h o
  | PGate l g gt => Heap (alter (set_gate g gt) l (h_circ h)) (h_stor h)
  | POutput l w g => Heap (alter (set_output w g) l (h_circ h)) (h_stor h)
  end.
Definition patched (md : mode) (ps : list patch) : heap := fold_left (do_patch md) ps heap_empty.
(** Gates are exchanged for gates that may stand for them, and outputs that are there for gates that are there. *)
Definition fair_one (h : heap) (p : patch) : Prop :=
  match p with
  | PCall _ => True
  | PGate l g gt => exists gt0, get_gate h l g = Ok gt0 /\ exchange gt0 gt
  | POutput l w g => (exists g0, output_gate h l w = Ok g0) /\ exists gt, get_gate h l g = Ok gt
  end.
Fixpoint fair (md : mode) (h : heap) (ps : list patch) : Prop :=
  match ps with [] => True | p :: ps => fair_one h p /\ fair md (do_patch md h p) ps end.
Definition calls_in (ps : list patch) : list op := flat_map (fun p => match p with PCall o => [o] | _ => [] end) ps.
Fixpoint replies (md : mode) (h : heap) (ps : list patch) : list (res ret) :=
  match ps with
  | [] => []
  | PCall o :: ps => fst (run_op md o h) :: replies md (step md h o) ps
  | p :: ps => replies md (do_patch md h p) ps
  end.
(** One gate leads to another: through operands, and from a call to the outputs of its module. *)
Inductive leads (h : heap) : nat * N -> nat * N -> Prop :=
| leads_refl p : leads h p p
| leads_operand l g gt a q : get_gate h l g = Ok gt -> a ∈ operands gt -> leads h (l, a) q -> leads h (l, g) q
| leads_call l g il ol ids oi mid l' o q : get_gate h l g = Ok (GModule il ol ids oi mid) -> get_module h l mid = Ok l' -> output_gate h l' oi = Ok o ->
    leads h (l', o) q -> leads h (l, g) q.

(** * Circuits that agree up to exchanges *)
Definition xg (x y : option gate) : Prop :=
  match x, y with None, None => True | Some gt, Some gt' => gt = gt' \/ exchange gt gt' | _, _ => False end.
(** [K] says that also the outputs are the same. *)
Section kind.
Context (K : bool).
Record xc (c c' : circuit) : Prop := {
  x_in : input_map c = input_map c';
  x_g : forall g, xg (gate_map c !! g) (gate_map c' !! g);
  x_out : forall w, is_Some (output_map c !! w) <-> is_Some (output_map c' !! w);
  x_eqo : K = true -> output_map c = output_map c';
  x_ex : forall w g, output_map c' !! w = Some g -> is_Some (gate_map c' !! g);
  x_st : c_storage c = c_storage c';
  x_dep : dep_map c = dep_map c';
  x_cg : const_gates c = const_gates c';
  x_il : input_len c = input_len c';
  x_ol : output_len c = output_len c';
  x_nw : num_wire c = num_wire c';
  x_ng : num_gate c = num_gate c';
  x_nc : num_const c = num_const c';
  x_gi : gate_index c = gate_index c';
}.
Lemma xg_refl x : xg x x.
Proof. destruct x; cbn; auto. Qed.
Lemma xg_some x y : xg x y -> is_Some x <-> is_Some y.
Proof. destruct x, y; cbn; try done. Qed.
Lemma exchange_trans a b c : exchange a b -> exchange b c -> exchange a c.
Proof.
  intros [(x & y & -> & ->)|(p & q & H1 & H2)] [(x' & y' & E1 & ->)|(p' & q' & H3 & H4)].
  - left. eauto.
  - done.
  - subst. by destruct H2.
  - right. exists p, q. split; [done|]. destruct H2 as [H2|H2]; rewrite H2 in H3; injection H3 as <- <-; tauto.
Qed.
Lemma xg_trans x y z : xg x y -> xg y z -> xg x z.
Proof.
  destruct x, y, z; cbn; try done. intros [->|H1] [->|H2]; auto. right. by eapply exchange_trans.
Qed.
Lemma xc_new s : xc (circuit_new s) (circuit_new s).
Proof. split; try done; cbn; intros; rewrite ?lookup_empty in *; done. Qed.
Lemma xg_insert (m m' : gmap N gate) k gt : (forall g, xg (m !! g) (m' !! g)) -> forall g, xg (<[k := gt]> m !! g) (<[k := gt]> m' !! g).
Proof. intros H g. destruct (decide (g = k)) as [->|]; [rewrite !lookup_insert; apply xg_refl|rewrite !lookup_insert_ne by done; apply H]. Qed.
Lemma ex_insert (om : gmap N N) (m : gmap N gate) k gt : (forall w g, om !! w = Some g -> is_Some (m !! g)) ->
  forall w g, om !! w = Some g -> is_Some (<[k := gt]> m !! g).
Proof. intros H w g E. destruct (decide (g = k)) as [->|]; [rewrite lookup_insert; eauto|rewrite lookup_insert_ne by done; by eapply H]. Qed.
Ltac xsplit := split; cbn; try congruence; try (apply xg_insert; assumption); try (eapply ex_insert; eassumption); try assumption.
Definition xkeeps {A} (f : circuit -> A * circuit) : Prop := forall c c', xc c c' -> fst (f c) = fst (f c') /\ xc (snd (f c)) (snd (f c')).
Lemma x_add_gate g : xkeeps (fun c => add_gate c g).
Proof. intros c c' []. unfold add_gate. cbn. split; [done|]. rewrite x_gi0. xsplit. Qed.
Lemma x_dependence a g c c' : xc c c' -> xc (add_dependence c a g) (add_dependence c' a g).
Proof. intros []. unfold add_dependence. xsplit. Qed.
Lemma x_bump k c c' : xc c c' -> xc (bump_num_gate c k) (bump_num_gate c' k).
Proof. intros []. unfold bump_num_gate. xsplit. Qed.
Lemma x_input : xkeeps c_input.
Proof. intros c c' []. unfold c_input. cbn. split; [done|]. rewrite x_gi0, x_il0. xsplit. Qed.
Lemma x_constant b : xkeeps (fun c => c_constant c b).
Proof. intros c c' []. unfold c_constant. cbn. split; [done|]. rewrite x_gi0. xsplit. Qed.
Lemma x_not a : xkeeps (fun c => c_not c a).
Proof.
  intros c c' H. destruct (x_add_gate (GNot a) c c' H) as [E1 E2]. unfold c_not. destruct (add_gate c _) as [g c1], (add_gate c' _) as [g' c1'].
  cbn in *. subst g'. split; [done|]. by apply x_bump, x_dependence.
Qed.
Lemma x_binary gt a b : xkeeps (fun c => c_binary c gt a b).
Proof.
  intros c c' H. destruct (x_add_gate gt c c' H) as [E1 E2]. unfold c_binary. destruct (add_gate c _) as [g c1], (add_gate c' _) as [g' c1'].
  cbn in *. subst g'. split; [done|]. by apply x_bump, x_dependence, x_dependence.
Qed.
Lemma x_equivalent a b : xkeeps (fun c => c_equivalent c a b).
Proof.
  intros c c' H. destruct (x_binary (GXor a b) a b c c' H) as [E1 E2]. unfold c_equivalent, c_xor.
  destruct (c_binary c _ _ _) as [g c1], (c_binary c' _ _ _) as [g' c1']. cbn in E1, E2. subst g'. by apply (x_not g).
Qed.
Lemma x_identity a : xkeeps (fun c => c_identity c a).
Proof.
  intros c c' H. destruct (x_not a c c' H) as [E1 E2]. unfold c_identity.
  destruct (c_not c _) as [g c1], (c_not c' _) as [g' c1']. cbn in E1, E2. subst g'. by apply (x_not g).
Qed.
Lemma x_output g : xkeeps (fun c => c_output c g).
Proof.
  intros c c' H. pose proof (x_g c c' H g) as Hg. unfold c_output.
  destruct (gate_map c !! g) as [gt|], (gate_map c' !! g) as [gt'|] eqn:G; try done. destruct H. cbn. split; [by rewrite x_ol0|]. rewrite x_ol0. xsplit.
  - intros w. destruct (decide (w = output_len c')) as [->|]; [rewrite !lookup_insert; done|rewrite !lookup_insert_ne by done; apply x_out0].
  - intros HK. by rewrite (x_eqo0 HK).
  - intros w o. destruct (decide (w = output_len c')) as [->|]; [rewrite lookup_insert; intros [= <-]; eauto|rewrite lookup_insert_ne by done; apply x_ex0].
Qed.
Lemma x_module_gates il ol ids mid i k : xkeeps (fun c => add_module_gates c il ol ids mid i k).
Proof.
  revert i. induction k as [|k IH]; intros i c c' H; cbn [add_module_gates]; [done|].
  destruct (x_add_gate (GModule il ol ids i mid) c c' H) as [E1 E2]. destruct (add_gate c _) as [g c1], (add_gate c' _) as [g' c1'].
  cbn in E1, E2. subst g'. destruct (IH (i + 1) c1 c1' E2) as [E3 E4].
  destruct (add_module_gates c1 _ _ _ _ _ _), (add_module_gates c1' _ _ _ _ _ _). cbn in *. by subst.
Qed.
Lemma x_module_deps ids outs c c' : xc c c' -> xc (add_module_deps c ids outs) (add_module_deps c' ids outs).
Proof.
  unfold add_module_deps. revert c c'. induction ids as [|i ids IH]; intros c c' H; cbn [fold_left]; [done|]. apply IH. clear IH. revert c c' H.
  induction outs as [|o outs IH]; intros c c' H; cbn [fold_left]; [done|]. apply IH. by apply x_dependence.
Qed.
Lemma x_module md c c' m m' mid ids : xc c c' -> xc m m' ->
  match c_module md c m mid ids, c_module md c' m' mid ids with
  | Some (outs, d), Some (outs', d') => outs = outs' /\ xc d d'
  | None, None => True
  | _, _ => False
  end.
Proof.
  intros H Hm. unfold c_module. rewrite (x_il m m' Hm), (x_ol m m' Hm), (x_nw m m' Hm), (x_ng m m' Hm), (x_nc m m' Hm). set (d := (num_wire m' - _ - _)%Z).
  set (c1 := Circuit (input_map c) _ _ _ _ _ _ _ _ _ _ _). set (c1' := Circuit (input_map c') _ _ _ _ _ _ _ _ _ _ _).
  assert (HR1 : xc c1 c1') by (destruct H; unfold c1, c1'; xsplit).
  destruct (x_module_gates (input_len m') (output_len m') ids mid 0 (N.to_nat (output_len m')) c1 c1' HR1) as [E1 E2].
  destruct (add_module_gates c1 _ _ _ _ _ _) as [outs c2], (add_module_gates c1' _ _ _ _ _ _) as [outs' c2']. cbn in E1, E2. subst outs'.
  destruct md, (d <? 0)%Z; try done; split; try done; by apply x_module_deps.
Qed.
Notation xh := (hrel xc).
Lemma x_get_module l mid : both xc (r_get_module l mid) (r_get_module l mid).
Proof.
  apply both_circ. intros c c' H. rewrite (x_st c c' H). apply both_bind; [apply both_stor|]. intros x.
  destruct (module_map x !! mid); [apply both_ret|apply both_err].
Qed.
Lemma x_op md o : both xc (run_op md o) (run_op md o).
Proof.
  destruct o; cbn [run_op]; apply both_as.
  - intros h h' [H Hs]. unfold alloc_stor, hrel. cbn. by rewrite Hs.
  - apply both_bind; [apply both_stor|]. intros _. apply both_alloc, xc_new.
  - apply both_circ. intros c c' H. by apply both_alloc.
  - apply both_on, x_input.
  - apply both_bind; [|intros; apply both_lift]. apply both_on, x_output.
  - apply both_on, x_constant.
  - apply both_on, x_not.
  - apply both_on, x_binary.
  - apply both_on, x_binary.
  - apply both_on, x_binary.
  - apply both_on, x_equivalent.
  - apply both_on, x_identity.
  - apply both_circ. intros c c' H. apply both_circ. intros m m' Hm. rewrite (x_st c c' H). apply both_register.
  - apply both_circ. intros c c' H. rewrite (x_st c c' H).
    apply both_bind; [apply both_stor|]. intros _. apply both_bind; [apply both_alloc, xc_new|]. intros l'.
    apply both_bind; [apply both_register|]. intros mid. apply both_ret.
  - apply both_bind; [apply x_get_module|]. intros l'. destruct (decide (l' = l)); [apply both_panic|].
    apply both_circ. intros m m' Hm. apply both_circ. intros c c' H. pose proof (x_module md c c' m m' mid ids H Hm) as Hx.
    destruct (c_module md c m mid ids) as [[outs d]|], (c_module md c' m' mid ids) as [[outs' d']|]; try done.
    destruct Hx as [-> Hx]. apply both_bind; [by apply both_put|]. intros _. apply both_ret.
  - apply both_circ. intros m m' Hm. apply both_register.
Qed.
Lemma x_patch_circ (f : circuit -> circuit) l h h' : xh h h' -> (forall c c', h_circ h' !! l = Some c' -> xc c c' -> xc c (f c')) ->
  xh h (Heap (alter f l (h_circ h')) (h_stor h')).
Proof.
  intros [H Hs] Hf. split; [|exact Hs]. cbn. apply Forall2_same_length_lookup in H as [Hl H]. apply Forall2_same_length_lookup. split.
  - by rewrite alter_length.
  - intros i c c' Ec Ec'. apply alter_cases in Ec'. destruct Ec' as [(<- & c0 & E0 & ->)|[? E0]]; [|by eapply H]. apply Hf; [done|]. by eapply H.
Qed.
Lemma x_patch md h h' p : xh h h' -> fair_one h' p -> (forall o, p <> PCall o) -> (K = true -> forall l w g, p <> POutput l w g) -> xh h (do_patch md h' p).
Proof.
  intros H Hf Hn HK. destruct p as [o|l g gt|l w g]; [by destruct (Hn o)| |]; cbn [do_patch]; apply x_patch_circ; try done.
  - intros c c' E X. destruct Hf as (gt0 & Hg & Hx). unfold get_gate, on, c_get_gate in Hg. rewrite E in Hg.
    destruct (gate_map c' !! g) as [gt1|] eqn:G; [|done]. injection Hg as ->. pose proof (x_g c c' X) as Xg. destruct X. unfold set_gate. xsplit.
    intros g'. destruct (decide (g' = g)) as [->|]; [rewrite lookup_insert|by rewrite lookup_insert_ne by done].
    eapply xg_trans; [apply Xg|]. rewrite G. cbn. auto.
  - intros c c' E X. destruct Hf as ((g0 & Ho) & gt & Hg). unfold output_gate, get_gate, on, c_get_gate, c_output_to_gate_id in Ho, Hg. rewrite E in Ho, Hg.
    destruct (gate_map c' !! g) as [gt1|] eqn:G; [|done]. destruct (output_map c' !! w) as [g1|] eqn:O; [|done]. destruct X. unfold set_output. xsplit.
    + intros w'. rewrite x_out0. destruct (decide (w' = w)) as [->|]; [rewrite lookup_insert, O|by rewrite lookup_insert_ne by done]. split; eauto.
    + intros HK'. by destruct (HK HK' l w g).
    + intros w' o. destruct (decide (w' = w)) as [->|]; [rewrite lookup_insert; intros [= <-]; eauto|rewrite lookup_insert_ne by done; apply x_ex0].
Qed.
Lemma x_run md ps : forall h h', xh h h' -> fair md h' ps -> (K = true -> forall l w g, POutput l w g ∉ ps) ->
  xh (fold_left (step md) (calls_in ps) h) (fold_left (do_patch md) ps h') /\
  replies md h' ps = replies md h (map PCall (calls_in ps)).
Proof.
  induction ps as [|p ps IH]; intros h h' H; [done|]. cbn [fair]. intros [Hf Hr] HK.
  assert (HK' : K = true -> forall l w g, POutput l w g ∉ ps) by (intros E l w g Hin; apply (HK E l w g); by right). destruct p as [o|l g gt|l w g].
  - destruct (x_op md o h h' H) as [E1 E2]. destruct (IH _ _ E2 Hr HK') as [E3 E4]. split; [exact E3|]. cbn. f_equal; [symmetry; exact E1|exact E4].
  - exact (IH _ _ (x_patch md h h' (PGate l g gt) H Hf ltac:(done) ltac:(done)) Hr HK').
  - refine (IH _ _ (x_patch md h h' (POutput l w g) H Hf ltac:(done) _) Hr HK'). intros E l' w' g' [= -> -> ->]. apply (HK E l' w' g'). left.
Qed.

(** ** The invariants *)
Lemma exchange_sym gt gt' : exchange gt gt' -> exchange gt' gt.
Proof. intros [(x & y & -> & ->)|(a & b & H1 & [H2|H2])]; [left; eauto|right; exists a, b; auto|right; exists b, a; auto]. Qed.
Lemma exchange_operands gt gt' a : exchange gt gt' -> occ a (operands gt) = occ a (operands gt').
Proof.
  intros [(x & y & -> & ->)|(p & q & H1 & H2)]; [done|]. assert (Ho : operands gt = [p; q]) by (destruct gt; cbn in H1; try done; by injection H1 as -> ->).
  rewrite Ho. destruct H2 as [H2|H2].
  - assert (Ho' : operands gt' = [p; q]) by (destruct gt'; cbn in H2; try done; by injection H2 as -> ->). by rewrite Ho'.
  - assert (Ho' : operands gt' = [q; p]) by (destruct gt'; cbn in H2; try done; by injection H2 as -> ->). rewrite Ho'.
    unfold occ. cbn. destruct (N.eq_dec p a), (N.eq_dec q a); done.
Qed.
Lemma exchange_in gt gt' a : exchange gt gt' -> a ∈ operands gt <-> a ∈ operands gt'.
Proof.
  intros H. pose proof (exchange_operands gt gt' a H) as Ho. unfold occ in Ho. rewrite !elem_of_list_In, !(count_occ_In N.eq_dec). lia.
Qed.
Lemma exchange_plain gt gt' : exchange gt gt' -> is_module gt = false /\ is_module gt' = false /\ is_const gt = is_const gt' /\ is_logic gt = is_logic gt' /\
  gate_oi gt = 0 /\ gate_oi gt' = 0 /\ (forall w, gt <> GInput w) /\ (forall w, gt' <> GInput w).
Proof.
  intros [(x & y & -> & ->)|(p & q & H1 & H2)]; [done|]. destruct gt; cbn in H1; try done; destruct gt'; cbn in H2; destruct H2 as [H2|H2]; done.
Qed.
Lemma x_gate c c' g gt : xc c c' -> gate_map c !! g = Some gt -> exists gt', gate_map c' !! g = Some gt' /\ (gt = gt' \/ exchange gt gt').
Proof. intros X G. pose proof (x_g c c' X g) as H. rewrite G in H. destruct (gate_map c' !! g); [|done]. eauto. Qed.
Lemma x_gate_r c c' g gt' : xc c c' -> gate_map c' !! g = Some gt' -> exists gt, gate_map c !! g = Some gt /\ (gt = gt' \/ exchange gt gt').
Proof. intros X G. pose proof (x_g c c' X g) as H. rewrite G in H. destruct (gate_map c !! g); [|done]. eauto. Qed.
Lemma x_kept c c' g gt : xc c c' -> (is_module gt = true \/ exists w, gt = GInput w) -> gate_map c !! g = Some gt <-> gate_map c' !! g = Some gt.
Proof.
  intros X Hk. split; intros G.
  - destruct (x_gate c c' g gt X G) as (gt' & G' & [->|H]); [done|]. apply exchange_plain in H as (H1 & H2 & _ & _ & _ & _ & H3 & _).
    destruct Hk as [Hk|[w Hk]]; [congruence|by destruct (H3 w)].
  - destruct (x_gate_r c c' g gt X G) as (gt' & G' & [->|H]); [done|]. apply exchange_plain in H as (H1 & H2 & _ & _ & _ & _ & _ & H3).
    destruct Hk as [Hk|[w Hk]]; [congruence|by destruct (H3 w)].
Qed.
Lemma x_mod c c' g il ol ids oi mid : xc c c' -> gate_map c !! g = Some (GModule il ol ids oi mid) <-> gate_map c' !! g = Some (GModule il ol ids oi mid).
Proof. intros X. apply (x_kept c c' g _ X). by left. Qed.
Lemma x_inp c c' g w : xc c c' -> gate_map c !! g = Some (GInput w) <-> gate_map c' !! g = Some (GInput w).
Proof. intros X. apply (x_kept c c' g _ X). right. eauto. Qed.
Lemma x_contrib c c' g d : xc c c' -> contrib (gate_map c) g d = contrib (gate_map c') g d.
Proof.
  intros X. unfold contrib. pose proof (x_g c c' X d) as H. destruct (gate_map c !! d) as [gt|], (gate_map c' !! d) as [gt'|]; try done.
  destruct H as [->|H]; [done|]. pose proof (exchange_operands gt gt' g H) as Ho. apply exchange_plain in H as (H1 & H2 & _).
  destruct gt; cbn in H1; try done; destruct gt'; cbn in H2; try done; by rewrite Ho.
Qed.
Lemma x_const_at c c' d : xc c c' -> const_at (gate_map c) d = const_at (gate_map c') d.
Proof.
  intros X. unfold const_at. pose proof (x_g c c' X d) as H. destruct (gate_map c !! d) as [gt|], (gate_map c' !! d) as [gt'|]; try done.
  destruct H as [->|H]; [done|]. by apply exchange_plain in H as (_ & _ & H & _).
Qed.
Lemma filter_ext_all {A} (f g : A -> bool) xs : (forall x, f x = g x) -> List.filter f xs = List.filter g xs.
Proof. intros H. induction xs as [|x xs IH]; [done|]. cbn. by rewrite H, IH. Qed.
Lemma x_cwf c c' : cwf c -> xc c c' -> cwf c'.
Proof.
  intros W X. split.
  - intros g. rewrite <- (x_gi c c' X), <- (wf_gates c W). symmetry. apply xg_some, X.
  - intros w. rewrite <- (x_il c c' X). intros Hw. destruct (wf_inputs c W w Hw) as (g & E1 & E2). exists g. rewrite <- (x_in c c' X).
    split; [done|]. by apply (x_inp c c').
  - intros w. rewrite <- (x_il c c' X), <- (x_in c c' X). apply W.
  - intros g w G. rewrite <- (x_in c c' X). apply (wf_input_gates c W). by apply (x_inp c c').
  - intros w. rewrite <- (x_ol c c' X). intros Hw. destruct (wf_outputs c W w Hw) as (g & E1 & _). destruct (proj1 (x_out c c' X w)) as [g' E']; [eauto|].
    exists g'. split; [done|]. by eapply (x_ex c c').
  - intros w. rewrite <- (x_ol c c' X). intros Hw. apply eq_None_not_Some. rewrite <- (x_out c c' X). rewrite (wf_outputs_none c W w Hw). by intros [? ?].
  - rewrite <- (x_cg c c' X), <- (x_gi c c' X), (wf_consts c W). apply filter_ext_all. intros. by apply x_const_at.
  - intros g. unfold c_get_depended_gates. rewrite <- (x_dep c c' X), <- (x_gi c c' X). etrans; [apply (wf_deps c W)|].
    apply flat_map_ext_in. intros. by apply x_contrib.
  - intros g il ol ids oi mid G. apply (x_mod c c') in G; [|done]. destruct (wf_blocks c W _ _ _ _ _ _ G) as (B1 & B2 & B3). split; [done|]. split; [done|].
    intros j Hj. apply (x_mod c c'); auto.
  - rewrite <- (x_nw c c' X), <- (x_il c c' X), <- (x_nc c c' X), <- (x_ng c c' X). apply W.
Qed.
Lemma xh_l h h' l c : xh h h' -> h_circ h !! l = Some c -> exists c', h_circ h' !! l = Some c' /\ xc c c'.
Proof. intros [H _] E. by apply (Forall2_lookup_l _ _ _ _ _ H E). Qed.
Lemma xh_r h h' l c' : xh h h' -> h_circ h' !! l = Some c' -> exists c, h_circ h !! l = Some c /\ xc c c'.
Proof. intros [H _] E. by apply (Forall2_lookup_r _ _ _ _ _ H E). Qed.
Lemma x_hinv h h' : hinv h -> xh h h' -> hinv h'.
Proof.
  intros H X. pose proof (proj2 X) as Hs. split.
  - intros l c' E'. destruct (xh_r _ _ _ _ X E') as (c & E & Xc). eapply x_cwf; [by eapply hi_circ|done].
  - intros l c' E'. destruct (xh_r _ _ _ _ X E') as (c & E & Xc). rewrite <- Hs, <- (x_st c c' Xc). by eapply hi_stor.
  - intros s x. rewrite <- Hs. intros S mid. destruct (hi_mods h H s x S mid) as [H1 H2]. split; [|done]. intros Hm.
    destruct (H1 Hm) as (l' & c & M & E). destruct (xh_l _ _ _ _ X E) as (c' & E' & _). eauto.
  - intros l c' g il ol ids oi mid E' G. destruct (xh_r _ _ _ _ X E') as (c & E & Xc). apply (x_mod c c') in G; [|done].
    destruct (hi_calls h H _ _ _ _ _ _ _ _ E G) as (x & l' & m & S & M & Em & Hi & Ho). destruct (xh_l _ _ _ _ X Em) as (m' & Em' & Xm).
    exists x, l', m'. rewrite <- Hs, <- (x_st c c' Xc), <- (x_il m m' Xm), <- (x_ol m m' Xm). done.
Qed.
Lemma x_calls h h' c c' l' : xh h h' -> xc c c' -> calls h c l' <-> calls h' c' l'.
Proof.
  intros X Xc. unfold calls. rewrite <- (proj2 X), <- (x_st c c' Xc). split; intros (g & il & ol & ids & oi & mid & x & G & S & M);
    exists g, il, ol, ids, oi, mid, x; (split; [|done]); by apply (x_mod c c').
Qed.
Lemma x_dinv h h' : dinv h -> xh h h' -> dinv h'.
Proof.
  intros D X. split.
  - eapply x_hinv; [apply D|done].
  - intros l c' E'. destruct (xh_r _ _ _ _ X E') as (c & E & Xc). pose proof (di_disc h D l c E) as Dc. split.
    + intros g gt' a G' Ha. destruct (x_gate_r c c' g gt' Xc G') as (gt & G & [<-|Hx]); [by eapply (d_ops h c Dc)|].
      apply (exchange_in _ _ _ Hx) in Ha. pose proof (d_ops h c Dc g gt a G Ha). apply exchange_plain in Hx as (_ & _ & _ & _ & O1 & O2 & _). lia.
    + intros g il ol ids oi mid x l' m' G' S M Em'. destruct (xh_r _ _ _ _ X Em') as (m & Em & Xm). apply (x_mod c c') in G'; [|done].
      rewrite <- (proj2 X), <- (x_st c c' Xc) in S. rewrite <- (x_il m m' Xm), <- (x_ol m m' Xm). by eapply (d_arity h c Dc).
  - destruct (di_rank h D) as [rank Hr]. exists rank. intros l c' l' E' C. destruct (xh_r _ _ _ _ X E') as (c & E & Xc).
    eapply Hr; [done|]. by apply (x_calls h h' c c').
Qed.
Lemma x_weight own (f : circuit -> N) h h' c c' g : (forall gt gt', exchange gt gt' -> own gt = own gt') -> (forall m m', xc m m' -> f m = f m') ->
  xh h h' -> xc c c' -> weight own f h c g = weight own f h' c' g.
Proof.
  intros Ho Hf X Xc. unfold weight. pose proof (x_g c c' Xc g) as H. destruct (gate_map c !! g) as [gt|], (gate_map c' !! g) as [gt'|]; try done.
  destruct H as [<-|H].
  - destruct gt; try done. destruct (_ =? 0); [|done]. unfold callee. rewrite <- (proj2 X), <- (x_st c c' Xc).
    destruct (h_stor h !! c_storage c) as [x|]; [|done]. destruct (module_map x !! mid) as [l'|]; [|done].
    destruct (h_circ h !! l') as [m|] eqn:Em.
    + destruct (xh_l _ _ _ _ X Em) as (m' & -> & Xm). by apply Hf.
    + destruct (h_circ h' !! l') as [m'|] eqn:Em'; [|done]. destruct (xh_r _ _ _ _ X Em') as (m & ? & _). congruence.
  - specialize (Ho _ _ H). apply exchange_plain in H as (H1 & H2 & _). destruct gt; cbn in H1; try done; destruct gt'; cbn in H2; try done; by rewrite Ho.
Qed.
Lemma x_cinv h h' : cinv h -> xh h h' -> cinv h'.
Proof.
  intros C X l c' E'. destruct (xh_r _ _ _ _ X E') as (c & E & Xc). destruct (C l c E) as [C1 C2].
  unfold counted. rewrite <- (x_ng c c' Xc), <- (x_nc c c' Xc), <- (x_gi c c' Xc). split; [rewrite C1|rewrite C2]; apply nsum_ext; intros g _.
  - apply x_weight; try done; [intros gt gt' H; by apply exchange_plain in H as (_ & _ & _ & H & _)|intros m m' Xm; apply Xm].
  - apply x_weight; try done; [intros gt gt' H; by apply exchange_plain in H as (_ & _ & H & _)|intros m m' Xm; apply Xm].
Qed.
Lemma x_blk c c' g : xc c c' -> blk c g = blk c' g.
Proof.
  intros X. unfold blk. pose proof (x_g c c' X g) as H. destruct (gate_map c !! g) as [gt|], (gate_map c' !! g) as [gt'|]; try done.
  destruct H as [<-|H]; [done|]. apply exchange_plain in H as (H1 & H2 & _). destruct gt; cbn in H1; try done; by destruct gt'.
Qed.
Lemma x_touch c c' g x : xc c c' -> touch c' g x -> touch c g x.
Proof.
  intros X. induction 1 as [g x Hx|g gt' a x G Ha T IH]; [left; by rewrite (x_blk c c')|].
  destruct (x_gate_r c c' g gt' X G) as (gt & G' & [->|Hx]); eapply touch_oper; eauto. by apply (exchange_in _ _ _ Hx).
Qed.
Lemma x_evaluable h h' l : K = true -> xh h h' -> evaluable h l -> evaluable h' l.
Proof.
  intros HK X. induction 1 as [l c E Ho Hc IH]. destruct (xh_l _ _ _ _ X E) as (c' & E' & Xc). econstructor; [exact E'| |].
  - intros k o O. rewrite <- (x_eqo c c' Xc HK) in O. unfold output_fine, deps, c_get_depended_gates. rewrite <- (x_dep c c' Xc).
    destruct (Ho k o O) as [H1|(d & H1 & H2)]; [by left|]. right. exists d. split; [exact H1|]. destruct H2 as [(gt & G & Hoi)|H2].
    + left. exists gt. split; [|done]. destruct (x_gate c c' d gt Xc G) as (gt' & G' & [->|Hx]); [done|]. by apply exchange_plain in Hx as (_ & _ & _ & _ & Hx & _).
    + right. intros k' o' Hlt O' T. rewrite <- (x_eqo c c' Xc HK) in O'. apply (H2 k' o' Hlt O'). by apply (x_touch c c').
  - intros l' C. apply IH. by apply (x_calls h h' c c').
Qed.
End kind.
Lemma run_patched K md ps : fair md heap_empty ps -> (K = true -> forall l w g, POutput l w g ∉ ps) -> hrel (xc K) (run md (calls_in ps)) (patched md ps).
Proof. intros H HK. apply x_run; [split; [constructor|done]|done|done]. Qed.
Lemma xh_patched md ps : fair md heap_empty ps -> hrel (xc false) (run md (calls_in ps)) (patched md ps).
Proof. intros H. by apply run_patched. Qed.
Lemma hinv_patched md ps : fair md heap_empty ps -> hinv (patched md ps).
Proof. intros H. eapply x_hinv; [apply run_hinv|by apply xh_patched]. Qed.
Lemma dinv_patched md ps : fair md heap_empty ps -> disciplined md heap_empty (calls_in ps) -> dinv (patched md ps).
Proof. intros H D. eapply x_dinv; [by apply dinv_run|by apply xh_patched]. Qed.
Lemma cinv_patched md ps : fair md heap_empty ps -> disciplined md heap_empty (calls_in ps) -> cinv (patched md ps).
Proof. intros H D. eapply x_cinv; [by apply cinv_run|by apply xh_patched]. Qed.

(** * C93 *)
(** Every answer, and everything but the gates exchanged and the outputs, is as if the caller had only made the calls. *)
Theorem C93_calls md ps : fair md heap_empty ps -> replies md heap_empty ps = replies md heap_empty (map PCall (calls_in ps)) /\
  forall l, inputs_of (patched md ps) l = inputs_of (run md (calls_in ps)) l /\ outputs_of (patched md ps) l = outputs_of (run md (calls_in ps)) l /\
    (forall g, consumers (patched md ps) l g = consumers (run md (calls_in ps)) l g) /\
    (forall mid, get_module (patched md ps) l mid = get_module (run md (calls_in ps)) l mid) /\
    forall g gt, get_gate (run md (calls_in ps)) l g = Ok gt -> exists gt', get_gate (patched md ps) l g = Ok gt' /\ (gt = gt' \/ exchange gt gt').
Proof.
  intros Hf. destruct (x_run false md ps heap_empty heap_empty) as [X R]; [split; [constructor|done]|done|done|]. split; [exact R|]. fold (patched md ps) in X.
  change (fold_left (step md) (calls_in ps) heap_empty) with (run md (calls_in ps)) in X. intros l. split; [|split; [|split; [|split]]].
  - unfold inputs_of, on. destruct (h_circ (run md (calls_in ps)) !! l) as [c|] eqn:E; [destruct (xh_l _ _ _ _ _ X E) as (c' & -> & Xc); by rewrite (x_il _ _ _ Xc)|].
    destruct (h_circ (patched md ps) !! l) as [c'|] eqn:E'; [|done]. destruct (xh_r _ _ _ _ _ X E') as (c & ? & _). congruence.
  - unfold outputs_of, on. destruct (h_circ (run md (calls_in ps)) !! l) as [c|] eqn:E; [destruct (xh_l _ _ _ _ _ X E) as (c' & -> & Xc); by rewrite (x_ol _ _ _ Xc)|].
    destruct (h_circ (patched md ps) !! l) as [c'|] eqn:E'; [|done]. destruct (xh_r _ _ _ _ _ X E') as (c & ? & _). congruence.
  - intros g. unfold consumers, on, c_get_depended_gates.
    destruct (h_circ (run md (calls_in ps)) !! l) as [c|] eqn:E; [destruct (xh_l _ _ _ _ _ X E) as (c' & -> & Xc); by rewrite (x_dep _ _ _ Xc)|].
    destruct (h_circ (patched md ps) !! l) as [c'|] eqn:E'; [|done]. destruct (xh_r _ _ _ _ _ X E') as (c & ? & _). congruence.
  - intros mid. symmetry. exact (proj1 (x_get_module false l mid _ _ X)).
  - intros g gt. unfold get_gate, on, c_get_gate. destruct (h_circ (run md (calls_in ps)) !! l) as [c|] eqn:E; [|done].
    destruct (xh_l _ _ _ _ _ X E) as (c' & -> & Xc). destruct (gate_map c !! g) as [gt0|] eqn:G; [|done]. intros [= ->].
    destruct (x_gate _ _ _ _ _ Xc G) as (gt' & -> & Hx). eauto.
Qed.
(** Evaluation computes the functions of the gates now there, in every circuit, of any history. *)
Theorem C93_sound md md' ps fuel l inputs outs : fair md heap_empty ps -> eval_output md' (patched md ps) fuel l inputs = Ok outs ->
  outputs_of (patched md ps) l = Ok (N.of_nat (length outs)) /\
  forall k b, outs !! k = Some b -> outv (patched md ps) l (env_of inputs) (N.of_nat k) b.
Proof.
  intros Hf Ev. destruct (eval_sound md' _ (hinv_patched md ps Hf) _ _ _ _ Ev) as (c & E & Hl & Ho). split; [|exact Ho].
  unfold outputs_of, on. by rewrite E, Hl.
Qed.
(** It succeeds where it would for a circuit built like that. *)
Theorem C93_complete md md' ps l : fair md heap_empty ps -> disciplined md heap_empty (calls_in ps) -> evaluable (patched md ps) l ->
  exists F, forall fuel inputs, (F <= fuel)%nat -> inputs_of (run md (calls_in ps)) l = Ok (N.of_nat (length inputs)) ->
    exists outs, eval_output md' (patched md ps) fuel l inputs = Ok outs /\
      outputs_of (patched md ps) l = Ok (N.of_nat (length outs)) /\
      forall k b, outs !! k = Some b -> outv (patched md ps) l (env_of inputs) (N.of_nat k) b.
Proof.
  intros Hf D Ev. destruct (eval_complete md' _ l (dinv_patched md ps Hf D) Ev) as [F HF]. exists F. intros fuel inputs Hfu Hl.
  destruct (C93_calls md ps Hf) as [_ H]. destruct (H l) as [Hi _]. rewrite <- Hi in Hl. unfold inputs_of, on in Hl.
  destruct (h_circ (patched md ps) !! l) as [c|] eqn:E; [|done]. injection Hl as Hl. destruct (HF fuel c inputs eq_refl Hfu (eq_sym Hl)) as [outs Eo].
  exists outs. split; [exact Eo|]. by eapply C93_sound.
Qed.
(** When only gates are exchanged, a circuit evaluates if it would without the exchanges. *)
Theorem C93_gates md md' ps l : fair md heap_empty ps -> (forall l w g, POutput l w g ∉ ps) -> disciplined md heap_empty (calls_in ps) ->
  evaluable (run md (calls_in ps)) l ->
  exists F, forall fuel inputs, (F <= fuel)%nat -> inputs_of (run md (calls_in ps)) l = Ok (N.of_nat (length inputs)) ->
    exists outs, eval_output md' (patched md ps) fuel l inputs = Ok outs /\
      outputs_of (patched md ps) l = Ok (N.of_nat (length outs)) /\
      forall k b, outs !! k = Some b -> outv (patched md ps) l (env_of inputs) (N.of_nat k) b.
Proof.
  intros Hf Hn D Ev. apply C93_complete; [done|done|]. eapply (x_evaluable true); [done|by apply run_patched|done].
Qed.
(** Writing always succeeds, and the text computes the functions of the gates now there. *)
Theorem C93_text md ps l c first : fair md heap_empty ps -> disciplined md heap_empty (calls_in ps) -> h_circ (patched md ps) !! l = Some c ->
  first <= input_len c + num_const c -> exists vals wog text st, writes (patched md ps) first (writer_new l) vals wog text st /\
  (sized c 0 -> exists p, parse_prog text = Some p /\ N.of_nat (length vals) <= num_const c /\ (forall k o, output_map c !! k = Some o -> is_Some (wog !! o)) /\
    forall q inputs pad, N.of_nat (length inputs) = input_len c -> N.of_nat (length (vals ++ pad)) = num_const c ->
      exists e, exec_lines q (load_from 0 (inputs ++ vals ++ pad)) (pr_lines p) = Some e /\
        forall g w, wog !! g = Some w -> exists b, e !! w = Some b /\ gv (patched md ps) l (env_of inputs) g b).
Proof.
  intros Hf D E Hfi. pose proof (dinv_patched md ps Hf D) as Dh. pose proof (cinv_patched md ps Hf D) as Ch.
  destruct (writes_ok _ l c first (writer_new l) Dh Ch E eq_refl Hfi) as (gls & vals & wog & st & H & _).
  exists vals, wog, (show_prog (wprog c first gls)), st. split; [exact H|].
  destruct (writes_inv _ l c first (writer_new l) _ _ _ _ Dh Ch E eq_refl Hfi H) as (gls' & _ & Hp & _ & _ & O). intros Hs.
  exists (wprog c first gls'). split; [by apply Hp|]. split; [apply (wr_consts _ _ _ _ _ _ _ O)|]. split; [apply (wr_outs _ _ _ _ _ _ _ O)|]. intros q inputs pad Hi Hpad.
  destruct (wr_sound _ _ _ _ _ _ _ O q inputs (load_from 0 (inputs ++ vals ++ pad)) Hi) as (e & He & _ & Hr).
  - intros i b. apply (loaded_at inputs vals pad).
  - intros i b. rewrite <- Hi. apply (loaded_at inputs vals pad).
  - exists e. split; done.
Qed.

(** ** What keeps its value *)
Lemma gg h l g gt : get_gate h l g = Ok gt <-> exists c, h_circ h !! l = Some c /\ gate_map c !! g = Some gt.
Proof.
  unfold get_gate, on, c_get_gate. destruct (h_circ h !! l) as [c|]; [|split; [done|intros (? & ? & _); done]].
  destruct (gate_map c !! g) as [gt'|] eqn:G.
  - split; [intros [= ->]; eauto|intros (c1 & [= <-] & H); congruence].
  - split; [done|intros (c1 & [= <-] & H); congruence].
Qed.
Lemma og h l w g : output_gate h l w = Ok g <-> exists c, h_circ h !! l = Some c /\ output_map c !! w = Some g.
Proof.
  unfold output_gate, on, c_output_to_gate_id. destruct (h_circ h !! l) as [c|]; [|split; [done|intros (? & ? & _); done]].
  destruct (output_map c !! w) as [g'|] eqn:G.
  - split; [intros [= ->]; eauto|intros (c1 & [= <-] & H); congruence].
  - split; [done|intros (c1 & [= <-] & H); congruence].
Qed.
Lemma gmod h l mid m : get_module h l mid = Ok m <-> exists c x, h_circ h !! l = Some c /\ h_stor h !! c_storage c = Some x /\ module_map x !! mid = Some m.
Proof.
  unfold get_module, r_get_module, get_circ, get_stor, st_bind. destruct (h_circ h !! l) as [c|]; [|split; [done|intros (? & ? & ? & _); done]].
  cbn. destruct (h_stor h !! c_storage c) as [x|] eqn:S.
  - destruct (module_map x !! mid) as [m'|] eqn:M.
    + split; [intros [= ->]; eauto|intros (c1 & x1 & [= <-] & S1 & M1)]. cbn. congruence.
    + split; [done|intros (c1 & x1 & [= <-] & S1 & M1)]. congruence.
  - split; [done|intros (c1 & x1 & [= <-] & S1 & M1)]. congruence.
Qed.
Section keep.
Context (h h' : heap) (Hmod : forall l mid, get_module h' l mid = get_module h l mid).
Definition agree (p : nat * N) : Prop :=
  (forall l g, leads h p (l, g) -> get_gate h' l g = get_gate h l g) /\
  forall l g il ol ids oi mid m, leads h p (l, g) -> get_gate h l g = Ok (GModule il ol ids oi mid) -> get_module h l mid = Ok m -> output_gate h' m oi = output_gate h m oi.
Lemma agree_operand l g gt a : agree (l, g) -> get_gate h l g = Ok gt -> a ∈ operands gt -> agree (l, a).
Proof. intros [H1 H2] G Ha. split; intros; [apply H1|eapply H2]; eauto; by eapply leads_operand. Qed.
Lemma agree_call l g il ol ids oi mid m o : agree (l, g) -> get_gate h l g = Ok (GModule il ol ids oi mid) -> get_module h l mid = Ok m -> output_gate h m oi = Ok o -> agree (m, o).
Proof. intros [H1 H2] G M O. split; intros; [apply H1|eapply H2]; eauto; by eapply leads_call. Qed.
Lemma agree_self l g gt : agree (l, g) -> get_gate h' l g = Ok gt <-> get_gate h l g = Ok gt.
Proof. intros [H1 _]. rewrite (H1 l g); [done|constructor]. Qed.
Lemma keep_to l ρ g b : gv h l ρ g b -> agree (l, g) -> gv h' l ρ g b.
Proof using Hmod.
  intros H. induction H as [l ρ g c w b E G R|l ρ g c b E G|l ρ g c a x E G _ IH|l ρ g c a b x y E G _ IH1 _ IH2
    |l ρ g c a b x y E G _ IH1 _ IH2|l ρ g c a b x y E G _ IH1 _ IH2
    |l ρ g c il ol ids oi mid s l' c' o bits b E G S M E' O F IHF _ IH] using gv_ind'; intros A;
  assert (Gh := proj2 (gg h l g _) (ex_intro _ c (conj E G))); pose proof (proj2 (agree_self _ _ _ A) Gh) as Gh'; apply gg in Gh' as (c2 & E2 & G2).
  - by eapply gv_input.
  - by eapply gv_const.
  - eapply gv_not; eauto. apply IH. eapply agree_operand; [exact A|exact Gh|left].
  - eapply gv_xor; eauto; [apply IH1|apply IH2]; (eapply agree_operand; [exact A|exact Gh|]); [left|right; left].
  - eapply gv_and; eauto; [apply IH1|apply IH2]; (eapply agree_operand; [exact A|exact Gh|]); [left|right; left].
  - eapply gv_or; eauto; [apply IH1|apply IH2]; (eapply agree_operand; [exact A|exact Gh|]); [left|right; left].
  - assert (Hm : get_module h l mid = Ok l') by (apply gmod; eauto). assert (Ho : output_gate h l' oi = Ok o) by (apply og; eauto).
    pose proof (proj2 A l g _ _ _ _ _ l' (leads_refl _ _) Gh Hm) as Ho'. rewrite Ho in Ho'. pose proof Hm as Hm'. rewrite <- Hmod in Hm'.
    apply gmod in Hm' as (c3 & x3 & E3 & S3 & M3). apply og in Ho' as (c4 & E4 & O4). rewrite E2 in E3. injection E3 as <-.
    refine (gv_module h' l ρ g c2 il ol ids oi mid x3 l' c4 o bits b E2 G2 S3 M3 E4 O4 _ _).
    + assert (Hin : forall a, a ∈ ids -> agree (l, a)) by (intros a Ha; by eapply agree_operand; [exact A|exact Gh|]).
      clear -IHF Hin. induction IHF; constructor; [apply H, Hin; left|apply IHIHF; intros; apply Hin; by right].
    + apply IH. by eapply agree_call.
Qed.
Lemma keep_from l ρ g b : gv h' l ρ g b -> agree (l, g) -> gv h l ρ g b.
Proof using Hmod.
  intros H. induction H as [l ρ g c w b E G R|l ρ g c b E G|l ρ g c a x E G _ IH|l ρ g c a b x y E G _ IH1 _ IH2
    |l ρ g c a b x y E G _ IH1 _ IH2|l ρ g c a b x y E G _ IH1 _ IH2
    |l ρ g c il ol ids oi mid s l' c' o bits b E G S M E' O F IHF _ IH] using gv_ind'; intros A;
  assert (Gh' := proj2 (gg h' l g _) (ex_intro _ c (conj E G))); pose proof (proj1 (agree_self _ _ _ A) Gh') as Gh; pose proof Gh as Gx; apply gg in Gx as (c2 & E2 & G2).
  - by eapply gv_input.
  - by eapply gv_const.
  - eapply gv_not; eauto. apply IH. eapply agree_operand; [exact A|exact Gh|left].
  - eapply gv_xor; eauto; [apply IH1|apply IH2]; (eapply agree_operand; [exact A|exact Gh|]); [left|right; left].
  - eapply gv_and; eauto; [apply IH1|apply IH2]; (eapply agree_operand; [exact A|exact Gh|]); [left|right; left].
  - eapply gv_or; eauto; [apply IH1|apply IH2]; (eapply agree_operand; [exact A|exact Gh|]); [left|right; left].
  - assert (Hm : get_module h l mid = Ok l') by (rewrite <- Hmod; apply gmod; eauto). assert (Ho : output_gate h' l' oi = Ok o) by (apply og; eauto).
    rewrite (proj2 A l g _ _ _ _ _ l' (leads_refl _ _) Gh Hm) in Ho. pose proof Hm as Hm'.
    apply gmod in Hm' as (c3 & x3 & E3 & S3 & M3). pose proof Ho as Ho'. apply og in Ho' as (c4 & E4 & O4). rewrite E2 in E3. injection E3 as <-.
    refine (gv_module h l ρ g c2 il ol ids oi mid x3 l' c4 o bits b E2 G2 S3 M3 E4 O4 _ _).
    + assert (Hin : forall a, a ∈ ids -> agree (l, a)) by (intros a Ha; by eapply agree_operand; [exact A|exact Gh|]).
      clear -IHF Hin. induction IHF; constructor; [apply H, Hin; left|apply IHIHF; intros; apply Hin; by right].
    + apply IH. by eapply agree_call.
Qed.
End keep.
(** A gate that leads to no exchanged gate, and to no call of an output that was replaced, has the values it would have. *)
Theorem C93_untouched md ps l g : fair md heap_empty ps ->
  (forall l' g', leads (run md (calls_in ps)) (l, g) (l', g') -> get_gate (patched md ps) l' g' = get_gate (run md (calls_in ps)) l' g') ->
  (forall l' g' il ol ids oi mid m, leads (run md (calls_in ps)) (l, g) (l', g') -> get_gate (run md (calls_in ps)) l' g' = Ok (GModule il ol ids oi mid) ->
     get_module (run md (calls_in ps)) l' mid = Ok m -> output_gate (patched md ps) m oi = output_gate (run md (calls_in ps)) m oi) ->
  forall ρ b, gv (patched md ps) l ρ g b <-> gv (run md (calls_in ps)) l ρ g b.
Proof.
  intros Hf H1 H2 ρ b. destruct (C93_calls md ps Hf) as [_ H]. assert (Hmod : forall l mid, get_module (patched md ps) l mid = get_module (run md (calls_in ps)) l mid) by apply H.
  split; intros Hg; [eapply keep_from|eapply keep_to]; eauto; by split.
Qed.

(** * Examples *)
(** In the module of [demo], which is already called, XOR becomes AND with the operands in the other order, the constant becomes false, and AND
    becomes OR; two more calls; then the first output of the caller becomes the call itself. *)
Definition demo_gates : list patch := map PCall demo ++
  [PGate 1 2 (GAnd 1 0); PGate 1 4 (GConst false); PGate 1 5 (GOr 3 4); PCall (OpNot 0 3); PCall (OpOutput 0 4)].
Definition demo_patches : list patch := demo_gates ++ [POutput 0 0 2].
Definition on_two (md : mode) (h : heap) : list (res (list bool)) := map (eval_output md h 9 0) [ [false; false]; [false; true]; [true; false]; [true; true] ].
Lemma exchange_const x y : exchange (GConst x) (GConst y).
Proof. left. eauto. Qed.
Lemma exchange_two gt gt' a b : two gt = Some (a, b) -> two gt' = Some (a, b) \/ two gt' = Some (b, a) -> exchange gt gt'.
Proof. intros H1 H2. right. exists a, b. by split. Qed.
Lemma fair_app md ps qs h : fair md h ps -> fair md (fold_left (do_patch md) ps h) qs -> fair md h (ps ++ qs).
Proof. revert h. induction ps as [|p ps IH]; intros h; [intros _ H; exact H|]. cbn. intros [H1 H2] H3. split; [exact H1|by apply IH]. Qed.
Lemma fair_calls md ops h : fair md h (map PCall ops).
Proof. revert h. induction ops as [|o ops IH]; intros h; [exact Logic.I|]. cbn. split; [exact Logic.I|apply IH]. Qed.
Lemma fair_gate md l g gt0 gt ps h : get_gate h l g = Ok gt0 -> exchange gt0 gt -> fair md (do_patch md h (PGate l g gt)) ps -> fair md h (PGate l g gt :: ps).
Proof. intros H1 H2 H3. split; [exists gt0; by split|exact H3]. Qed.
Lemma demo_gates_fair md : fair md heap_empty demo_gates.
Proof.
  unfold demo_gates. apply fair_app; [apply fair_calls|].
  apply (fair_gate md 1 2 (GXor 0 1)); [destruct md; vm_compute; reflexivity|eapply exchange_two; [reflexivity|right; reflexivity]|].
  apply (fair_gate md 1 4 (GConst true)); [destruct md; vm_compute; reflexivity|apply exchange_const|].
  apply (fair_gate md 1 5 (GAnd 3 4)); [destruct md; vm_compute; reflexivity|eapply exchange_two; [reflexivity|left; reflexivity]|].
  apply (fair_calls md [OpNot 0 3; OpOutput 0 4]).
Qed.
Lemma demo_patches_fair md : fair md heap_empty demo_patches.
Proof.
  unfold demo_patches. apply fair_app; [apply demo_gates_fair|]. split; [|exact Logic.I]. split.
  - exists 3. destruct md; vm_compute; reflexivity.
  - exists (GModule 2 1 [0; 1] 0 0). destruct md; vm_compute; reflexivity.
Qed.
Example C93_example : forall md md', fair md heap_empty demo_patches /\ fair md heap_empty demo_gates /\ (forall l w g, POutput l w g ∉ demo_gates) /\
  disciplined md heap_empty (calls_in demo_gates) /\ disciplined md heap_empty (calls_in demo_patches) /\
  evaluable (run md (calls_in demo_gates)) 0 /\ evaluable (patched md demo_patches) 0 /\
  on_two md' (run md (calls_in demo_patches)) = [Ok [true; false]; Ok [false; true]; Ok [true; false]; Ok [true; false] ] /\
  on_two md' (patched md demo_gates) = [Ok [true; false]; Ok [true; false]; Ok [true; false]; Ok [true; false] ] /\
  on_two md' (patched md demo_patches) = [Ok [true; false]; Ok [true; false]; Ok [true; false]; Ok [false; false] ].
Proof.
  intros md md'. split; [apply demo_patches_fair|]. split; [apply demo_gates_fair|].
  split; [intros l w g Hin; unfold demo_gates, demo in Hin; cbn [map app] in Hin; apply elem_of_list_In in Hin; cbn in Hin; repeat (destruct Hin as [Hin|Hin]; [discriminate Hin|]); exact Hin|].
  assert (D1 : disciplined md heap_empty (calls_in demo_gates)) by (apply disciplined_b_sound; destruct md; vm_compute; reflexivity).
  assert (D2 : disciplined md heap_empty (calls_in demo_patches)) by (apply disciplined_b_sound; destruct md; vm_compute; reflexivity).
  split; [exact D1|]. split; [exact D2|].
  split; [apply (evaluable_b_sound _ 3); [by apply dinv_run|destruct md; vm_compute; reflexivity]|].
  split; [apply (evaluable_b_sound _ 3); [apply dinv_patched; [apply demo_patches_fair|exact D2]|destruct md; vm_compute; reflexivity]|].
  split; [destruct md, md'; vm_compute; reflexivity|]. split; destruct md, md'; vm_compute; reflexivity.
Qed.
(** The inputs of the module lead to themselves only: their values are those without the exchanges. *)
Example C93_example_untouched : forall md ρ b, gv (patched md demo_patches) 1 ρ 0 b <-> gv (run md (calls_in demo_patches)) 1 ρ 0 b.
Proof.
  intros md. assert (G : get_gate (run md (calls_in demo_patches)) 1 0 = Ok (GInput 0)) by (destruct md; vm_compute; reflexivity).
  assert (G' : get_gate (patched md demo_patches) 1 0 = Ok (GInput 0)) by (destruct md; vm_compute; reflexivity).
  assert (Hl : forall l' g', leads (run md (calls_in demo_patches)) (1%nat, 0) (l', g') -> l' = 1%nat /\ g' = 0).
  { intros l' g' L. inversion L as [p E1 E2|? ? gt a ? Hg Ha|? ? il ol ids oi mid ? o ? Hg]; subst.
    - split; reflexivity.
    - rewrite G in Hg. injection Hg as <-. apply elem_of_nil in Ha. destruct Ha.
    - rewrite G in Hg. discriminate Hg. }
  apply C93_untouched; [apply demo_patches_fair| |].
  - intros l' g' L. destruct (Hl _ _ L) as [-> ->]. rewrite G, G'. reflexivity.
  - intros l' g' il ol ids oi mid m L Hg. destruct (Hl _ _ L) as [-> ->]. rewrite G in Hg. discriminate Hg.
Qed.
(** A gate with other operands is no fair exchange: the consumers then miscount, and the evaluation of x AND (NOT x) fails, which the circuit built
    with those operands computes. *)
Definition and_not (b : N) : list op := [OpNewStorage; OpNewCircuit 0; OpInput 0; OpInput 0; OpNot 0 0; OpAnd 0 2 b; OpOutput 0 3].
Example C93_other_operands : forall md md', eval_output md' (patched md (map PCall (and_not 1) ++ [PGate 0 3 (GAnd 2 0)])) 9 0 [true; true] = Err (EUnknownEvaledBit 0) /\
  eval_output md' (run md (and_not 0)) 9 0 [true; true] = Ok [false] /\
  get_gate (patched md (map PCall (and_not 1) ++ [PGate 0 3 (GAnd 2 0)])) 0 3 = get_gate (run md (and_not 0)) 0 3.
Proof. intros md md'. destruct md, md'; (split; [vm_compute; reflexivity|]); (split; [vm_compute; reflexivity|]); vm_compute; reflexivity. Qed.
