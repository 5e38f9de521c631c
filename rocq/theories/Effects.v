(** Every API call is a sequence of elementary effects on the heap; invariants are proved per effect. *)
From Verif Require Export CircuitFacts.

Definition is_input (gt : gate) : bool := match gt with GInput _ => true | _ => false end.
Definition is_const (gt : gate) : bool := match gt with GConst _ => true | _ => false end.
Definition is_module (gt : gate) : bool := match gt with GModule _ _ _ _ _ => true | _ => false end.
Definition is_logic (gt : gate) : bool := match gt with GNot _ | GXor _ _ | GAnd _ _ | GOr _ _ => true | _ => false end.

(** [c'] is [c] with the non-module gate [gt] appended. *)
Record push (c : circuit) (gt : gate) (c' : circuit) : Prop := {
  p_kind : is_module gt = false;
  p_gm : gate_map c' = <[gate_index c := gt]> (gate_map c);
  p_gi : gate_index c' = gate_index c + 1;
  p_deps : forall g, deps c' g = deps c g ++ replicate (occ g (operands gt)) (gate_index c);
  p_const : const_gates c' = const_gates c ++ (if is_const gt then [gate_index c] else []);
  p_input : match gt with GInput w => w = input_len c | _ => True end;
  p_im : input_map c' = if is_input gt then <[input_len c := Some (gate_index c)]> (input_map c) else input_map c;
  p_il : input_len c' = input_len c + (if is_input gt then 1 else 0);
  p_om : output_map c' = output_map c;
  p_ol : output_len c' = output_len c;
  p_st : c_storage c' = c_storage c;
  p_nw : num_wire c' = (num_wire c + 1)%Z;
  p_ng : num_gate c' = num_gate c + (if is_logic gt then 1 else 0);
  p_nc : num_const c' = num_const c + (if is_const gt then 1 else 0);
}.

Lemma c_input_push c g c' : c_input c = (g, c') -> g = gate_index c /\ push c (GInput (input_len c)) c'.
Proof.
  unfold c_input, add_gate. intros H. injection H as <- <-. split; [done|].
  split; try done; simpl; try lia; intros; rewrite ?app_nil_r; done.
Qed.
Lemma c_constant_push c b g c' : c_constant c b = (g, c') -> g = gate_index c /\ push c (GConst b) c'.
Proof.
  unfold c_constant, add_gate. intros H. injection H as <- <-. split; [done|].
  split; try done; simpl; try lia; intros; rewrite ?app_nil_r; done.
Qed.
Lemma c_not_push c a g c' : c_not c a = (g, c') -> g = gate_index c /\ push c (GNot a) c'.
Proof.
  unfold c_not. destruct (add_gate c (GNot a)) as [g1 c1] eqn:E. unfold add_gate in E. injection E as <- <-.
  intros H. injection H as <- <-. split; [done|].
  split; try done; simpl; try lia; intros; rewrite ?app_nil_r; try done.
  transitivity (deps (add_dependence c a (gate_index c)) g); [done|].
  rewrite deps_add_dependence. unfold occ. simpl. destruct decide, N.eq_dec; done.
Qed.
Lemma c_binary_push c gt a b g c' :
  gt = GXor a b \/ gt = GAnd a b \/ gt = GOr a b -> c_binary c gt a b = (g, c') -> g = gate_index c /\ push c gt c'.
Proof.
  intros Hk. unfold c_binary. destruct (add_gate c gt) as [g1 c1] eqn:E. unfold add_gate in E. injection E as <- <-.
  intros H. injection H as <- <-. split; [done|].
  assert (Ho : operands gt = [a; b]) by (destruct Hk as [-> | [-> | ->] ]; done).
  assert (Hl : is_logic gt = true) by (destruct Hk as [-> | [-> | ->] ]; done).
  assert (Hc : is_const gt = false) by (destruct Hk as [-> | [-> | ->] ]; done).
  assert (Hi : is_input gt = false) by (destruct Hk as [-> | [-> | ->] ]; done).
  split; try done; rewrite ?Hl, ?Hc, ?Hi, ?Ho; simpl; try lia; rewrite ?app_nil_r; try done.
  - destruct Hk as [-> | [-> | ->] ]; done.
  - intros g.
    transitivity (deps (add_dependence (add_dependence c a (gate_index c)) b (gate_index c)) g); [done|].
    rewrite !deps_add_dependence. unfold occ. simpl. rewrite <- app_assoc. f_equal.
    destruct (decide (a = g)), (decide (b = g)), (N.eq_dec a g), (N.eq_dec b g); done.
  - destruct Hk as [-> | [-> | ->] ]; done.
Qed.
Lemma c_xor_push c a b g c' : c_xor c a b = (g, c') -> g = gate_index c /\ push c (GXor a b) c'.
Proof. apply c_binary_push. auto. Qed.
Lemma c_and_push c a b g c' : c_and c a b = (g, c') -> g = gate_index c /\ push c (GAnd a b) c'.
Proof. apply c_binary_push. auto. Qed.
Lemma c_or_push c a b g c' : c_or c a b = (g, c') -> g = gate_index c /\ push c (GOr a b) c'.
Proof. apply c_binary_push. auto. Qed.

(** [c'] is [c] with one more output wire, bound to the existing gate [g]. *)
Record push_out (c : circuit) (g : N) (c' : circuit) : Prop := {
  po_gate : is_Some (gate_map c !! g);
  po_eq : c' = Circuit (input_map c) (<[output_len c := g]> (output_map c)) (gate_map c) (c_storage c) (dep_map c) (const_gates c)
            (input_len c) (output_len c + 1) (num_wire c) (num_gate c) (num_const c) (gate_index c);
}.
Lemma c_output_cases c g :
  (gate_map c !! g = None /\ c_output c g = (Err (EUnknownGate g), c)) \/
  exists c', c_output c g = (Ok (output_len c), c') /\ push_out c g c'.
Proof.
  unfold c_output. destruct (gate_map c !! g) eqn:E; [right|left; done].
  eexists. split; [done|]. split; [rewrite E; eauto|done].
Qed.

(** [c'] is [c] with a block of module gates for a call of [m] appended; [outs] are their ids. *)
Record push_mod (c m : circuit) (mid : N) (ids : list N) (outs : list N) (c' : circuit) : Prop := {
  pm_outs : outs = map (fun j => gate_index c + j) (nrange (output_len m));
  pm_gi : gate_index c' = gate_index c + output_len m;
  pm_nw : num_wire c' = (num_wire c + (num_wire m - Z.of_N (input_len m)))%Z;
  pm_gm : forall g, gate_map c' !! g =
     if decide (gate_index c <= g < gate_index c + output_len m)
     then Some (GModule (input_len m) (output_len m) ids (g - gate_index c) mid) else gate_map c !! g;
  pm_deps : forall g, deps c' g = deps c g ++ concat (replicate (occ g ids) outs);
  pm_im : input_map c' = input_map c;
  pm_om : output_map c' = output_map c;
  pm_st : c_storage c' = c_storage c;
  pm_const : const_gates c' = const_gates c;
  pm_il : input_len c' = input_len c;
  pm_ol : output_len c' = output_len c;
  pm_ng : num_gate c' = num_gate c + num_gate m;
  pm_nc : num_const c' = num_const c + num_const m;
}.

Definition wires_ok (md : mode) (m : circuit) : Prop :=
  md = Debug -> (Z.of_N (input_len m) + Z.of_N (output_len m) <= num_wire m)%Z.

Lemma c_module_push md c m mid ids outs c' :
  c_module md c m mid ids = Some (outs, c') -> wires_ok md m /\ push_mod c m mid ids outs c'.
Proof.
  intros H. apply c_module_spec in H as (?&?&?&?&?&?&?&?&?&?&?&?&?&?). split; [done|]. split; done.
Qed.
Lemma c_module_some md c m mid ids : wires_ok md m -> exists outs c', c_module md c m mid ids = Some (outs, c').
Proof.
  unfold wires_ok, c_module. intros H.
  destruct (add_module_gates _ _ _ _ _ _ _) as [o c2].
  destruct md; [|eauto]. specialize (H eq_refl).
  destruct (_ <? 0)%Z eqn:E; [lia|eauto].
Qed.
Lemma c_module_none md c m mid ids :
  c_module md c m mid ids = None <-> md = Debug /\ (num_wire m < Z.of_N (input_len m) + Z.of_N (output_len m))%Z.
Proof.
  split.
  - intros H. unfold c_module in H. destruct (add_module_gates _ _ _ _ _ _ _) as [o c2].
    destruct md; [|done]. split; [done|]. destruct (_ <? 0)%Z eqn:E; [lia|done].
  - intros [-> H]. unfold c_module. destruct (_ <? 0)%Z eqn:E; [done|lia].
Qed.

(** * Effects on the heap *)
Definition upd (h : heap) (l : nat) (c : circuit) : heap := Heap (<[l := c]> (h_circ h)) (h_stor h).
Definition add_circ (h : heap) (c : circuit) : heap := Heap (h_circ h ++ [c]) (h_stor h).
Definition reg (h : heap) (s : nat) (x : storage) (l' : nat) : heap :=
  Heap (h_circ h) (<[s := Storage (<[num_module x := l']> (module_map x)) (num_module x + 1)]> (h_stor h)).

Inductive eff (md : mode) (h : heap) : heap -> Prop :=
| eff_push l c gt c' : h_circ h !! l = Some c -> push c gt c' -> eff md h (upd h l c')
| eff_out l c g c' : h_circ h !! l = Some c -> push_out c g c' -> eff md h (upd h l c')
| eff_module l c s x l' m mid ids outs c' :
    h_circ h !! l = Some c -> c_storage c = s -> h_stor h !! s = Some x -> module_map x !! mid = Some l' -> l' <> l ->
    h_circ h !! l' = Some m -> wires_ok md m -> push_mod c m mid ids outs c' -> eff md h (upd h l c')
| eff_stor : eff md h (Heap (h_circ h) (h_stor h ++ [storage_new]))
| eff_new s x : h_stor h !! s = Some x -> eff md h (add_circ h (circuit_new s))
| eff_clone l c : h_circ h !! l = Some c -> eff md h (add_circ h c)
| eff_reg s x l' c' : h_stor h !! s = Some x -> h_circ h !! l' = Some c' -> eff md h (reg h s x l').

Lemma upd_same h l c : h_circ h !! l = Some c -> upd h l c = h.
Proof. intros H. destruct h as [cs ss]. unfold upd. simpl in *. rewrite list_insert_id by done. done. Qed.
Lemma upd_upd h l c c' : upd (upd h l c) l c' = upd h l c'.
Proof. unfold upd. simpl. rewrite list_insert_insert. done. Qed.
Lemma upd_lookup h l c c0 : h_circ h !! l = Some c0 -> h_circ (upd h l c) !! l = Some c.
Proof. intros H. simpl. apply list_lookup_insert. eapply lookup_lt_Some; eauto. Qed.
Lemma upd_lookup_ne h l c l' : l' <> l -> h_circ (upd h l c) !! l' = h_circ h !! l'.
Proof. intros H. simpl. apply list_lookup_insert_ne. done. Qed.

(** * What each handle operation does *)
Lemma on_circ_dangling {A} l (f : circuit -> A * circuit) h :
  h_circ h !! l = None -> on_circ l f h = (Panic PDangling, h).
Proof. intros H. unfold on_circ, st_bind, get_circ. rewrite H. done. Qed.
Lemma on_circ_ok {A} l (f : circuit -> A * circuit) h c a c' :
  h_circ h !! l = Some c -> f c = (a, c') -> on_circ l f h = (Ok a, upd h l c').
Proof. intros H E. unfold on_circ, st_bind, get_circ. rewrite H, E. done. Qed.

Section run.
Context (h : heap) (l : nat) (c : circuit) (Hl : h_circ h !! l = Some c).

Lemma r_input_ok : exists c', r_input l h = (Ok (gate_index c), upd h l c') /\ push c (GInput (input_len c)) c'.
Proof.
  destruct (c_input c) as [g c'] eqn:E. apply c_input_push in E as HE. destruct HE as [-> Hp].
  exists c'. split; [|done]. by eapply on_circ_ok.
Qed.
Lemma r_constant_ok b : exists c', r_constant l b h = (Ok (gate_index c), upd h l c') /\ push c (GConst b) c'.
Proof.
  destruct (c_constant c b) as [g c'] eqn:E. apply c_constant_push in E as HE. destruct HE as [-> Hp].
  exists c'. split; [|done]. by eapply on_circ_ok.
Qed.
Lemma r_not_ok a : exists c', r_not l a h = (Ok (gate_index c), upd h l c') /\ push c (GNot a) c'.
Proof.
  destruct (c_not c a) as [g c'] eqn:E. apply c_not_push in E as HE. destruct HE as [-> Hp].
  exists c'. split; [|done]. by eapply on_circ_ok.
Qed.
Lemma r_xor_ok a b : exists c', r_xor l a b h = (Ok (gate_index c), upd h l c') /\ push c (GXor a b) c'.
Proof.
  destruct (c_xor c a b) as [g c'] eqn:E. apply c_xor_push in E as HE. destruct HE as [-> Hp].
  exists c'. split; [|done]. by eapply on_circ_ok.
Qed.
Lemma r_and_ok a b : exists c', r_and l a b h = (Ok (gate_index c), upd h l c') /\ push c (GAnd a b) c'.
Proof.
  destruct (c_and c a b) as [g c'] eqn:E. apply c_and_push in E as HE. destruct HE as [-> Hp].
  exists c'. split; [|done]. by eapply on_circ_ok.
Qed.
Lemma r_or_ok a b : exists c', r_or l a b h = (Ok (gate_index c), upd h l c') /\ push c (GOr a b) c'.
Proof.
  destruct (c_or c a b) as [g c'] eqn:E. apply c_or_push in E as HE. destruct HE as [-> Hp].
  exists c'. split; [|done]. by eapply on_circ_ok.
Qed.
Lemma r_equivalent_ok a b : exists c1 c2, r_equivalent l a b h = (Ok (gate_index c1), upd (upd h l c1) l c2) /\
  gate_index c1 = gate_index c + 1 /\ push c (GXor a b) c1 /\ push c1 (GNot (gate_index c)) c2.
Proof.
  destruct (c_xor c a b) as [g c1] eqn:E. apply c_xor_push in E as HE. destruct HE as [-> Hp].
  destruct (c_not c1 (gate_index c)) as [g2 c2] eqn:E2. apply c_not_push in E2 as HE2. destruct HE2 as [-> Hp2].
  exists c1, c2. split; [|split; [apply Hp|done]]. rewrite upd_upd. eapply on_circ_ok; [done|].
  unfold c_equivalent. rewrite E, E2. done.
Qed.
Lemma r_identity_ok a : exists c1 c2, r_identity l a h = (Ok (gate_index c1), upd (upd h l c1) l c2) /\
  gate_index c1 = gate_index c + 1 /\ push c (GNot a) c1 /\ push c1 (GNot (gate_index c)) c2.
Proof.
  destruct (c_not c a) as [g c1] eqn:E. apply c_not_push in E as HE. destruct HE as [-> Hp].
  destruct (c_not c1 (gate_index c)) as [g2 c2] eqn:E2. apply c_not_push in E2 as HE2. destruct HE2 as [-> Hp2].
  exists c1, c2. split; [|split; [apply Hp|done]]. rewrite upd_upd. eapply on_circ_ok; [done|].
  unfold c_identity. rewrite E, E2. done.
Qed.
Lemma r_output_cases g :
  (gate_map c !! g = None /\ r_output l g h = (Err (EUnknownGate g), h)) \/
  exists c', r_output l g h = (Ok (output_len c), upd h l c') /\ push_out c g c'.
Proof.
  destruct (c_output_cases c g) as [[H1 H2]|(c' & H1 & H2)]; [left|right].
  - split; [done|]. unfold r_output. erewrite st_bind_ok; [|by eapply on_circ_ok].
    unfold st_lift. rewrite upd_same; done.
  - exists c'. split; [|done]. unfold r_output. erewrite st_bind_ok; [|by eapply on_circ_ok]. done.
Qed.
Lemma r_register_ok l' c' x : h_circ h !! l' = Some c' -> h_stor h !! c_storage c = Some x ->
  r_register l l' h = (Ok (num_module x), reg h (c_storage c) x l').
Proof. intros H1 H2. unfold r_register, st_bind, get_circ. rewrite Hl, H1. unfold s_register, st_bind, get_stor. rewrite H2. done. Qed.
Lemma r_sub_ok x : h_stor h !! c_storage c = Some x ->
  r_sub_circuit l h = (Ok (num_module x, length (h_circ h)),
    reg (add_circ h (circuit_new (c_storage c))) (c_storage c) x (length (h_circ h))).
Proof.
  intros H2. unfold r_sub_circuit, st_bind, get_circ, get_stor. rewrite Hl, H2. unfold alloc_circ. simpl.
  unfold s_register, st_bind, get_stor. simpl. rewrite H2. done.
Qed.
End run.

(** Every call is a sequence of effects. *)
Lemma run_op_effs md h o : rtc (eff md) h (step md h o).
Proof.
  assert (dang : forall A (m : M A) (f : A -> ret), m h = (Panic PDangling, h) -> snd (as_ret f m h) = h).
  { intros A m f E. unfold as_ret, st_bind. rewrite E. done. }
  assert (okk : forall A (m : M A) (f : A -> ret) a h', m h = (Ok a, h') -> snd (as_ret f m h) = h').
  { intros A m f a h' E. unfold as_ret, st_bind. rewrite E. done. }
  unfold step. destruct o as [|s|l|l|l g|l b|l a|l a b|l a b|l a b|l a b|l a|l l'|l|l mid ids|s l']; simpl.
  1: { apply rtc_once, eff_stor. }
  1: { unfold as_ret, st_bind, get_stor. destruct (h_stor h !! s) as [x|] eqn:E; simpl; [|constructor].
       apply rtc_once. by eapply eff_new. }
  14: { unfold as_ret, st_bind, get_circ. destruct (h_circ h !! l') as [c'|] eqn:Hl'; [|constructor].
        unfold s_register, st_bind, get_stor. destruct (h_stor h !! s) as [x|] eqn:Hs; [|constructor].
        apply rtc_once. by eapply eff_reg. }
  all: destruct (h_circ h !! l) as [c|] eqn:Hl.
  all: try (rewrite dang; [constructor|]; unfold r_input, r_constant, r_not, r_xor, r_and, r_or, r_equivalent, r_identity, r_register, r_sub_circuit, r_output, r_module, r_get_module, st_bind, get_circ, on_circ, st_bind, get_circ; rewrite Hl; done).
  all: try match goal with
  | |- context [r_input] => destruct (r_input_ok h l c Hl) as (c' & E & Hp)
  | |- context [r_constant _ ?b] => destruct (r_constant_ok h l c Hl b) as (c' & E & Hp)
  | |- context [r_not _ ?b] => destruct (r_not_ok h l c Hl b) as (c' & E & Hp)
  | |- context [r_xor _ ?a ?b] => destruct (r_xor_ok h l c Hl a b) as (c' & E & Hp)
  | |- context [r_and _ ?a ?b] => destruct (r_and_ok h l c Hl a b) as (c' & E & Hp)
  | |- context [r_or _ ?a ?b] => destruct (r_or_ok h l c Hl a b) as (c' & E & Hp)
  end; try (erewrite okk by eauto; apply rtc_once; by eapply eff_push).
  - unfold as_ret, st_bind, get_circ. rewrite Hl. simpl. apply rtc_once. by eapply eff_clone.
  - destruct (r_output_cases h l c Hl g) as [[H1 E]|(c' & E & Hp)].
    + unfold as_ret, st_bind. rewrite E. constructor.
    + erewrite okk by eauto. apply rtc_once. by eapply eff_out.
  - destruct (r_equivalent_ok h l c Hl a b) as (c1 & c2 & E & _ & H1 & H2).
    erewrite okk by eauto. eapply rtc_l; [by eapply eff_push|]. apply rtc_once. eapply eff_push; [|done].
    by eapply upd_lookup.
  - destruct (r_identity_ok h l c Hl a) as (c1 & c2 & E & _ & H1 & H2).
    erewrite okk by eauto. eapply rtc_l; [by eapply eff_push|]. apply rtc_once. eapply eff_push; [|done].
    by eapply upd_lookup.
  - unfold as_ret, r_register, st_bind, get_circ. rewrite Hl. destruct (h_circ h !! l') as [c'|] eqn:Hl'; [|constructor].
    unfold s_register, st_bind, get_stor. destruct (h_stor h !! c_storage c) as [x|] eqn:Hs; [|constructor].
    apply rtc_once. by eapply eff_reg.
  - unfold as_ret, r_sub_circuit, st_bind, get_circ, get_stor. rewrite Hl.
    destruct (h_stor h !! c_storage c) as [x|] eqn:Hs; [|constructor].
    unfold alloc_circ. simpl.
    unfold s_register, st_bind, get_stor. simpl. rewrite Hs. simpl.
    eapply rtc_l; [by eapply eff_new|]. apply rtc_once.
    eapply (eff_reg _ (add_circ h (circuit_new (c_storage c))) (c_storage c) x (length (h_circ h)) (circuit_new (c_storage c))); [done|].
    simpl. rewrite lookup_app_r, Nat.sub_diag; done.
  - unfold as_ret, r_module, r_get_module, st_bind, get_circ, get_stor. rewrite Hl.
    destruct (h_stor h !! c_storage c) as [x|] eqn:Hs; [|constructor].
    destruct (module_map x !! mid) as [l'|] eqn:Hm; [|constructor]. simpl.
    destruct (decide (l' = l)) as [|Hne]; [constructor|].
    destruct (h_circ h !! l') as [m|] eqn:Hl'; [|constructor]. rewrite Hl.
    destruct (c_module md c m mid ids) as [[outs c']|] eqn:E; [|constructor]. simpl.
    apply c_module_push in E as [Hw Hp]. apply rtc_once. by eapply eff_module.
Qed.

Lemma r_module_ok md h l c x l' m mid ids :
  h_circ h !! l = Some c -> h_stor h !! c_storage c = Some x -> module_map x !! mid = Some l' -> l' <> l ->
  h_circ h !! l' = Some m -> wires_ok md m ->
  exists outs c', r_module md l mid ids h = (Ok outs, upd h l c') /\ push_mod c m mid ids outs c'.
Proof.
  intros Hl Hs Hm Hne Hl' Hw. destruct (c_module_some md c m mid ids Hw) as (outs & c' & E).
  exists outs, c'. apply c_module_push in E as HE. split; [|apply HE].
  unfold r_module, r_get_module, st_bind, get_circ, get_stor. rewrite Hl, Hs, Hm. simpl.
  rewrite decide_False by done. rewrite Hl', Hl, E. done.
Qed.

(** A property kept by every effect holds after every history. *)
Lemma run_ind md (P : heap -> Prop) :
  P heap_empty -> (forall h h', P h -> eff md h h' -> P h') -> forall ops, P (run md ops).
Proof.
  intros H0 HS ops. unfold run. assert (forall h, P h -> P (fold_left (step md) ops h)) as G; [|auto].
  induction ops as [|o ops IH]; intros h Hh; simpl; [done|].
  apply IH. pose proof (run_op_effs md h o) as Hr. revert Hh Hr. generalize (step md h o). intros h' Hh Hr.
  induction Hr; eauto.
Qed.
Lemma run_effs_from md ops h : rtc (eff md) h (fold_left (step md) ops h).
Proof.
  revert h. induction ops as [|o ops IH]; intros h; simpl; [constructor|].
  eapply rtc_transitive; [apply run_op_effs|apply IH].
Qed.
