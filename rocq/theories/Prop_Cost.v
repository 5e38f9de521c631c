(** Property C68: the exact sizes (gates, constants, inputs, outputs) of the circuits the library builds, for every width. *)
From Verif Require Export Prop_Export.
Open Scope N_scope.
Open Scope list_scope.

(** * Statements *)
(** What the counters [num_gate], [num_const], [input_len] and [output_len] of a circuit say. *)
Record cost := Cost { t_g : N; t_k : N; t_i : N; t_o : N }.
Definition counters (c : circuit) : cost := Cost (num_gate c) (num_const c) (input_len c) (output_len c).
Definition cadd (a b : cost) : cost := Cost (t_g a + t_g b) (t_k a + t_k b) (t_i a + t_i b) (t_o a + t_o b).
Definition ctimes (n : nat) (a : cost) : cost := Cost (N.of_nat n * t_g a) (N.of_nat n * t_k a) (N.of_nat n * t_i a) (N.of_nat n * t_o a).
Definition czero : cost := Cost 0 0 0 0.
Definition cgate : cost := Cost 1 0 0 0.
Definition cconst : cost := Cost 0 1 0 0.
Definition cinput : cost := Cost 0 0 1 0.
Definition coutput : cost := Cost 0 0 0 1.
(** What a call of a module of that size adds to the caller. *)
Definition cuse (a : cost) : cost := Cost (t_g a) (t_k a) 0 0.
(** The module [mid] of the circuit at [l] has these counters. *)
Definition module_size (h : heap) (l : nat) (mid : N) (t : cost) : Prop :=
  exists l' m, get_module h l mid = Ok l' /\ h_circ h !! l' = Some m /\ counters m = t.
Definition circuit_size (h : heap) (l : nat) (t : cost) : Prop := exists c, h_circ h !! l = Some c /\ counters c = t.

(** The circuits of [h] are in [h'] as they were. *)
Definition old_same (h h' : heap) : Prop := forall l c, h_circ h !! l = Some c -> h_circ h' !! l = Some c.

(** The sizes of the integer modules of width [n]. *)
Section sizes.
Context (n : nat).
Let w : N := N.of_nat n.
Definition add_size : cost := Cost (6 * w - 3) 0 (2 * w) w.
Definition sub_size : cost := Cost (13 * w - 6) w (2 * w) w.
Definition mul_size : cost := Cost (w * (6 * w - 3) + w * (w + 1) / 2) (w * (w + 1) / 2) (2 * w) w.
Definition eq_size : cost := Cost (3 * w) 1 (2 * w) 1.
Definition neq_size : cost := Cost (3 * w + 1) 1 (2 * w) 1.
Definition less_size : cost := Cost (13 * w - 4) (w + 1) (2 * w) 1.
Definition less_or_eq_size : cost := Cost (16 * w - 3) (w + 2) (2 * w) 1.
Definition larger_size : cost := Cost (16 * w - 2) (w + 2) (2 * w) 1.
Definition larger_or_eq_size : cost := Cost (13 * w - 3) (w + 1) (2 * w) 1.
(** The multiplier with a result of [2n] bits, which calls an adder of [2n] bits. *)
Definition mul_extend_size : cost := Cost (w * (12 * w - 3) + w * w) (w * w + 2 * w) (2 * w) (2 * w).
End sizes.
Record int_sizes (h : heap) (l n : nat) (cfg : int_config) : Prop := {
  is_ref : ic_ref cfg = l;
  is_add : module_size h l (ic_add cfg) (add_size n);
  is_sub : module_size h l (ic_sub cfg) (sub_size n);
  is_mul : module_size h l (ic_mul cfg) (mul_size n);
  is_eq : module_size h l (ic_eq cfg) (eq_size n);
  is_neq : module_size h l (ic_neq cfg) (neq_size n);
  is_less : module_size h l (ic_less cfg) (less_size n);
  is_less_or_eq : module_size h l (ic_less_or_eq cfg) (less_or_eq_size n);
  is_larger : module_size h l (ic_larger cfg) (larger_size n);
  is_larger_or_eq : module_size h l (ic_larger_or_eq cfg) (larger_or_eq_size n);
}.
(** What an expression and a program add to the circuit. *)
Definition cmp_size (n : nat) (c : icmp) : cost :=
  match c with CEq => eq_size n | CNeq => neq_size n | CLess => less_size n | CLessOrEq => less_or_eq_size n | CLarger => larger_size n
  | CLargerOrEq => larger_or_eq_size n end.
Fixpoint icost (n : nat) (e : iexp) : cost :=
  match e with
  | IVar _ => czero
  | IBig _ | IZero | IOne => ctimes n cconst
  | IAdd e1 e2 => cadd (cadd (icost n e1) (icost n e2)) (cuse (add_size n))
  | ISub e1 e2 => cadd (cadd (icost n e1) (icost n e2)) (cuse (sub_size n))
  | IMul e1 e2 => cadd (cadd (icost n e1) (icost n e2)) (cuse (mul_size n))
  | INeg e => cadd (icost n e) (cadd (ctimes n cconst) (cuse (sub_size n)))
  | IShl e k => cadd (icost n e) (ctimes k cconst)
  | IShr e _ => icost n e
  | ITrunc k e => cadd (icost n e) (ctimes (n - k) cconst)
  | ICmp c e1 e2 => cadd (cadd (icost n e1) (icost n e2)) (cadd (cuse (cmp_size n c)) (ctimes (n - 1) cconst))
  end.
Fixpoint scost (n : nat) (p : list sinstr) : cost :=
  match p with
  | [] => czero
  | SInput :: p => cadd (ctimes n cinput) (scost n p)
  | SLet e :: p | SSet _ e :: p => cadd (icost n e) (scost n p)
  | SOut _ :: p => cadd (ctimes n coutput) (scost n p)
  end.

(** The field modules, in terms of the integer modules; [r] is the exponent of the Montgomery radix. *)
Section field_sizes.
Context (n r : nat).
Let w : N := N.of_nat n.
Definition fp_add_size : cost :=
  Cost (4 * t_g (add_size n) + 2 * t_g (sub_size n) + 3 * t_g (mul_size n) + t_g (larger_size n) + t_g (less_size n) + 2) (10 * w + 3 * t_k (mul_size n)) (2 * w) w.
Definition fp_sub_size : cost := Cost (t_g fp_add_size + t_g (sub_size n)) (t_k fp_add_size + 2 * w) (2 * w) w.
Definition mont_red_size : cost :=
  Cost (t_g (add_size n) + 3 * t_g (sub_size n) + 4 * t_g (mul_size n) + t_g (larger_or_eq_size n) + (w - N.of_nat r)) (8 * w + 1 + 4 * t_k (mul_size n)) w w.
Definition fp_mul_size : cost := Cost (2 * t_g (mul_size n) + 2 * t_g mont_red_size) (2 * t_k (mul_size n) + 2 * t_k mont_red_size + w) (2 * w) w.
End field_sizes.
Record fp_sizes (h : heap) (l n r : nat) (cfg : fp_config) : Prop := {
  fs_ref : fc_ref cfg = l;
  fs_int : int_sizes h l n (fc_int cfg);
  fs_add : module_size h l (fc_add cfg) (fp_add_size n);
  fs_sub : module_size h l (fc_sub cfg) (fp_sub_size n);
  fs_mul : module_size h l (fc_mul cfg) (fp_mul_size n r);
  fs_mont_red : module_size h l (fc_mont_red cfg) (mont_red_size n r);
}.
Fixpoint fcost (n r : nat) (e : fexp) : cost :=
  match e with
  | FVar _ => czero
  | FBig _ | FZero | FOne => ctimes n cconst
  | FAdd e1 e2 => cadd (cadd (fcost n r e1) (fcost n r e2)) (cuse (fp_add_size n))
  | FSub e1 e2 => cadd (cadd (fcost n r e1) (fcost n r e2)) (cuse (fp_sub_size n))
  | FMul e1 e2 => cadd (cadd (fcost n r e1) (fcost n r e2)) (cuse (fp_mul_size n r))
  | FNeg e => cadd (fcost n r e) (cadd (ctimes n cconst) (cuse (fp_sub_size n)))
  end.
(** The bit-vector modules and expressions; a multiplexer is built in place. *)
Definition not_size (n : nat) : cost := Cost (N.of_nat n) 0 (N.of_nat n) (N.of_nat n).
Definition binary_size (n : nat) : cost := Cost (N.of_nat n) 0 (2 * N.of_nat n) (N.of_nat n).
Definition mux_cost (n : nat) : cost := Cost (3 * N.of_nat n + 1) 0 0 0.
Record bits_sizes (h : heap) (l n : nat) (cfg : bits_config) : Prop := {
  bz_ref : bc_ref cfg = l;
  bz_not : module_size h l (bc_not cfg) (not_size n);
  bz_and : module_size h l (bc_and cfg) (binary_size n);
  bz_or : module_size h l (bc_or cfg) (binary_size n);
  bz_xor : module_size h l (bc_xor cfg) (binary_size n);
  bz_eq : module_size h l (bc_eq cfg) (eq_size n);
  bz_neq : module_size h l (bc_neq cfg) (neq_size n);
}.
Fixpoint bcost (n : nat) (e : bexp) : cost :=
  match e with
  | BVar _ => czero
  | BNot e => cadd (bcost n e) (cuse (not_size n))
  | BAnd e1 e2 | BOr e1 e2 | BXor e1 e2 => cadd (cadd (bcost n e1) (bcost n e2)) (cuse (binary_size n))
  | BMuxEq a b e1 e2 => cadd (cadd (cadd (bcost n a) (bcost n b)) (cuse (eq_size n))) (cadd (cadd (bcost n e1) (bcost n e2)) (mux_cost n))
  | BMuxNeq a b e1 e2 => cadd (cadd (cadd (bcost n a) (bcost n b)) (cuse (neq_size n))) (cadd (cadd (bcost n e1) (bcost n e2)) (mux_cost n))
  | BTake k e => cadd (bcost n e) (ctimes (n - k) cconst)
  end.

(** * Rules: what a computation on circuit [s] adds to its counters *)
Lemma cost_eq a b : t_g a = t_g b -> t_k a = t_k b -> t_i a = t_i b -> t_o a = t_o b -> a = b.
Proof. destruct a, b. cbn. by intros -> -> -> ->. Qed.
Ltac csolve := apply cost_eq; cbn [cadd ctimes czero cgate cconst cinput coutput cuse t_g t_k t_i t_o]; lia.

(** The gates of a circuit stay: nothing is stored at ids that are not given out yet. *)
Definition tight (c : circuit) : Prop := forall g, gate_index c <= g -> gate_map c !! g = None.
Definition kept (c c' : circuit) : Prop := tight c -> tight c' /\ gate_map c ⊆ gate_map c'.
Lemma kept_push c gt c' : push c gt c' -> kept c c'.
Proof.
  intros P T. split.
  - intros g Hg. rewrite (p_gi _ _ _ P) in Hg. rewrite (p_gm _ _ _ P), lookup_insert_ne by lia. apply T. lia.
  - rewrite (p_gm _ _ _ P). apply insert_subseteq, T. lia.
Qed.
Lemma kept_mod c m mid ids outs c' : push_mod c m mid ids outs c' -> kept c c'.
Proof.
  intros P T. split.
  - intros g Hg. rewrite (pm_gi _ _ _ _ _ _ P) in Hg. rewrite (pm_gm _ _ _ _ _ _ P), decide_False by lia. apply T. lia.
  - apply map_subseteq_spec. intros g gt G. rewrite (pm_gm _ _ _ _ _ _ P). destruct decide; [rewrite T in G by lia; done|done].
Qed.
Lemma kept_trans c c1 c2 : kept c c1 -> kept c1 c2 -> kept c c2.
Proof. intros K1 K2 T. destruct (K1 T) as [T1 S1]. destruct (K2 T1) as [T2 S2]. split; [done|by etrans]. Qed.
Record tally (s : nat) (h h' : heap) (t : cost) : Prop := {
  ta_self : forall c, h_circ h !! s = Some c -> exists c', h_circ h' !! s = Some c' /\ c_storage c' = c_storage c /\ counters c' = cadd (counters c) t /\ kept c c';
  ta_old : forall l c, l <> s -> h_circ h !! l = Some c -> h_circ h' !! l = Some c;
  ta_stor : h_stor h' = h_stor h;
}.
Lemma tally_refl s h : tally s h h czero.
Proof. split; [|done|done]. intros c E. exists c. split; [done|]. split; [done|]. split; [csolve|done]. Qed.
Lemma tally_trans s h h1 h2 a b : tally s h h1 a -> tally s h1 h2 b -> tally s h h2 (cadd a b).
Proof.
  intros [S1 O1 T1] [S2 O2 T2]. split.
  - intros c E. destruct (S1 c E) as (c1 & E1 & St1 & C1 & K1). destruct (S2 c1 E1) as (c2 & E2 & St2 & C2 & K2). exists c2. split; [done|]. split; [congruence|].
    split; [rewrite C2, C1; csolve|by eapply kept_trans].
  - intros l c Hl E. apply O2; [done|]. by apply O1.
  - congruence.
Qed.
(** The modules a computation on [s] may call. *)
Definition callable (h : heap) (st s : nat) (mid : N) (t : cost) : Prop :=
  exists x l' m, h_stor h !! st = Some x /\ module_map x !! mid = Some l' /\ l' <> s /\ h_circ h !! l' = Some m /\ counters m = t.
Definition lib := list (N * cost).
Definition ready (L : lib) (st s : nat) (h : heap) : Prop :=
  (exists c, h_circ h !! s = Some c /\ c_storage c = st) /\ forall mid t, (mid, t) ∈ L -> callable h st s mid t.
Lemma ready_tally L st s h h' t : ready L st s h -> tally s h h' t -> ready L st s h'.
Proof.
  intros [(c & E & St) HL] [S1 O1 T1]. split.
  - destruct (S1 c E) as (c' & E' & St' & _). exists c'. split; [done|congruence].
  - intros mid t0 Hin. destruct (HL _ _ Hin) as (x & l' & m & Ex & Em & Hne & El & Hc). exists x, l', m. rewrite T1. auto 6.
Qed.
Definition costs {A} (L : lib) (st s : nat) (m : M A) (t : cost) (Q : A -> Prop) : Prop :=
  forall h r h', m h = (Ok r, h') -> ready L st s h -> tally s h h' t /\ Q r.

Section rules.
Context (L : lib) (st s : nat).
Lemma costs_eq {A} (m : M A) t t' Q : costs L st s m t Q -> t = t' -> costs L st s m t' Q.
Proof. by intros H <-. Qed.
Lemma costs_post {A} (m : M A) t (Q Q' : A -> Prop) : costs L st s m t Q -> (forall a, Q a -> Q' a) -> costs L st s m t Q'.
Proof. intros H Hq h r h' E R. destruct (H h r h' E R). eauto. Qed.
Lemma costs_bind {A B} (m : M A) (k : A -> M B) a b Q Q' : costs L st s m a Q -> (forall r, Q r -> costs L st s (k r) b Q') -> costs L st s (st_bind m k) (cadd a b) Q'.
Proof.
  intros Hm Hk h r h' E R. apply bind_Ok in E as (x & h1 & E1 & E2). destruct (Hm _ _ _ E1 R) as [T1 Q1].
  destruct (Hk x Q1 _ _ _ E2) as [T2 Q2]; [by eapply ready_tally|]. split; [by eapply tally_trans|done].
Qed.
(** Computations that leave the heap alone. *)
Definition inert {A} (m : M A) (Q : A -> Prop) : Prop := forall h r h', m h = (Ok r, h') -> h' = h /\ Q r.
Lemma costs_inert {A} (m : M A) Q : inert m Q -> costs L st s m czero Q.
Proof. intros H h r h' E _. destruct (H _ _ _ E) as [-> Hq]. split; [apply tally_refl|done]. Qed.
Lemma costs_inert_bind {A B} (m : M A) (k : A -> M B) t Q Q' : inert m Q -> (forall r, Q r -> costs L st s (k r) t Q') -> costs L st s (st_bind m k) t Q'.
Proof.
  intros Hm Hk h r h' E R. apply bind_Ok in E as (x & h1 & E1 & E2). destruct (Hm _ _ _ E1) as [-> Hq]. by eapply Hk.
Qed.
Lemma inert_ret {A} (a : A) (Q : A -> Prop) : Q a -> inert (st_ret a) Q.
Proof. intros Hq h r h' [= <- <-]. done. Qed.
Lemma inert_nth {A} (v : list A) i : inert (st_nth v i) (fun a => v !! i = Some a).
Proof. intros h r h'. unfold st_nth. destruct (v !! i) as [a|]; [|done]. by intros [= <- <-]. Qed.
Lemma inert_panic {A} p (Q : A -> Prop) : inert (st_panic p) Q.
Proof. by intros h r h' E. Qed.
Lemma inert_slice v k : inert (st_slice v k) (fun a => a = take k v).
Proof. unfold st_slice. destruct decide; [by apply inert_ret|apply inert_panic]. Qed.
Lemma inert_lift {A} (r : res A) : inert (st_lift r) (fun a => r = Ok a).
Proof. intros h a h'. unfold st_lift. by intros [= -> <-]. Qed.
Lemma inert_bind {A B} (m : M A) (k : A -> M B) Q Q' : inert m Q -> (forall r, Q r -> inert (k r) Q') -> inert (st_bind m k) Q'.
Proof. intros Hm Hk h r h' E. apply bind_Ok in E as (x & h1 & E1 & E2). destruct (Hm _ _ _ E1) as [-> Hq]. by eapply Hk. Qed.
Lemma inert_sub md a b : inert (usize_sub_n md a b) (fun r => Ok (N.of_nat r) = usize_sub md (N.of_nat a) (N.of_nat b)).
Proof. unfold usize_sub_n. eapply inert_bind; [apply inert_lift|]. intros r E. apply inert_ret. by rewrite N2Nat.id. Qed.
Lemma costs_expect {A} (m : M A) t Q : costs L st s m t Q -> costs L st s (st_expect m) t Q.
Proof. intros H h r h' E R. unfold st_expect in E. destruct (m h) as [[] ?] eqn:Em; try done. injection E as -> ->. by eapply H. Qed.
Lemma costs_none {A} (m : M A) t Q : (forall h, match fst (m h) with Ok _ => False | _ => True end) -> costs L st s m t Q.
Proof. intros H h r h' E. specialize (H h). by rewrite E in H. Qed.

Lemma push_tally h c gt c' : h_circ h !! s = Some c -> push c gt c' ->
  tally s h (upd h s c') (Cost (if is_logic gt then 1 else 0) (if is_const gt then 1 else 0) (if is_input gt then 1 else 0) 0).
Proof using.
  intros E P. split.
  - intros c0 E0. rewrite E in E0. injection E0 as <-. exists c'. split; [by eapply upd_lookup|]. split; [apply P|]. split; [|by eapply kept_push].
    unfold counters. rewrite (p_ng _ _ _ P), (p_nc _ _ _ P), (p_il _ _ _ P), (p_ol _ _ _ P). csolve.
  - intros l c0 Hl E0. cbn. by rewrite list_lookup_insert_ne by done.
  - done.
Qed.
Lemma costs_input : costs L st s (r_input s) cinput (fun _ => True).
Proof.
  intros h r h' E [(c & Ec & _) _]. destruct (r_input_ok h s c Ec) as (c' & E' & P). rewrite E in E'. injection E' as -> ->.
  split; [|done]. exact (push_tally _ _ _ _ Ec P).
Qed.
Lemma costs_constant b : costs L st s (r_constant s b) cconst (fun _ => True).
Proof.
  intros h r h' E [(c & Ec & _) _]. destruct (r_constant_ok h s c Ec b) as (c' & E' & P). rewrite E in E'. injection E' as -> ->.
  split; [|done]. exact (push_tally _ _ _ _ Ec P).
Qed.
Lemma costs_not a : costs L st s (r_not s a) cgate (fun _ => True).
Proof.
  intros h r h' E [(c & Ec & _) _]. destruct (r_not_ok h s c Ec a) as (c' & E' & P). rewrite E in E'. injection E' as -> ->.
  split; [|done]. exact (push_tally _ _ _ _ Ec P).
Qed.
Lemma costs_xor a b : costs L st s (r_xor s a b) cgate (fun _ => True).
Proof.
  intros h r h' E [(c & Ec & _) _]. destruct (r_xor_ok h s c Ec a b) as (c' & E' & P). rewrite E in E'. injection E' as -> ->.
  split; [|done]. exact (push_tally _ _ _ _ Ec P).
Qed.
Lemma costs_and a b : costs L st s (r_and s a b) cgate (fun _ => True).
Proof.
  intros h r h' E [(c & Ec & _) _]. destruct (r_and_ok h s c Ec a b) as (c' & E' & P). rewrite E in E'. injection E' as -> ->.
  split; [|done]. exact (push_tally _ _ _ _ Ec P).
Qed.
Lemma costs_or a b : costs L st s (r_or s a b) cgate (fun _ => True).
Proof.
  intros h r h' E [(c & Ec & _) _]. destruct (r_or_ok h s c Ec a b) as (c' & E' & P). rewrite E in E'. injection E' as -> ->.
  split; [|done]. exact (push_tally _ _ _ _ Ec P).
Qed.
Lemma costs_equivalent a b : costs L st s (r_equivalent s a b) (Cost 2 0 0 0) (fun _ => True).
Proof.
  intros h r h' E [(c & Ec & _) _]. destruct (r_equivalent_ok h s c Ec a b) as (c1 & c2 & E' & _ & P1 & P2). rewrite E in E'. injection E' as -> ->.
  split; [|done]. eapply (tally_trans _ _ (upd h s c1) _ cgate cgate); [exact (push_tally _ _ _ _ Ec P1)|].
  refine (push_tally (upd h s c1) c1 (GNot (gate_index c)) c2 _ P2). by eapply upd_lookup.
Qed.
Lemma costs_output g : costs L st s (b_output s g) coutput (fun _ => True).
Proof.
  intros h r h' E [(c & Ec & _) _]. unfold b_output in E. apply bind_Ok in E as (x & h1 & E1 & E2). injection E2 as <- <-.
  destruct (r_output_cases h s c Ec g) as [[_ E']|(c' & E' & P)]; rewrite E1 in E'; [done|]. injection E' as -> ->. split; [|done]. split.
  - intros c0 E0. rewrite Ec in E0. injection E0 as <-. exists c'. split; [by eapply upd_lookup|]. destruct P as [_ ->]. split; [done|]. split; [|by split]. unfold counters. cbn [num_gate num_const input_len output_len]. csolve.
  - intros l c0 Hl E0. cbn. by rewrite list_lookup_insert_ne by done.
  - done.
Qed.
Lemma costs_module md mid ids t : (mid, t) ∈ L -> costs L st s (r_module md s mid ids) (cuse t) (fun outs => N.of_nat (length outs) = t_o t).
Proof.
  intros Hin h r h' E [(c & Ec & St) HL]. destruct (HL _ _ Hin) as (x & l' & m & Ex & Em & Hne & El & Hc).
  unfold r_module in E. apply bind_Ok in E as (l2 & h1 & E1 & E2). unfold r_get_module in E1. unfold st_bind, get_circ, get_stor in E1.
  rewrite Ec, St, Ex, Em in E1. injection E1 as <- <-. rewrite decide_False in E2 by done. unfold st_bind, get_circ in E2. rewrite El, Ec in E2.
  destruct (c_module md c m mid ids) as [[outs c']|] eqn:Ecm; [|done]. apply c_module_push in Ecm as [_ P]. unfold put_circ, st_ret in E2. injection E2 as <- <-. split.
  - split.
    + intros c0 E0. rewrite Ec in E0. injection E0 as <-. exists c'. split; [by eapply (upd_lookup h)|]. split; [apply P|]. split; [|by eapply kept_mod].
      subst t. unfold counters. rewrite (pm_ng _ _ _ _ _ _ P), (pm_nc _ _ _ _ _ _ P), (pm_il _ _ _ _ _ _ P), (pm_ol _ _ _ _ _ _ P). csolve.
    + intros l c0 Hl E0. cbn. by rewrite list_lookup_insert_ne by done.
    + done.
  - subst t. cbn. rewrite (pm_outs _ _ _ _ _ _ P), map_length, nrange_length. lia.
Qed.
Lemma costs_call_bit md mid ids t : (mid, t) ∈ L -> costs L st s (call_bit md s mid ids) (cuse t) (fun _ => True).
Proof.
  intros Hin. unfold call_bit. eapply costs_eq; [eapply costs_bind; [by apply costs_module|]|].
  - intros outs _. eapply costs_post; [apply costs_inert, inert_nth|done].
  - csolve.
Qed.
(** Loops. *)
Lemma costs_mapM {A B} (f : A -> M B) t xs (Q : B -> Prop) : (forall x, x ∈ xs -> costs L st s (f x) t Q) ->
  costs L st s (st_mapM f xs) (ctimes (length xs) t) (fun ys => length ys = length xs /\ Forall Q ys).
Proof.
  induction xs as [|x xs IH]; intros H; cbn [st_mapM length].
  - eapply costs_eq; [apply costs_inert, inert_ret; split; [done|constructor]|csolve].
  - eapply costs_eq; [eapply costs_bind; [apply H; left|]|].
    + intros y Hy. eapply costs_bind; [apply IH; intros; apply H; by right|]. intros ys [Hl Hys]. apply costs_inert, inert_ret. cbn. rewrite Hl. split; [done|by constructor].
    + csolve.
Qed.
Lemma costs_iterM {A} (f : A -> M unit) t xs : (forall x, x ∈ xs -> costs L st s (f x) t (fun _ => True)) -> costs L st s (st_iterM f xs) (ctimes (length xs) t) (fun _ => True).
Proof.
  induction xs as [|x xs IH]; intros H; cbn [st_iterM length].
  - eapply costs_eq; [by apply costs_inert, inert_ret|csolve].
  - eapply costs_eq; [eapply costs_bind; [apply H; left|]|].
    + intros y _. apply IH. intros. apply H. by right.
    + csolve.
Qed.
Definition csum (ts : list cost) : cost := foldr cadd czero ts.
Lemma costs_foldM {A B} (f : B -> A -> M B) (t : A -> cost) (Q : B -> Prop) xs : (forall b x, x ∈ xs -> Q b -> costs L st s (f b x) (t x) Q) ->
  forall b, Q b -> costs L st s (st_foldM f b xs) (csum (map t xs)) Q.
Proof.
  induction xs as [|x xs IH]; intros H b Hb; cbn [st_foldM map csum foldr].
  - by apply costs_inert, inert_ret.
  - eapply costs_bind; [apply H; [left|done]|]. intros y Hy. apply IH; [|done]. intros b' x' Hx. apply H. by right.
Qed.
Lemma costs_inputs k : costs L st s (b_inputs s k) (ctimes k cinput) (fun v => length v = k).
Proof.
  unfold b_inputs. eapply costs_post; [eapply costs_eq; [apply (costs_mapM (fun _ => r_input s) cinput (seq 0 k) (fun _ => True))|]|].
  - intros. apply costs_input. - by rewrite seq_length. - intros v [Hl _]. by rewrite Hl, seq_length.
Qed.
Lemma costs_consts b k : costs L st s (b_consts s b k) (ctimes k cconst) (fun v => length v = k).
Proof.
  unfold b_consts. eapply costs_post; [eapply costs_eq; [apply (costs_mapM (fun _ => r_constant s b) cconst (seq 0 k) (fun _ => True))|]|].
  - intros. apply costs_constant. - by rewrite seq_length. - intros v [Hl _]. by rewrite Hl, seq_length.
Qed.
End rules.
Lemma csum_const {A} (t : cost) (xs : list A) : csum (map (fun _ => t) xs) = ctimes (length xs) t.
Proof. induction xs as [|x xs IH]; cbn [map csum foldr length]; [csolve|]. fold (csum (map (fun _ => t) xs)). rewrite IH. csolve. Qed.

(** * Sub circuits *)
Record site (L : lib) (st l : nat) (h : heap) : Prop := {
  si_ready : ready L st l h;
  si_stor : exists x, h_stor h !! st = Some x /\ forall mid l', module_map x !! mid = Some l' -> mid < num_module x /\ is_Some (h_circ h !! l');
}.
(** Circuits are added, none is changed; modules are added to the storage, none is replaced. *)
Record grown (st : nat) (h h' : heap) : Prop := {
  gr_old : forall l c, h_circ h !! l = Some c -> h_circ h' !! l = Some c;
  gr_stor : forall x, h_stor h !! st = Some x -> exists x', h_stor h' !! st = Some x' /\ module_map x ⊆ module_map x';
}.
Lemma grown_trans st h1 h2 h3 : grown st h1 h2 -> grown st h2 h3 -> grown st h1 h3.
Proof.
  intros [O1 S1] [O2 S2]. split; [auto|]. intros x Ex. destruct (S1 x Ex) as (x1 & E1 & H1). destruct (S2 x1 E1) as (x2 & E2 & H2). exists x2. split; [done|by etrans].
Qed.
Definition makes (L : lib) (st l : nat) (m : M N) (t : cost) : Prop := forall h mid h', m h = (Ok mid, h') -> site L st l h ->
  site ((mid, t) :: L) st l h' /\ grown st h h'.
Lemma makes_sub L st l (body : N -> nat -> M N) t : (forall mid s, costs L st s (body mid s) t (fun r => r = mid)) ->
  makes L st l ('(mid, s) <- r_sub_circuit l ;; body mid s) t.
Proof.
  intros Hb h mid h' E [[(c & Ec & St) HL] (x & Ex & Hx)]. apply bind_Ok in E as ([mid' s] & h1 & E1 & E2).
  rewrite (r_sub_ok h l c Ec x) in E1 by by rewrite St. rewrite St in E1. injection E1 as <- <- <-.
  set (s := length (h_circ h)) in *. set (h1 := reg _ _ _ _) in *.
  assert (O1 : forall l0 c0, h_circ h !! l0 = Some c0 -> h_circ h1 !! l0 = Some c0) by (intros; cbn; by apply add_circ_old).
  assert (Es : h_circ h1 !! s = Some (circuit_new st)) by (cbn; unfold s; by rewrite lookup_app_r, Nat.sub_diag by lia).
  assert (Ns : forall l0 c0, h_circ h !! l0 = Some c0 -> l0 <> s) by (intros l0 c0 E0 ->; apply lookup_lt_Some in E0; unfold s in E0; lia).
  assert (Ex1 : h_stor h1 !! st = Some (Storage (<[num_module x := s]> (module_map x)) (num_module x + 1))).
  { cbn. apply list_lookup_insert. by apply lookup_lt_Some in Ex. }
  assert (Call : forall s0 mid0 t0, callable h st s0 mid0 t0 -> forall s1, (forall c0 l0, h_circ h !! l0 = Some c0 -> l0 <> s0 -> l0 <> s1) -> callable h1 st s1 mid0 t0).
  { intros s0 mid0 t0 (x0 & l' & m & E0 & Em & Hne & El & Hc) s1 H1. rewrite Ex in E0. injection E0 as <-. eexists _, l', m.
    split; [exact Ex1|]. cbn. split; [|eauto]. rewrite lookup_insert_ne; [done|]. destruct (Hx _ _ Em). lia. }
  destruct (Hb (num_module x) s h1 mid h' E2) as [T ->].
  { split; [eauto|]. intros mid0 t0 Hin. eapply Call; [by apply HL|]. intros c0 l0 E0 _. by eapply Ns. }
  assert (O2 : forall l0 c0, h_circ h !! l0 = Some c0 -> h_circ h' !! l0 = Some c0).
  { intros l0 c0 E0. apply (ta_old _ _ _ _ T); [by eapply Ns|by apply O1]. }
  destruct (ta_self _ _ _ _ T _ Es) as (cs & Es' & _ & Hcs & _). pose proof (ta_stor _ _ _ _ T) as Hst.
  split; [split; [split|]|split; [exact O2|]].
  - exists c. split; [by apply O2|done].
  - intros mid0 t0 [[= -> ->]|Hin]%elem_of_cons.
    + eexists _, s, cs. rewrite Hst. split; [exact Ex1|]. cbn. rewrite lookup_insert. split; [done|]. split; [intros E0; by apply (Ns l c Ec)|]. split; [done|].
      rewrite Hcs. unfold counters. cbn. apply cost_eq; cbn; lia.
    + destruct (Call l mid0 t0 (HL _ _ Hin) l) as (x0 & l' & m & E0 & Em & Hne & El & Hc); [done|].
      exists x0, l', m. rewrite Hst. split; [done|]. split; [done|]. split; [done|]. split; [|done].
      rewrite Ex1 in E0. injection E0 as <-. destruct (decide (l' = s)) as [->|Hs]; [|by apply (ta_old _ _ _ _ T)].
      exfalso. cbn in Em. destruct (HL _ _ Hin) as (x0 & l0 & m0 & E0 & Em0 & _ & El0 & _). rewrite Ex in E0. injection E0 as <-.
      rewrite lookup_insert_ne in Em by (destruct (Hx _ _ Em0); lia). rewrite Em in Em0. injection Em0 as <-. by eapply Ns.
  - eexists. rewrite Hst. split; [exact Ex1|]. cbn. intros mid0 l' Em. destruct (decide (mid0 = num_module x)) as [->|Hne].
    + rewrite lookup_insert in Em. injection Em as <-. split; [lia|eauto].
    + rewrite lookup_insert_ne in Em by done. destruct (Hx _ _ Em) as [Hlt [c0 E0]]. split; [lia|]. exists c0. by apply O2.
  - intros x0 E0. rewrite Ex in E0. injection E0 as <-. eexists. rewrite Hst. split; [exact Ex1|]. cbn. apply insert_subseteq.
    destruct (module_map x !! num_module x) as [l0|] eqn:E0; [|done]. destruct (Hx _ _ E0). lia.
Qed.
Lemma site_mono L L' st l h : site L st l h -> (forall a, a ∈ L' -> a ∈ L) -> site L' st l h.
Proof. intros [[R1 R2] S] H. split; [split; [done|]|done]. intros mid t Hin. by apply R2, H. Qed.
Lemma site_base h l c : base h l -> h_circ h !! l = Some c -> site [] (c_storage c) l h.
Proof.
  intros [D _] E. destruct (hi_stor _ (di_inv _ D) _ _ E) as [x Ex]. split; [split; [eauto|by intros ? ? ?%elem_of_nil]|]. exists x. split; [done|].
  intros mid l' Em. destruct (hi_mods _ (di_inv _ D) _ _ Ex mid) as [H1 H2]. destruct (decide (mid < num_module x)) as [Hlt|Hge]; [|rewrite H2 in Em by lia; done].
  split; [done|]. destruct (H1 Hlt) as (l1 & c1 & E1 & E2). rewrite Em in E1. injection E1 as <-. eauto.
Qed.
Lemma callable_size h st l c mid t : h_circ h !! l = Some c -> c_storage c = st -> callable h st l mid t -> module_size h l mid t.
Proof.
  intros E St (x & l' & m & Ex & Em & Hne & El & Hc). exists l', m. split; [|done]. unfold get_module, r_get_module, st_bind, get_circ, get_stor. by rewrite E, St, Ex, Em.
Qed.

(** * The modules of the library *)
Lemma range_length a b : length (range a b) = (b - a)%nat.
Proof. apply seq_length. Qed.
Ltac inert1 := lazymatch goal with
  | |- inert (st_nth _ _) _ => apply inert_nth
  | |- inert (usize_sub_n _ _ _) _ => apply inert_sub
  | |- inert (st_slice _ _) _ => apply inert_slice
  | |- inert (st_panic _) _ => apply inert_panic end.
Ltac cprim := lazymatch goal with
  | |- costs _ _ _ (b_inputs _ _) _ _ => apply costs_inputs
  | |- costs _ _ _ (b_consts _ _ _) _ _ => apply costs_consts
  | |- costs _ _ _ (r_input _) _ _ => apply costs_input
  | |- costs _ _ _ (r_constant _ _) _ _ => apply costs_constant
  | |- costs _ _ _ (r_not _ _) _ _ => apply costs_not
  | |- costs _ _ _ (r_xor _ _ _) _ _ => apply costs_xor
  | |- costs _ _ _ (r_and _ _ _) _ _ => apply costs_and
  | |- costs _ _ _ (r_or _ _ _) _ _ => apply costs_or
  | |- costs _ _ _ (r_equivalent _ _ _) _ _ => apply costs_equivalent
  | |- costs _ _ _ (b_output _ _) _ _ => apply costs_output
  | |- costs _ _ _ (call_bit _ _ _ _) _ _ => apply costs_call_bit; eassumption
  | |- costs _ _ _ (r_module _ _ _ _) _ _ => apply costs_module; eassumption end.
Ltac cgo := lazymatch goal with
  | |- costs _ _ _ (st_bind ?m ?k) _ _ => first
      [ eapply costs_inert_bind; [inert1 | intros ? ?; cgo]
      | eapply costs_bind; [cgo1 | intros ? ?; cgo] ]
  | |- _ => cgo1 end
with cgo1 := lazymatch goal with
  | |- costs _ _ _ (st_mapM _ _) _ _ => eapply (costs_mapM _ _ _ _ _ _ (fun _ => True)); intros ? ?; cgo
  | |- costs _ _ _ (st_iterM _ _) _ _ => eapply costs_iterM; intros ? ?; cgo
  | |- costs _ _ _ (st_ret _) _ _ => apply costs_inert, inert_ret; first [done | exact I]
  | |- costs _ _ _ (st_nth _ _) _ _ => eapply costs_post; [apply costs_inert, inert_nth | intros; exact I]
  | |- _ => cprim end.
Ltac csimp := unfold add_size, sub_size, mul_size, eq_size, neq_size, less_size, less_or_eq_size, larger_size, larger_or_eq_size in *;
  cbn [cadd ctimes czero cgate cconst cinput coutput cuse t_g t_k t_i t_o] in *.
Ltac cfin := repeat rewrite range_length; repeat rewrite seq_length; apply cost_eq; csimp; try lia.

Lemma makes_not L st l n : makes L st l (build_not l n) (Cost (N.of_nat n) 0 (N.of_nat n) (N.of_nat n)).
Proof. apply makes_sub. intros mid s. eapply costs_eq; [cgo|cfin]. Qed.
Lemma makes_binary L st l n f : (forall st s a b, costs L st s (f s a b) cgate (fun _ => True)) ->
  makes L st l (build_binary f l n) (Cost (N.of_nat n) 0 (2 * N.of_nat n) (N.of_nat n)).
Proof.
  intros Hf. apply makes_sub. intros mid s. eapply costs_eq; [|].
  - do 2 (eapply costs_bind; [apply costs_inputs|intros ? ?]). eapply costs_bind; [eapply costs_iterM; intros ? ?|intros ? ?; cgo].
    do 2 (eapply costs_inert_bind; [inert1|intros ? ?]). eapply costs_bind; [apply Hf|intros ? ?; cgo].
  - cfin.
Qed.
Lemma makes_eq L st l n : makes L st l (build_eq l n) (eq_size n).
Proof.
  apply makes_sub. intros mid s. eapply costs_eq; [|].
  - do 3 (eapply costs_bind; [cprim|intros ? ?]). eapply costs_bind; [|intros ? ?; cgo].
    apply (costs_foldM L st s _ (fun _ => Cost 3 0 0 0) (fun _ => True)); [|done]. intros b x _ _. eapply costs_eq; [cgo|cfin].
  - rewrite csum_const. cfin.
Qed.
Lemma makes_neq L st l md n eq_mid : (eq_mid, eq_size n) ∈ L -> makes L st l (build_neq md l n eq_mid) (neq_size n).
Proof. intros Hin. apply makes_sub. intros mid s. eapply costs_eq; [cgo|cfin]. Qed.
Lemma makes_add L st l n : (1 <= n)%nat -> makes L st l (build_add l n) (add_size n).
Proof.
  intros Hn. apply makes_sub. intros mid s. eapply costs_eq; [|].
  - do 3 (eapply costs_bind; [cgo1|intros ? ?]). eapply costs_inert_bind; [inert1|intros ? ?].
    eapply costs_bind; [|intros ? ?; cgo].
    apply (costs_foldM L st s _ (fun _ => Cost 2 0 0 0) (fun _ => True)); [|done]. intros b x _ _. eapply costs_eq; [cgo|cfin].
  - rewrite csum_const. cfin.
Qed.
Lemma makes_sub' L st l md n add_mid : (1 <= n)%nat -> (add_mid, add_size n) ∈ L -> makes L st l (build_sub md l n add_mid) (sub_size n).
Proof.
  intros Hn Hin. apply makes_sub. intros mid s. eapply costs_eq; [|].
  - do 6 (eapply costs_bind; [cgo1|intros ? ?]).
    eapply (costs_bind _ _ _ _ _ _ (ctimes n coutput)); [cgo1|intros outs Ho]. eapply costs_eq; [cgo|]. cfin.
  - cfin.
Qed.
(** Sums of the loops of the multipliers. *)
Lemma csum_add ts us : csum (ts ++ us) = cadd (csum ts) (csum us).
Proof.
  induction ts as [|t ts IH]; [by apply cost_eq|]. change (csum ((t :: ts) ++ us)) with (cadd t (csum (ts ++ us))). change (csum (t :: ts)) with (cadd t (csum ts)).
  rewrite IH. csolve.
Qed.
Lemma tri_step w : (w + 1) * (w + 2) / 2 = w * (w + 1) / 2 + (w + 1).
Proof. replace ((w + 1) * (w + 2)) with (w * (w + 1) + (w + 1) * 2) by lia. by rewrite N.div_add. Qed.
Lemma csum_mul g n k : (k <= n)%nat -> csum (map (fun i => Cost (N.of_nat (n - i) + g) (N.of_nat i) 0 0) (seq 0 k)) =
  Cost (N.of_nat k * g + N.of_nat k * N.of_nat n - N.of_nat k * (N.of_nat k - 1) / 2) (N.of_nat k * (N.of_nat k - 1) / 2) 0 0.
Proof.
  induction k as [|k IH]; intros Hk; [done|]. rewrite seq_S, map_app, csum_add, IH by lia. cbn [map csum foldr Nat.add].
  assert (T : N.of_nat (S k) * (N.of_nat (S k) - 1) / 2 = N.of_nat k * (N.of_nat k - 1) / 2 + N.of_nat k).
  { destruct k as [|k]; [done|]. replace (N.of_nat (S (S k)) * (N.of_nat (S (S k)) - 1)) with ((N.of_nat k + 1) * (N.of_nat k + 2)) by lia.
    rewrite tri_step. replace (N.of_nat (S k) * (N.of_nat (S k) - 1)) with (N.of_nat k * (N.of_nat k + 1)) by lia. lia. }
  apply cost_eq; csimp; rewrite ?T; try lia.
  assert (N.of_nat k * (N.of_nat k - 1) / 2 <= N.of_nat k * N.of_nat n).
  { transitivity (N.of_nat k * (N.of_nat k - 1)); [apply N.div_le_upper_bound; [done|]; generalize (N.of_nat k * (N.of_nat k - 1)); lia|].
    apply N.mul_le_mono_l. lia. }
  rewrite Nat2N.inj_succ, !N.mul_succ_l. generalize dependent (N.of_nat k * (N.of_nat k - 1) / 2). intros. lia.
Qed.
Lemma makes_mul L st l md n add_mid : (1 <= n)%nat -> (add_mid, add_size n) ∈ L -> makes L st l (build_mul md l n add_mid) (mul_size n).
Proof.
  intros Hn Hin. apply makes_sub. intros mid s. eapply costs_eq; [|].
  - do 3 (eapply costs_bind; [cgo1|intros ? ?]). eapply costs_bind; [|intros ? ?; cgo].
    apply (costs_foldM L st s _ (fun i => Cost (N.of_nat (n - i) + t_g (add_size n)) (N.of_nat i) 0 0) (fun _ => True)); [|done]. intros b x Hx _.
    eapply costs_post; [eapply costs_eq; [cgo|cfin]|done].
  - unfold range. rewrite !Nat.sub_0_r, csum_mul, seq_length by lia.
    assert (T : N.of_nat n * (N.of_nat n + 1) / 2 = N.of_nat n * (N.of_nat n - 1) / 2 + N.of_nat n).
    { replace (N.of_nat n * (N.of_nat n + 1)) with (N.of_nat n * (N.of_nat n - 1) + N.of_nat n * 2) by nia. by rewrite N.div_add. }
    cfin. assert (2 * (N.of_nat n * (N.of_nat n - 1) / 2) = N.of_nat n * (N.of_nat n - 1)).
    { symmetry. apply N.div_exact; [done|]. destruct n as [|k]; [done|]. rewrite Nat2N.inj_succ, N.sub_1_r, N.pred_succ.
      destruct (N.Even_or_Odd (N.of_nat k)) as [[q ->]|[q ->]].
      - replace (N.succ (2 * q) * (2 * q)) with ((N.succ (2 * q) * q) * 2) by lia. by apply N.mod_mul.
      - replace (N.succ (2 * q + 1) * (2 * q + 1)) with (((q + 1) * (2 * q + 1)) * 2) by lia. by apply N.mod_mul. }
    nia.
Qed.
Lemma makes_mul_extend L st l md n add_mid : (1 <= n)%nat -> (add_mid, add_size (2 * n)) ∈ L -> makes L st l (build_mul_extend md l n add_mid) (mul_extend_size n).
Proof.
  intros Hn Hin. apply makes_sub. intros mid s. eapply costs_eq; [|].
  - do 3 (eapply costs_bind; [cgo1|intros ? ?]). eapply costs_bind; [|intros ? ?; cgo].
    apply (costs_foldM L st s _ (fun i => Cost (N.of_nat n + t_g (add_size (2 * n))) (N.of_nat n) 0 0) (fun _ => True)); [|done]. intros b x Hx _.
    unfold range in Hx. apply elem_of_seq in Hx.
    eapply costs_post; [eapply costs_eq; [cgo|cfin]|done].
  - rewrite csum_const. unfold mul_extend_size. cfin.
Qed.
Lemma makes_less L st l md n suber_mid : (1 <= n)%nat -> (suber_mid, sub_size n) ∈ L -> makes L st l (build_less md l n suber_mid) (less_size n).
Proof. intros Hn Hin. apply makes_sub. intros mid s. eapply costs_eq; [cgo|cfin]. Qed.
Lemma makes_less_or_eq L st l md n less_mid eq_mid : (1 <= n)%nat -> (less_mid, less_size n) ∈ L -> (eq_mid, eq_size n) ∈ L ->
  makes L st l (build_less_or_eq md l n less_mid eq_mid) (less_or_eq_size n).
Proof. intros Hn Hin Hin'. apply makes_sub. intros mid s. eapply costs_eq; [cgo|cfin]. Qed.
Lemma makes_larger L st l md n m : (1 <= n)%nat -> (m, less_or_eq_size n) ∈ L -> makes L st l (build_larger md l n m) (larger_size n).
Proof. intros Hn Hin. apply makes_sub. intros mid s. eapply costs_eq; [cgo|cfin]. Qed.
Lemma makes_larger_or_eq L st l md n m : (1 <= n)%nat -> (m, less_size n) ∈ L -> makes L st l (build_larger_or_eq md l n m) (larger_or_eq_size n).
Proof. intros Hn Hin. apply makes_sub. intros mid s. eapply costs_eq; [cgo|cfin]. Qed.
Definition int_lib (cfg : int_config) (n : nat) : lib :=
  [(ic_larger_or_eq cfg, larger_or_eq_size n); (ic_larger cfg, larger_size n); (ic_less_or_eq cfg, less_or_eq_size n); (ic_less cfg, less_size n); (ic_neq cfg, neq_size n);
   (ic_eq cfg, eq_size n); (ic_mul cfg, mul_size n); (ic_sub cfg, sub_size n); (ic_add cfg, add_size n)].
Lemma int_config_steps L st l md n h cfg h' : (1 <= n)%nat -> site L st l h -> int_config_new md l n h = (Ok cfg, h') ->
  ic_ref cfg = l /\ site (int_lib cfg n ++ L) st l h' /\ grown st h h' /\
  exists h1, build_add l n h = (Ok (ic_add cfg), h1) /\ grown st h1 h'.
Proof.
  intros Hn S0 E. unfold int_config_new in E.
  apply bind_Ok in E as (m1 & h1 & E1 & E). destruct (makes_add L st l n Hn _ _ _ E1 S0) as [S1 O1].
  apply bind_Ok in E as (m2 & h2 & E2 & E). edestruct (fun Q => makes_sub' _ st l md n m1 Hn Q _ _ _ E2 S1) as [S2 O2]; [set_solver|].
  apply bind_Ok in E as (m3 & h3 & E3 & E). edestruct (fun Q => makes_mul _ st l md n m1 Hn Q _ _ _ E3 S2) as [S3 O3]; [set_solver|].
  apply bind_Ok in E as (m4 & h4 & E4 & E). destruct (makes_eq _ st l n _ _ _ E4 S3) as [S4 O4].
  apply bind_Ok in E as (m5 & h5 & E5 & E). edestruct (fun Q => makes_neq _ st l md n m4 Q _ _ _ E5 S4) as [S5 O5]; [set_solver|].
  apply bind_Ok in E as (m6 & h6 & E6 & E). edestruct (fun Q => makes_less _ st l md n m2 Hn Q _ _ _ E6 S5) as [S6 O6]; [set_solver|].
  apply bind_Ok in E as (m7 & h7 & E7 & E). edestruct (fun Q Q' => makes_less_or_eq _ st l md n m6 m4 Hn Q Q' _ _ _ E7 S6) as [S7 O7]; [set_solver..|].
  apply bind_Ok in E as (m8 & h8 & E8 & E). edestruct (fun Q => makes_larger _ st l md n m7 Hn Q _ _ _ E8 S7) as [S8 O8]; [set_solver|].
  apply bind_Ok in E as (m9 & h9 & E9 & E). edestruct (fun Q => makes_larger_or_eq _ st l md n m6 Hn Q _ _ _ E9 S8) as [S9 O9]; [set_solver|].
  injection E as <- <-. split; [done|]. split; [exact S9|].
  assert (G : grown st h1 h9) by repeat (eassumption || eapply grown_trans). split; [by eapply grown_trans|]. eauto.
Qed.
Lemma int_config_site L st l md n h cfg h' : (1 <= n)%nat -> site L st l h -> int_config_new md l n h = (Ok cfg, h') ->
  ic_ref cfg = l /\ site (int_lib cfg n ++ L) st l h' /\ grown st h h'.
Proof. intros Hn S0 E. destruct (int_config_steps L st l md n h cfg h' Hn S0 E) as (Href & S1 & G & _). done. Qed.

(** * Values *)
Section ints.
Context (L : lib) (st l n : nat) (cfg : int_config) (Href : ic_ref cfg = l) (HL : forall a, a ∈ int_lib cfg n -> a ∈ L).
Definition iok (z : aint) : Prop := ai_cfg z = cfg /\ length (ai_val z) = n.
Lemma costs_from_gate_ids v : costs L st l (int_from_gate_ids v cfg n) (ctimes (n - length v) cconst) iok.
Proof using Href.
  unfold int_from_gate_ids. rewrite Href. destruct decide as [Hd|]; [|by apply costs_none].
  eapply costs_eq; [eapply costs_bind; [apply costs_consts|]|].
  - intros pad Hp. apply costs_inert, inert_ret. split; [done|]. cbn [ai_val]. cbv beta in *. rewrite app_length. lia.
  - csolve.
Qed.
Lemma costs_from_bit g : costs L st l (int_from_gate_ids [g] cfg n) (ctimes (n - 1) cconst) iok.
Proof using Href. apply (costs_from_gate_ids [g]). Qed.
Lemma costs_from_biguint v : costs L st l (int_from_biguint v cfg n) (ctimes n cconst) iok.
Proof using Href.
  unfold int_from_biguint. rewrite Href. destruct decide as [Hd|]; [|by apply costs_none].
  eapply costs_eq; [eapply costs_bind; [cgo1|intros val [Hv _]; eapply costs_bind; [apply costs_consts|]]|].
  - intros pad Hp. apply costs_inert, inert_ret. split; [done|]. cbn [ai_val]. cbv beta in *. rewrite app_length, Hv, range_length. lia.
  - cfin.
Qed.
Lemma costs_new : costs L st l (int_new cfg n) (ctimes n cinput) iok.
Proof using Href.
  unfold int_new. rewrite Href. eapply costs_eq; [eapply costs_bind; [apply costs_inputs|]|].
  - intros v Hv. by apply costs_inert, inert_ret.
  - csolve.
Qed.
Lemma costs_zero : costs L st l (int_zero cfg n) (ctimes n cconst) iok.
Proof using Href. unfold int_zero. eapply costs_eq; [apply costs_from_gate_ids|]. cbn [length]. by rewrite Nat.sub_0_r. Qed.
Lemma costs_one : (1 <= n)%nat -> costs L st l (int_one cfg n) (ctimes n cconst) iok.
Proof using Href.
  intros Hn. unfold int_one. rewrite Href at 1. eapply costs_eq; [eapply costs_bind; [apply costs_constant|intros; apply costs_from_bit]|]. csolve.
Qed.
Lemma costs_int_output x : iok x -> costs L st l (int_output x n) (ctimes n coutput) (fun _ => True).
Proof using Href. intros [Hc _]. unfold int_output. rewrite Hc, Href. eapply costs_eq; [cgo|cfin]. Qed.
Lemma costs_int_call f t md x y : (f cfg, t) ∈ L -> t_o t = N.of_nat n -> iok x -> costs L st l (int_call f md x y) (cuse t) iok.
Proof using Href.
  intros Hin Ht [Hc _]. unfold int_call. rewrite Hc, Href. eapply costs_eq; [eapply costs_bind; [apply costs_expect, costs_module, Hin|]|].
  - intros outs Ho. apply costs_inert, inert_ret. split; [done|]. cbn [ai_val]. cbv beta in *. lia.
  - csolve.
Qed.
Lemma costs_int_add md x y : iok x -> costs L st l (int_add md x y) (cuse (add_size n)) iok.
Proof using Href HL. apply costs_int_call; [apply HL; set_solver|done]. Qed.
Lemma costs_int_sub md x y : iok x -> costs L st l (int_sub md x y) (cuse (sub_size n)) iok.
Proof using Href HL. apply costs_int_call; [apply HL; set_solver|done]. Qed.
Lemma costs_int_mul md x y : iok x -> costs L st l (int_mul md x y) (cuse (mul_size n)) iok.
Proof using Href HL. apply costs_int_call; [apply HL; set_solver|done]. Qed.
Lemma costs_int_neg md x : iok x -> costs L st l (int_neg md x n) (cadd (ctimes n cconst) (cuse (sub_size n))) iok.
Proof using Href HL. intros [Hc _]. unfold int_neg. rewrite Hc. eapply costs_bind; [apply costs_expect, costs_zero|]. intros z Hz. by apply costs_int_sub. Qed.
Lemma costs_int_cmp f t md x y : (f cfg, t) ∈ L -> iok x -> costs L st l (int_cmp f md x y n) (cuse t) (fun _ => True).
Proof using Href.
  intros Hin [Hc _]. unfold int_cmp. rewrite Hc, Href. do 2 (eapply costs_inert_bind; [apply inert_slice|intros ? _]). by apply costs_call_bit.
Qed.
Lemma costs_ccall c md x y : iok x -> costs L st l (ccall c md x y n) (cuse (cmp_size n c)) (fun _ => True).
Proof using Href HL. destruct c; apply costs_int_cmp; apply HL; set_solver. Qed.
Lemma inert_mapM {A B} (f : A -> M B) xs : (forall x, inert (f x) (fun _ => True)) -> inert (st_mapM f xs) (fun ys => length ys = length xs).
Proof.
  intros H. induction xs as [|x xs IH]; cbn [st_mapM]; [by apply inert_ret|]. eapply inert_bind; [apply H|intros y _]. eapply inert_bind; [exact IH|].
  intros ys Hl. apply inert_ret. cbn. by rewrite Hl.
Qed.
Lemma inert_post {A} (m : M A) (Q Q' : A -> Prop) : inert m Q -> (forall a, Q a -> Q' a) -> inert m Q'.
Proof. intros H Hq h r h' E. destruct (H _ _ _ E). auto. Qed.
Lemma costs_shift_left x k : (k <= n)%nat -> iok x -> costs L st l (int_shift_left x k n) (ctimes k cconst) iok.
Proof using Href.
  intros Hk [Hc Hl]. unfold int_shift_left. rewrite Hc, Href. eapply costs_eq; [eapply costs_bind; [apply costs_consts|intros zs Hz]|].
  - eapply costs_inert_bind; [apply inert_mapM; intros; eapply inert_post; [apply inert_nth|done]|intros rest Hr].
    apply costs_inert, inert_ret. split; [done|]. cbn [ai_val]. cbv beta in *. rewrite app_length, Hr, range_length. lia.
  - csolve.
Qed.
Lemma costs_shift_right md x k : (k <= n)%nat -> iok x -> costs L st l (int_shift_right md x k n) czero iok.
Proof using Href.
  intros Hk [Hc Hl]. unfold int_shift_right. rewrite Hc.
  eapply costs_inert_bind; [apply inert_sub|intros top _]. eapply costs_inert_bind; [apply inert_nth|intros sg _].
  assert (Sub : inert (usize_sub_n md n k) (fun m => m = n - k)%nat).
  { eapply inert_post; [apply inert_sub|]. intros m. unfold usize_sub. rewrite (proj2 (N.leb_le _ _)) by lia. intros [= Hm]. lia. }
  eapply costs_inert_bind; [exact Sub|intros m ->].
  eapply costs_inert_bind; [apply inert_mapM; intros; eapply inert_post; [apply inert_nth|done]|intros low Hlow].
  eapply costs_inert_bind; [exact Sub|intros m ->].
  eapply costs_inert_bind; [apply inert_mapM; intros; by apply inert_ret|intros high Hhigh].
  apply costs_inert, inert_ret. split; [done|]. cbn [ai_val]. cbv beta in *. rewrite app_length, Hlow, Hhigh, !range_length. lia.
Qed.
Lemma costs_ibuild md vars e : (1 <= n)%nat -> Forall iok vars -> iwf (length vars) n e -> costs L st l (ibuild md cfg n vars e) (icost n e) iok.
Proof using Href HL.
  intros Hn HV. induction e; cbn [ibuild icost iwf]; intros W; try (lazymatch type of W with _ /\ _ => destruct W as [W1 W2] end).
  - eapply costs_post; [apply costs_inert, inert_nth|]. intros a Ha. exact (Forall_lookup_1 _ _ _ _ HV Ha).
  - apply costs_from_biguint.
  - apply costs_zero.
  - by apply costs_one.
  - eapply costs_eq; [eapply costs_bind; [by apply IHe1|intros x Hx; eapply costs_bind; [by apply IHe2|intros y Hy; by apply costs_int_add]]|csolve].
  - eapply costs_eq; [eapply costs_bind; [by apply IHe1|intros x Hx; eapply costs_bind; [by apply IHe2|intros y Hy; by apply costs_int_sub]]|csolve].
  - eapply costs_eq; [eapply costs_bind; [by apply IHe1|intros x Hx; eapply costs_bind; [by apply IHe2|intros y Hy; by apply costs_int_mul]]|csolve].
  - eapply costs_bind; [by apply IHe|intros x Hx; by apply costs_int_neg].
  - eapply costs_bind; [by apply IHe|intros x Hx; by apply costs_shift_left].
  - eapply costs_eq; [eapply costs_bind; [by apply IHe|intros x Hx; by apply costs_shift_right]|csolve].
  - eapply costs_bind; [by apply IHe|intros x [Hc Hx]]. rewrite Hc. eapply costs_eq; [apply costs_from_gate_ids|]. rewrite take_length, Hx. f_equal. lia.
  - eapply costs_eq; [eapply costs_bind; [by apply IHe1|intros x Hx; eapply costs_bind; [by apply IHe2|intros y Hy]]|].
    + eapply costs_bind; [by apply costs_ccall|intros g _]. apply costs_from_bit.
    + csolve.
Qed.
End ints.

(** * Programs *)
Lemma costs_sbuild L st l n cfg md p : ic_ref cfg = l -> (forall a, a ∈ int_lib cfg n -> a ∈ L) -> (1 <= n)%nat -> forall vars,
  pwf n (length vars) p -> Forall (iok n cfg) vars -> costs L st l (sbuild md cfg n vars p) (scost n p) (fun _ => True).
Proof.
  intros Href HL Hn. induction p as [|i p IH]; intros vars W HV; [by apply costs_inert, inert_ret|].
  destruct i as [|e|d e|k]; cbn [sbuild scost pwf] in *.
  - eapply costs_bind; [by apply costs_new|intros x Hx]. apply IH; [rewrite app_length, Nat.add_1_r; exact W|]. apply Forall_app. split; [done|by apply Forall_singleton].
  - destruct W as [We W]. eapply costs_bind; [by eapply costs_ibuild|intros x Hx].
    apply IH; [rewrite app_length, Nat.add_1_r; exact W|]. apply Forall_app. split; [done|by apply Forall_singleton].
  - destruct W as (_ & We & W). eapply costs_bind; [by eapply costs_ibuild|intros x Hx]. apply IH; [by rewrite insert_length|]. by apply Forall_insert.
  - destruct W as (_ & W). eapply costs_inert_bind; [apply inert_nth|intros x Hx]. cbn beta in Hx.
    assert (iok n cfg x) by (eapply Forall_lookup_1; [exact HV|exact Hx]).
    eapply costs_bind; [by eapply costs_int_output|intros _ _]. by apply IH.
Qed.
Lemma tally_size s h h' c t : h_circ h !! s = Some c -> tally s h h' t -> exists c', h_circ h' !! s = Some c' /\ counters c' = cadd (counters c) t.
Proof. intros E T. destruct (ta_self _ _ _ _ T c E) as (c' & E' & _ & Hc & _). eauto. Qed.
Lemma int_sizes_site L st l n cfg h : ic_ref cfg = l -> (forall a, a ∈ int_lib cfg n -> a ∈ L) -> site L st l h -> int_sizes h l n cfg.
Proof.
  intros Href HL [[(c & E & St) R] _]. split; [done|..]; (eapply callable_size; [exact E|exact St|]); apply R, HL; set_solver.
Qed.
Section fields.
Context (L : lib) (st l n r : nat) (cfg : int_config) (md : mode) (Hn : (1 <= n)%nat) (Hr : (r <= n)%nat) (HL : forall a, a ∈ int_lib cfg n -> a ∈ L).
Lemma makes_fp_add p : makes L st l (fp_build_add md l cfg n p) (fp_add_size n).
Proof using Hn Hr HL.
  apply makes_sub. intros mid s. set (cfg' := with_ref cfg s). cbv zeta.
  assert (Href : ic_ref cfg' = s) by done. assert (HL' : forall a, a ∈ int_lib cfg' n -> a ∈ L) by done.
  assert (Hlg : (ic_larger cfg', larger_size n) ∈ L) by (apply HL'; set_solver).
  assert (Hle : (ic_less cfg', less_size n) ∈ L) by (apply HL'; set_solver).
  eapply costs_eq; [|].
  - eapply costs_bind; [by apply costs_new|intros x Hx]. eapply costs_bind; [by apply costs_new|intros y Hy].
    eapply costs_bind; [by apply costs_from_biguint|intros pi Hpi]. eapply costs_bind; [by eapply costs_int_add|intros sum Hsum].
    eapply costs_bind; [by eapply costs_int_cmp|intros g1 _]. eapply costs_bind; [by apply costs_from_bit|intros i1 Hi1].
    eapply costs_bind; [by apply costs_zero|intros z Hz]. eapply costs_bind; [by eapply costs_int_neg|intros mz Hmz].
    eapply costs_bind; [by eapply costs_int_cmp|intros g2 _]. eapply costs_bind; [by apply costs_from_bit|intros i2 Hi2].
    eapply costs_bind; [apply costs_or|intros g3 _]. eapply costs_bind; [apply costs_not|intros g4 _].
    eapply costs_bind; [by apply costs_from_bit|intros i3 Hi3]. eapply costs_bind; [by eapply costs_int_sub|intros d Hd].
    eapply costs_bind; [by eapply costs_int_mul|intros a Ha]. eapply costs_bind; [by eapply costs_int_add|intros e He].
    eapply costs_bind; [by eapply costs_int_mul|intros b Hb]. eapply costs_bind; [by eapply costs_int_add|intros ab Hab].
    eapply costs_bind; [by eapply costs_int_mul|intros c Hc]. eapply costs_bind; [by eapply costs_int_add|intros out Hout].
    eapply costs_bind; [by eapply costs_int_output|intros _ _]. by apply costs_inert, inert_ret.
  - unfold fp_add_size. cfin.
Qed.
Lemma makes_fp_sub add_mid : (add_mid, fp_add_size n) ∈ L -> makes L st l (fp_build_sub md l cfg n add_mid) (fp_sub_size n).
Proof using Hn Hr HL.
  intros Hin. apply makes_sub. intros mid s. set (cfg' := with_ref cfg s). cbv zeta.
  assert (Href : ic_ref cfg' = s) by done. assert (HL' : forall a, a ∈ int_lib cfg' n -> a ∈ L) by done.
  eapply costs_eq; [|].
  - eapply costs_bind; [by apply costs_new|intros x Hx]. eapply costs_bind; [by apply costs_new|intros y Hy].
    eapply costs_bind; [by eapply costs_int_neg|intros ny Hny]. eapply costs_bind; [by eapply costs_module|intros outs Ho].
    eapply (costs_bind _ _ _ _ _ czero).
    { eapply costs_eq; [by apply costs_from_gate_ids|]. cbn [t_o fp_add_size] in Ho. replace (n - length outs)%nat with O by lia. csolve. }
    intros out Hout. eapply costs_bind; [by eapply costs_int_output|intros _ _]. by apply costs_inert, inert_ret.
  - unfold fp_sub_size, fp_add_size. cfin.
Qed.
Lemma costs_clear s f v : costs L st s (clear_bits s f r n v) (ctimes (n - r) cgate) (fun v' => length v' = length v).
Proof using Hn Hr.
  unfold clear_bits. eapply costs_eq; [apply (costs_foldM L st s _ (fun _ => cgate) (fun v' => length v' = length v)); [|done]|].
  - intros b x _ Hb. eapply costs_inert_bind; [apply inert_nth|intros g _]. eapply costs_eq; [eapply costs_bind; [apply costs_and|intros g' _]|].
    + apply costs_inert, inert_ret. by rewrite insert_length.
    + csolve.
  - by rewrite csum_const, range_length.
Qed.
Lemma makes_mont_red p pmi : makes L st l (fp_build_mont_red md l cfg n p pmi r) (mont_red_size n r).
Proof using Hn Hr HL.
  apply makes_sub. intros mid s. set (cfg' := with_ref cfg s). cbv zeta.
  assert (Href : ic_ref cfg' = s) by done. assert (HL' : forall a, a ∈ int_lib cfg' n -> a ∈ L) by done.
  assert (Hlg : (ic_larger_or_eq cfg', larger_or_eq_size n) ∈ L) by (apply HL'; set_solver).
  eapply costs_eq; [|].
  - eapply costs_bind; [by apply costs_new|intros x Hx]. eapply costs_bind; [by apply costs_from_biguint|intros pi Hpi].
    eapply costs_bind; [by apply costs_from_biguint|intros pm Hpm]. eapply costs_bind; [by eapply costs_int_mul|intros vp [Hvc Hvl]].
    eapply costs_bind; [apply costs_constant|intros f _]. eapply costs_bind; [apply costs_clear|intros v Hv]. cbv beta in Hv.
    assert (Hvp : iok n cfg' (AInt v (ai_cfg vp))) by (split; [done|cbn; congruence]).
    eapply costs_bind; [by eapply costs_int_mul|intros a Ha]. eapply costs_bind; [by eapply costs_int_add|intros b Hb].
    eapply costs_bind; [by eapply costs_shift_right|intros t Ht]. eapply costs_bind; [by eapply costs_int_cmp|intros g _].
    eapply costs_bind; [by apply costs_from_bit|intros i1 Hi1]. eapply costs_bind; [by apply costs_one|intros one Hone].
    eapply costs_bind; [by eapply costs_int_sub|intros c Hc]. eapply costs_bind; [by eapply costs_int_sub|intros d Hd].
    eapply costs_bind; [by eapply costs_int_mul|intros e He]. eapply costs_bind; [by eapply costs_int_mul|intros ff Hff].
    eapply costs_bind; [by eapply costs_int_sub|intros out Hout].
    eapply costs_bind; [by eapply costs_int_output|intros _ _]. by apply costs_inert, inert_ret.
  - unfold mont_red_size. cfin.
Qed.
Lemma makes_fp_mul r2 red_mid : (red_mid, mont_red_size n r) ∈ L -> makes L st l (fp_build_mul md l cfg n r2 red_mid) (fp_mul_size n r).
Proof using Hn Hr HL.
  intros Hin. apply makes_sub. intros mid s. set (cfg' := with_ref cfg s). cbv zeta.
  assert (Href : ic_ref cfg' = s) by done. assert (HL' : forall a, a ∈ int_lib cfg' n -> a ∈ L) by done.
  assert (Pad : forall outs, N.of_nat (length outs) = t_o (mont_red_size n r) -> costs L st s (int_from_gate_ids outs cfg' n) czero (iok n cfg')).
  { intros outs Ho. eapply costs_eq; [by apply costs_from_gate_ids|]. cbn [t_o mont_red_size] in Ho. replace (n - length outs)%nat with O by lia. csolve. }
  eapply costs_eq; [|].
  - eapply costs_bind; [by apply costs_new|intros x Hx]. eapply costs_bind; [by apply costs_new|intros y Hy].
    eapply costs_bind; [by eapply costs_int_mul|intros lr Hlr]. eapply costs_bind; [by eapply costs_module|intros outs Ho].
    eapply costs_bind; [by apply Pad|intros a Ha]. eapply costs_bind; [by apply costs_from_biguint|intros b Hb].
    eapply costs_bind; [by eapply costs_int_mul|intros c Hc]. eapply costs_bind; [by eapply costs_module|intros outs' Ho'].
    eapply costs_bind; [by apply Pad|intros out Hout].
    eapply costs_bind; [by eapply costs_int_output|intros _ _]. by apply costs_inert, inert_ret.
  - unfold fp_mul_size, mont_red_size. cfin.
Qed.
End fields.
Definition fp_lib (cfg : fp_config) (n r : nat) : lib :=
  [(fc_mul cfg, fp_mul_size n r); (fc_mont_red cfg, mont_red_size n r); (fc_sub cfg, fp_sub_size n); (fc_add cfg, fp_add_size n)] ++ int_lib (fc_int cfg) n.
Lemma fp_setup_site L st l md n p r h cfg h' : (1 <= n)%nat -> (r <= n)%nat -> site L st l h -> fp_setup md l n p r h = (Ok cfg, h') ->
  fc_ref cfg = l /\ ic_ref (fc_int cfg) = l /\ site (fp_lib cfg n r ++ L) st l h' /\ grown st h h'.
Proof.
  intros Hn Hr S0 E. unfold fp_setup in E. apply bind_Ok in E as (icfg & h1 & E1 & E). destruct (int_config_site L st l md n h icfg h1 Hn S0 E1) as (Href & S1 & O1).
  unfold fp_config_new in E. cbv zeta in E. apply bind_Ok in E as (pinv & h2 & E2 & E). destruct (inert_lift _ _ _ _ E2) as [-> _].
  apply bind_Ok in E as (pmi & h3 & E3 & E). assert (h3 = h1) as -> by (unfold big_sub in E3; destruct (_ <=? _); [by injection E3|done]).
  assert (HL1 : forall a, a ∈ int_lib icfg n -> a ∈ int_lib icfg n ++ L) by set_solver.
  apply bind_Ok in E as (m1 & h4 & E4 & E). destruct (makes_fp_add _ st l n r icfg md Hn Hr HL1 p _ _ _ E4 S1) as [S2 O2].
  apply bind_Ok in E as (m2 & h5 & E5 & E). edestruct (fun HL Q => makes_fp_sub _ st l n r icfg md Hn Hr HL m1 Q _ _ _ E5 S2) as [S3 O3]; [intros a Ha; right; by apply HL1|left|].
  apply bind_Ok in E as (m3 & h6 & E6 & E). edestruct (fun HL => makes_mont_red _ st l n r icfg md Hn Hr HL p pmi _ _ _ E6 S3) as [S4 O4]; [intros a Ha; do 2 right; by apply HL1|].
  apply bind_Ok in E as (m4 & h7 & E7 & E). edestruct (fun HL Q => makes_fp_mul _ st l n r icfg md Hn Hr HL (fp_r2 r) m3 Q _ _ _ E7 S4) as [S5 O5]; [intros a Ha; do 3 right; by apply HL1|left|].
  injection E as <- <-. split; [done|]. split; [done|]. split; [exact S5|]. repeat (eassumption || eapply grown_trans).
Qed.
Section fvals.
Context (L : lib) (st l n r : nat) (cfg : fp_config) (Hn : (1 <= n)%nat) (Href : fc_ref cfg = l) (Href' : ic_ref (fc_int cfg) = l) (HL : forall a, a ∈ fp_lib cfg n r -> a ∈ L).
Definition fok' (z : afp) : Prop := af_cfg z = cfg /\ iok n (fc_int cfg) (af_val z).
Lemma costs_fp_lift (m : M aint) t : costs L st l m t (iok n (fc_int cfg)) -> costs L st l (v <- m ;; st_ret (AFp v cfg)) t fok'.
Proof using Hn Href Href'. intros H. eapply costs_eq; [eapply costs_bind; [exact H|intros v Hv; apply costs_inert, inert_ret; by split]|csolve]. Qed.
Lemma costs_fp_call f t md x y : (f cfg, t) ∈ L -> t_o t = N.of_nat n -> fok' x -> costs L st l (fp_call f md x y n) (cuse t) fok'.
Proof using Hn Href Href'.
  intros Hin Ht [Hc _]. unfold fp_call. rewrite Hc, Href. eapply costs_eq; [eapply costs_bind; [apply costs_expect, costs_module, Hin|intros outs Ho]|].
  - apply (costs_eq _ _ _ _ (ctimes 0 cconst)); [|reflexivity]. unfold fp_from_gate_ids. apply costs_fp_lift, costs_expect.
    eapply costs_eq; [by apply costs_from_gate_ids|]. f_equal. cbv beta in Ho. lia.
  - csolve.
Qed.
Lemma costs_fbuild md vars e : Forall fok' vars -> costs L st l (fbuild md cfg n vars e) (fcost n r e) fok'.
Proof using Hn Href Href' HL.
  intros HV. assert (HA : (fc_add cfg, fp_add_size n) ∈ L) by (apply HL; set_solver). assert (HS : (fc_sub cfg, fp_sub_size n) ∈ L) by (apply HL; set_solver).
  assert (HM : (fc_mul cfg, fp_mul_size n r) ∈ L) by (apply HL; set_solver).
  induction e; cbn [fbuild fcost].
  - eapply costs_post; [apply costs_inert, inert_nth|]. intros a Ha. exact (Forall_lookup_1 _ _ _ _ HV Ha).
  - by apply costs_fp_lift, costs_expect, costs_from_biguint.
  - by apply costs_fp_lift, costs_zero.
  - by apply costs_fp_lift, costs_one.
  - eapply costs_eq; [eapply costs_bind; [by apply IHe1|intros x Hx; eapply costs_bind; [by apply IHe2|intros y Hy; by apply (costs_fp_call fc_add)]]|csolve].
  - eapply costs_eq; [eapply costs_bind; [by apply IHe1|intros x Hx; eapply costs_bind; [by apply IHe2|intros y Hy; by apply (costs_fp_call fc_sub)]]|csolve].
  - eapply costs_eq; [eapply costs_bind; [by apply IHe1|intros x Hx; eapply costs_bind; [by apply IHe2|intros y Hy; by apply (costs_fp_call fc_mul)]]|csolve].
  - eapply costs_bind; [by apply IHe|intros x [Hc Hx]]. unfold fp_neg. rewrite Hc. eapply costs_bind; [by apply costs_expect, costs_fp_lift, costs_zero|].
    intros z Hz. by apply (costs_fp_call fc_sub).
Qed.
End fvals.

(** * Bit vectors *)
Definition bits_lib (cfg : bits_config) (n : nat) : lib :=
  [(bc_neq cfg, neq_size n); (bc_eq cfg, eq_size n); (bc_xor cfg, binary_size n); (bc_or cfg, binary_size n); (bc_and cfg, binary_size n); (bc_not cfg, not_size n)].
Lemma bits_config_site L st l md n h cfg h' : site L st l h -> bits_config_new md l n h = (Ok cfg, h') ->
  bc_ref cfg = l /\ site (bits_lib cfg n ++ L) st l h' /\ grown st h h'.
Proof.
  intros S0 E. unfold bits_config_new in E.
  apply bind_Ok in E as (m1 & h1 & E1 & E). destruct (makes_not L st l n _ _ _ E1 S0) as [S1 O1].
  apply bind_Ok in E as (m2 & h2 & E2 & E). edestruct (fun Q => makes_binary _ st l n r_and Q _ _ _ E2 S1) as [S2 O2]; [intros; apply costs_and|].
  apply bind_Ok in E as (m3 & h3 & E3 & E). edestruct (fun Q => makes_binary _ st l n r_or Q _ _ _ E3 S2) as [S3 O3]; [intros; apply costs_or|].
  apply bind_Ok in E as (m4 & h4 & E4 & E). edestruct (fun Q => makes_binary _ st l n r_xor Q _ _ _ E4 S3) as [S4 O4]; [intros; apply costs_xor|].
  apply bind_Ok in E as (m5 & h5 & E5 & E). destruct (makes_eq _ st l n _ _ _ E5 S4) as [S5 O5].
  apply bind_Ok in E as (m6 & h6 & E6 & E). edestruct (fun Q => makes_neq _ st l md n m5 Q _ _ _ E6 S5) as [S6 O6]; [left|].
  injection E as <- <-. split; [done|]. split; [exact S6|]. repeat (eassumption || eapply grown_trans).
Qed.
Section bvals.
Context (L : lib) (st l n : nat) (cfg : bits_config) (Href : bc_ref cfg = l) (HL : forall a, a ∈ bits_lib cfg n -> a ∈ L).
Definition bok (z : abits) : Prop := ab_cfg z = cfg /\ length (ab_bits z) = n.
Lemma costs_bits_ids v : costs L st l (bits_from_gate_ids v cfg n) (ctimes (n - length v) cconst) bok.
Proof using Href.
  unfold bits_from_gate_ids. rewrite Href. destruct decide as [Hd|]; [|by apply costs_none].
  eapply costs_eq; [eapply costs_bind; [apply costs_consts|]|].
  - intros pad Hp. apply costs_inert, inert_ret. split; [done|]. cbn [ab_bits]. cbv beta in *. rewrite app_length. lia.
  - csolve.
Qed.
Lemma costs_call_bits md mid t ids : (mid, t) ∈ L -> t_o t = N.of_nat n -> costs L st l (call_bits md mid ids cfg) (cuse t) bok.
Proof using Href.
  intros Hin Ht. unfold call_bits. rewrite Href. eapply costs_eq; [eapply costs_bind; [apply costs_expect, costs_module, Hin|intros outs Ho]|].
  - apply costs_inert, inert_ret. split; [done|]. cbn [ab_bits]. cbv beta in *. lia.
  - csolve.
Qed.
Lemma costs_mux x y s : bok x -> costs L st l (bits_mux x y s n) (mux_cost n) bok.
Proof using Href.
  intros [Hc _]. unfold bits_mux. cbv zeta. rewrite Hc, Href. eapply costs_eq; [eapply costs_bind; [apply costs_not|intros ns _]|].
  - eapply costs_bind; [cgo1|intros sel [Hsel _]]. apply costs_inert, inert_ret. split; [done|]. cbn [ab_bits]. by rewrite Hsel, seq_length.
  - unfold mux_cost. cfin.
Qed.
Lemma costs_bbuild md vars e : Forall bok vars -> bwf (length vars) n e -> costs L st l (bbuild md n vars e) (bcost n e) bok.
Proof using Href HL.
  intros HV. assert (H1 : (bc_not cfg, not_size n) ∈ L) by (apply HL; set_solver). assert (H2 : (bc_and cfg, binary_size n) ∈ L) by (apply HL; set_solver).
  assert (H3 : (bc_or cfg, binary_size n) ∈ L) by (apply HL; set_solver). assert (H4 : (bc_xor cfg, binary_size n) ∈ L) by (apply HL; set_solver).
  assert (H5 : (bc_eq cfg, eq_size n) ∈ L) by (apply HL; set_solver). assert (H6 : (bc_neq cfg, neq_size n) ∈ L) by (apply HL; set_solver).
  induction e; cbn [bbuild bcost bwf]; intros W; repeat (lazymatch goal with H : _ /\ _ |- _ => destruct H end).
  - eapply costs_post; [apply costs_inert, inert_nth|]. intros a Ha. exact (Forall_lookup_1 _ _ _ _ HV Ha).
  - eapply costs_bind; [by apply IHe|intros x [Hc Hx]]. unfold bits_not. rewrite Hc. by apply costs_call_bits.
  - eapply costs_eq; [eapply costs_bind; [by apply IHe1|intros x [Hc Hx]; eapply costs_bind; [by apply IHe2|intros y Hy; unfold bits_and; rewrite Hc; by apply costs_call_bits]]|csolve].
  - eapply costs_eq; [eapply costs_bind; [by apply IHe1|intros x [Hc Hx]; eapply costs_bind; [by apply IHe2|intros y Hy; unfold bits_or; rewrite Hc; by apply costs_call_bits]]|csolve].
  - eapply costs_eq; [eapply costs_bind; [by apply IHe1|intros x [Hc Hx]; eapply costs_bind; [by apply IHe2|intros y Hy; unfold bits_xor; rewrite Hc; by apply costs_call_bits]]|csolve].
  - eapply costs_eq; [eapply costs_bind; [by apply IHe1|intros a [Hca Ha]]; eapply costs_bind; [by apply IHe2|intros b Hb]|].
    + eapply costs_bind; [unfold bits_eq; rewrite Hca, Href; by apply costs_call_bit|intros s _]. eapply costs_bind; [by apply IHe3|intros x Hx].
      eapply costs_bind; [by apply IHe4|intros y Hy]. by apply costs_mux.
    + csolve.
  - eapply costs_eq; [eapply costs_bind; [by apply IHe1|intros a [Hca Ha]]; eapply costs_bind; [by apply IHe2|intros b Hb]|].
    + eapply costs_bind; [unfold bits_neq; rewrite Hca, Href; by apply costs_call_bit|intros s _]. eapply costs_bind; [by apply IHe3|intros x Hx].
      eapply costs_bind; [by apply IHe4|intros y Hy]. by apply costs_mux.
    + csolve.
  - eapply costs_bind; [by apply IHe|intros x [Hc Hx]]. rewrite Hc. eapply costs_eq; [apply costs_bits_ids|]. rewrite take_length, Hx. f_equal. lia.
Qed.
End bvals.

(** * C68: sizes *)
Lemma fits_le n p r : fp_fits n p r -> (1 <= n)%nat /\ (r <= n)%nat.
Proof. intros (H1 & _ & H2). pose proof (Nat.mul_div_le n 8). lia. Qed.
(** The modules of a configuration of any width, on any circuit; the circuit itself and the circuits that existed are not touched. *)
Theorem C68_int md h l n : (1 <= n)%nat -> base h l -> exists cfg h', int_config_new md l n h = (Ok cfg, h') /\ old_same h h' /\ int_sizes h' l n cfg.
Proof.
  intros Hn Hb. destruct (int_config_new_ok md h l n Hn Hb) as (cfg & h' & E & _). exists cfg, h'. split; [done|]. destruct Hb as [D [c Ec]].
  destruct (int_config_site [] (c_storage c) l md n h cfg h' Hn) as (Href & S & O); [by apply site_base|done|]. split; [exact (gr_old _ _ _ O)|].
  eapply int_sizes_site; [done| |exact S]. intros a Ha. apply elem_of_app. by left.
Qed.
Theorem C68_fp md h l n p r : fp_fits n p r -> base h l -> exists cfg h', fp_setup md l n p r h = (Ok cfg, h') /\ old_same h h' /\ fp_sizes h' l n r cfg.
Proof.
  intros Hf Hb. destruct (fp_setup_ok md h l n p r Hf Hb) as (cfg & h' & v & E & _). exists cfg, h'. split; [done|]. destruct Hb as [D [c Ec]].
  destruct (fp_setup_site [] (c_storage c) l md n p r h cfg h') as (Href & Href' & S & O); [by apply (fits_le n p r)|by apply (fits_le n p r)|by apply site_base|done|]. split; [exact (gr_old _ _ _ O)|].
  assert (HL : forall a, a ∈ fp_lib cfg n r -> a ∈ fp_lib cfg n r ++ []) by (intros a Ha; apply elem_of_app; by left).
  pose proof S as [[(c' & E' & St) R] _]. split; [done| |..].
  - eapply int_sizes_site; [done| |exact S]. intros a Ha. apply HL, elem_of_app. by right.
  - eapply callable_size; [exact E'|exact St|]. apply R, HL. unfold fp_lib. set_solver-.
  - eapply callable_size; [exact E'|exact St|]. apply R, HL. unfold fp_lib. set_solver-.
  - eapply callable_size; [exact E'|exact St|]. apply R, HL. unfold fp_lib. set_solver-.
  - eapply callable_size; [exact E'|exact St|]. apply R, HL. unfold fp_lib. set_solver-.
Qed.
Theorem C68_bits md h l n : base h l -> exists cfg h', bits_config_new md l n h = (Ok cfg, h') /\ old_same h h' /\ bits_sizes h' l n cfg.
Proof.
  intros Hb. destruct (bits_config_new_ok md h l n Hb) as (cfg & h' & E & _). exists cfg, h'. split; [done|]. destruct Hb as [D [c Ec]].
  destruct (bits_config_site [] (c_storage c) l md n h cfg h') as (Href & S & O); [by apply site_base|done|]. split; [exact (gr_old _ _ _ O)|].
  pose proof S as [[(c' & E' & St) R] _]. split; [done|..]; (eapply callable_size; [exact E'|exact St|]); apply R, elem_of_app; left; unfold bits_lib; set_solver-.
Qed.
(** The extended multiplier, given an adder of twice the width. *)
Theorem C68_mul_extend md h l n : (1 <= n)%nat -> base h l -> forall add_mid h1 mid h', build_add l (2 * n) h = (Ok add_mid, h1) -> build_mul_extend md l n add_mid h1 = (Ok mid, h') ->
  old_same h h' /\ module_size h' l add_mid (add_size (2 * n)) /\ module_size h' l mid (mul_extend_size n).
Proof.
  intros Hn [D [c Ec]] add_mid h1 mid h' E1 E2. assert (S0 : site [] (c_storage c) l h) by by apply site_base.
  destruct (makes_add [] _ l (2 * n) ltac:(lia) _ _ _ E1 S0) as [S1 O1].
  edestruct (fun Q => makes_mul_extend _ _ l md n add_mid Hn Q _ _ _ E2 S1) as [S2 O2]; [left|].
  split; [exact (gr_old _ _ _ (grown_trans _ _ _ _ O1 O2))|]. destruct S2 as [[(c' & E' & St) R] _].
  split; (eapply callable_size; [exact E'|exact St|]); apply R; [right; left|left].
Qed.
(** Programs: the circuit has exactly the gates, constants, inputs and outputs that its operators cost. *)
Lemma fresh_site h l : BuildEval.fresh h l -> exists st, h_circ h !! l = Some (circuit_new st) /\ site [] st l h.
Proof. intros F. pose proof (fresh_base _ _ F) as B. destruct F as [D [st E] U]. exists st. split; [done|]. exact (site_base h l _ B E). Qed.
Lemma size_after {A} L st l (m : M A) t Q h r h' : h_circ h !! l = Some (circuit_new st) -> site L st l h -> costs L st l m t Q -> m h = (Ok r, h') -> circuit_size h' l t.
Proof.
  intros E [R _] C Em. destruct (C _ _ _ Em R) as [T _]. destruct (tally_size _ _ _ _ _ E T) as (c' & E' & Hc). exists c'. split; [done|]. rewrite Hc. by apply cost_eq.
Qed.
Lemma straight_ok md h l n p : (1 <= n)%nat -> BuildEval.fresh h l -> pwf n 0 p -> exists h', straight_program md l n p h = (Ok tt, h') /\ dreach h h'.
Proof.
  intros Hn Hf Hw. destruct (int_config_new_ok md h l n Hn (fresh_base _ _ Hf)) as (cfg & h1 & E1 & T1 & C1).
  pose proof (bs_built _ _ _ _ _ T1 (fresh_bs _ _ Hf)) as B1.
  destruct (pbuild_ok md l cfg n Hn p h1 0 [] [] [] (fun _ => []) B1 C1) as (h' & os & E & X & B & F); [constructor|done|apply gfs_nil|].
  exists h'. split; [unfold straight_program; by rewrite (st_bind_ok _ _ _ _ _ E1)|]. eapply dreach_trans; [apply T1|apply X].
Qed.
Theorem C68_programs md h l n p : (1 <= n)%nat -> BuildEval.fresh h l -> pwf n 0 p ->
  exists h', straight_program md l n p h = (Ok tt, h') /\ circuit_size h' l (scost n p).
Proof.
  intros Hn Hf Hw. destruct (straight_ok md h l n p Hn Hf Hw) as (h' & E & _). exists h'. split; [done|]. destruct (fresh_site _ _ Hf) as (st & Ec & S0).
  unfold straight_program in E. apply bind_Ok in E as (cfg & h1 & E1 & E2). destruct (int_config_site [] st l md n h cfg h1 Hn S0 E1) as (Href & S1 & O1).
  eapply size_after; [by apply (gr_old _ _ _ O1)|exact S1| |exact E2]. eapply costs_sbuild; [done| |done|exact Hw|constructor]. intros a Ha. apply elem_of_app. by left.
Qed.
Theorem C68_field_programs md h l n p r m e : fp_fits n p r -> BuildEval.fresh h l -> fwf m n e ->
  exists h', fp_program md l n p r m e h = (Ok tt, h') /\ circuit_size h' l (cadd (ctimes (m * n) cinput) (cadd (fcost n r e) (ctimes n coutput))).
Proof.
  intros Hf Hfr Hw. destruct (fp_program_ok md h l n p r m e Hf Hfr Hw) as (h' & E & _). exists h'. split; [done|]. destruct (fresh_site _ _ Hfr) as (st & Ec & S0).
  unfold fp_program in E. apply bind_Ok in E as (cfg & h1 & E1 & E2).
  destruct (fp_setup_site [] st l md n p r h cfg h1) as (Href & Href' & S1 & O1); [by apply (fits_le n p r)|by apply (fits_le n p r)|done|done|].
  assert (Hn : (1 <= n)%nat) by (destruct Hf; lia).
  assert (HL : forall a, a ∈ fp_lib cfg n r -> a ∈ fp_lib cfg n r ++ []) by (intros a Ha; apply elem_of_app; by left).
  eapply size_after; [by apply (gr_old _ _ _ O1)|exact S1| |exact E2]. eapply costs_eq; [|].
  - eapply costs_bind; [apply (costs_mapM _ _ _ _ (ctimes n cinput) _ (fok' n cfg)); intros; unfold fp_new; by eapply costs_fp_lift, costs_new|intros vars [_ HV]].
    eapply costs_bind; [by eapply costs_fbuild|intros z [Hc Hz]]. unfold fp_output. by eapply costs_int_output.
  - rewrite seq_length. cfin.
Qed.
Theorem C68_bits_programs md h l n m e : (0 < n)%nat -> BuildEval.fresh h l -> bwf m n e ->
  exists h', bits_program md l n m e h = (Ok tt, h') /\ circuit_size h' l (cadd (ctimes (m * n) cinput) (cadd (bcost n e) (ctimes n coutput))).
Proof.
  intros Hn Hf Hw. destruct (C37_expressions md h l n m e Hn Hf Hw) as (h' & E & _). exists h'. split; [done|]. destruct (fresh_site _ _ Hf) as (st & Ec & S0).
  unfold bits_program in E. apply bind_Ok in E as (cfg & h1 & E1 & E2). destruct (bits_config_site [] st l md n h cfg h1 S0 E1) as (Href & S1 & O1).
  eapply size_after; [by apply (gr_old _ _ _ O1)|exact S1| |exact E2]. eapply costs_eq; [|].
  - eapply costs_bind; [apply (costs_mapM _ _ _ _ (ctimes n cinput) _ (bok n cfg)); intros|intros vars [Hl HV]].
    { unfold bits_new. rewrite Href. eapply costs_eq; [eapply costs_bind; [apply costs_inputs|intros v Hv; apply costs_inert, inert_ret; by split]|csolve]. }
    eapply costs_bind; [eapply costs_bbuild; [done| |exact HV|by rewrite Hl, seq_length]; intros a Ha; apply elem_of_app; by left|intros z [Hc Hz]].
    unfold bits_output. rewrite Hc, Href. eapply costs_iterM. intros x _. cgo.
  - rewrite !seq_length. cfin.
Qed.
(** The sizes of the 64 bit modules; the counters of the circuits that are built for 4 bits; a program. *)
Example C68_example : (add_size 64 = Cost 381 0 128 64 /\ sub_size 64 = Cost 826 64 128 64 /\ mul_size 64 = Cost 26464 2080 128 64 /\
  less_or_eq_size 64 = Cost 1021 66 128 1 /\ fp_add_size 64 = Cost 84420 6880 128 64 /\ fp_mul_size 64 60 = Cost 272024 21890 128 64) /\
  base blank1 0 /\ (match int_config_new Debug 0 4 blank1 with
   | (Ok cfg, h') => map (fun mid => match get_module h' 0 mid with Ok l' => match h_circ h' !! l' with Some m => [num_gate m; num_const m; input_len m; output_len m] | None => [] end | _ => [] end)
      [ic_add cfg; ic_sub cfg; ic_mul cfg; ic_eq cfg; ic_neq cfg; ic_less cfg; ic_less_or_eq cfg; ic_larger cfg; ic_larger_or_eq cfg]
   | _ => [] end) = map (fun t => [t_g t; t_k t; t_i t; t_o t])
      [add_size 4; sub_size 4; mul_size 4; eq_size 4; neq_size 4; less_size 4; less_or_eq_size 4; larger_size 4; larger_or_eq_size 4] /\
  fp_fits 64 4294967291 60 /\ BuildEval.fresh blank1 0 /\
  pwf 8 0 [SInput; SInput; SLet (IMul (IVar 0) (IVar 1)); SSet 0 (IAdd (IVar 2) IOne); SOut 0] /\
  scost 8 [SInput; SInput; SLet (IMul (IVar 0) (IVar 1)); SSet 0 (IAdd (IVar 2) IOne); SOut 0] = Cost 441 44 16 8.
Proof.
  split; [repeat split; vm_compute; reflexivity|]. split; [apply fresh_base, fresh_blank1|]. split; [vm_compute; reflexivity|].
  split; [split; [lia|]; split; [vm_compute; done|left; cbn; lia]|]. split; [apply fresh_blank1|]. split; [cbn; lia|vm_compute; reflexivity].
Qed.
