(** The size counters as machine words: C73. *)
From Verif Require Export Words Prop_Writer.
Open Scope N_scope.
Open Scope list_scope.

(** * Specification *)
(** The number of wires of every circuit, all calls inlined (C03), is a usize. *)
Definition fits (c : circuit) : Prop := (0 <= num_wire c < 2 ^ 64)%Z /\ num_gate c < 2 ^ 64 /\ num_const c < 2 ^ 64.
Definition hfits (h : heap) : Prop := forall l c, h_circ h !! l = Some c -> fits c.
(** The same circuit with its size counters reduced modulo 2^64. *)
Definition words (c : circuit) : circuit :=
  Circuit (input_map c) (output_map c) (gate_map c) (c_storage c) (dep_map c) (const_gates c) (input_len c) (output_len c)
    (num_wire c mod 2 ^ 64)%Z (num_gate c mod 2 ^ 64) (num_const c mod 2 ^ 64) (gate_index c).
Definition hwords (h : heap) : heap := Heap (map words (h_circ h)) (h_stor h).

(** * Arithmetic *)
Lemma umod : usize_modulus = 2 ^ 64.
Proof. reflexivity. Qed.
Lemma uadd_rel a b : usize_add Release a b = Ok ((a + b) mod 2 ^ 64).
Proof. unfold usize_add. rewrite umod. destruct (N.ltb_spec (a + b) (2 ^ 64)); [by rewrite N.mod_small|done]. Qed.
Lemma usub_rel a b : a < 2 ^ 64 -> b < 2 ^ 64 -> usize_sub Release a b = Ok ((2 ^ 64 + a - b) mod 2 ^ 64).
Proof.
  intros. unfold usize_sub. rewrite umod. destruct (N.leb_spec b a).
  - f_equal. replace (2 ^ 64 + a - b) with (a - b + 1 * 2 ^ 64) by lia. rewrite N.mod_add by lia. rewrite N.mod_small; lia.
  - f_equal. rewrite N.mod_small; lia.
Qed.
Lemma uadd_dbg a b : usize_add Debug a b = if a + b <? 2 ^ 64 then Ok (a + b) else Panic PArith.
Proof. reflexivity. Qed.

(** * One circuit *)
Definition grows (c c' : circuit) : Prop := (num_wire c <= num_wire c')%Z /\ num_gate c <= num_gate c' /\ num_const c <= num_const c'.
Lemma grows_refl c : grows c c.
Proof. repeat split; lia. Qed.
Lemma grows_trans a b c : grows a b -> grows b c -> grows a c.
Proof. unfold grows. lia. Qed.
Lemma unfit_grows a b : (0 <= num_wire a)%Z -> grows a b -> ~ fits a -> ~ fits b.
Proof. unfold grows, fits. lia. Qed.
(** The computation [m] over words does what leads from [c] to [c'] with the result [a] over numbers. *)
Definition sim {A} (md : mode) (m : ST circuit A) (c : circuit) (a : A) (c' : circuit) : Prop :=
  match md with
  | Release => m (words c) = (Ok a, words c')
  | Debug => grows c c' /\ (fits c -> m c = (Ok a, c') /\ fits c' \/ fst (m c) = Panic PArith /\ ~ fits c')
  end.
Lemma sim_bind {A B} md (m : ST circuit A) (k : A -> ST circuit B) c a c1 b c2 :
  sim md m c a c1 -> sim md (k a) c1 b c2 -> sim md (st_bind m k) c b c2.
Proof.
  destruct md; cbn.
  - intros [G H] [G1 H1]. split; [by eapply grows_trans|]. intros F. destruct (H F) as [[E F1]|[E F1]].
    + rewrite (st_bind_ok _ _ _ _ _ E). auto.
    + right. split; [unfold st_bind; destruct (m c) as [r s]; cbn in E; by subst|]. eapply unfit_grows; [|exact G1|exact F1].
      destruct G as [? _], F as [? _]. lia.
  - intros H H1. by rewrite (st_bind_ok _ _ _ _ _ H).
Qed.
Lemma sim_ret {A} md (a : A) c : sim md (st_ret a) c a c.
Proof. destruct md; cbn; [split; [apply grows_refl|auto]|done]. Qed.
(** An update that leaves the counters alone. *)
Lemma sim_pure {A} md (a : A) (f : circuit -> circuit) c : (forall x, f (words x) = words (f x)) ->
  (num_wire (f c) = num_wire c /\ num_gate (f c) = num_gate c /\ num_const (f c) = num_const c) ->
  sim md (fun c => (Ok a, f c)) c a (f c).
Proof.
  intros Hw (E1 & E2 & E3). destruct md; cbn; [|by rewrite Hw].
  unfold grows, fits. rewrite E1, E2, E3. split; [lia|]. auto.
Qed.
(** The counters moved by given amounts. *)
Definition bump (c : circuit) (w : Z) (g k : N) : circuit :=
  Circuit (input_map c) (output_map c) (gate_map c) (c_storage c) (dep_map c) (const_gates c) (input_len c) (output_len c)
    (num_wire c + w)%Z (num_gate c + g) (num_const c + k) (gate_index c).
Lemma Zto_mod (z : Z) : (Z.to_N (z mod 2 ^ 64) < 2 ^ 64)%N.
Proof. pose proof (Z.mod_pos_bound z (2 ^ 64)). lia. Qed.
Lemma circ_eq a b : input_map a = input_map b -> output_map a = output_map b -> gate_map a = gate_map b -> c_storage a = c_storage b -> dep_map a = dep_map b ->
  const_gates a = const_gates b -> input_len a = input_len b -> output_len a = output_len b -> num_wire a = num_wire b -> num_gate a = num_gate b ->
  num_const a = num_const b -> gate_index a = gate_index b -> a = b.
Proof. destruct a, b. cbn. by intros -> -> -> -> -> -> -> -> -> -> -> ->. Qed.
Lemma sim_wires md k c : sim md (m_wires md k) c tt (bump c (Z.of_N k) 0 0).
Proof.
  destruct md; cbn; unfold m_wires.
  - split; [unfold grows; cbn; lia|]. intros (W & G & K). rewrite uadd_dbg. destruct (N.ltb_spec (Z.to_N (num_wire c) + k) (2 ^ 64)).
    + left. split; [|unfold fits; cbn; lia]. f_equal. apply circ_eq; cbn; try done; lia.
    + right. split; [done|]. unfold fits; cbn; lia.
  - rewrite uadd_rel. f_equal. apply circ_eq; cbn; try done; [|by rewrite N.add_0_r..].
    rewrite N2Z.inj_mod, N2Z.inj_add, Z2N.id by (apply Z.mod_pos_bound; lia). change (Z.of_N (2 ^ 64)) with (2 ^ 64)%Z. by rewrite Z.add_mod_idemp_l.
Qed.
Lemma sim_gates md k c : sim md (m_gates md k) c tt (bump c 0 k 0).
Proof.
  destruct md; cbn; unfold m_gates.
  - split; [unfold grows; cbn; lia|]. intros (W & G & K). rewrite uadd_dbg. destruct (N.ltb_spec (num_gate c + k) (2 ^ 64)).
    + left. split; [|unfold fits; cbn; lia]. f_equal. apply circ_eq; cbn; try done; lia.
    + right. split; [done|]. unfold fits; cbn; lia.
  - rewrite uadd_rel. f_equal. apply circ_eq; cbn; try done; [by rewrite Z.add_0_r| |by rewrite N.add_0_r].
    by rewrite N.add_mod_idemp_l.
Qed.
Lemma sim_consts md k c : sim md (m_consts md k) c tt (bump c 0 0 k).
Proof.
  destruct md; cbn; unfold m_consts.
  - split; [unfold grows; cbn; lia|]. intros (W & G & K). rewrite uadd_dbg. destruct (N.ltb_spec (num_const c + k) (2 ^ 64)).
    + left. split; [|unfold fits; cbn; lia]. f_equal. apply circ_eq; cbn; try done; lia.
    + right. split; [done|]. unfold fits; cbn; lia.
  - rewrite uadd_rel. f_equal. apply circ_eq; cbn; try done; [by rewrite Z.add_0_r|by rewrite N.add_0_r|].
    by rewrite N.add_mod_idemp_l.
Qed.
Lemma sim_eq {A} md (m : ST circuit A) c a c' c'' : sim md m c a c' -> c' = c'' -> sim md m c a c''.
Proof. by intros ? <-. Qed.
Lemma sim_words {A} (m : ST circuit A) c a c' c1 : words c1 = words c -> sim Release m c a c' -> sim Release m c1 a c'.
Proof. intros E H. unfold sim in *. by rewrite E. Qed.
Ltac ceq := apply circ_eq; cbn; try done; try lia.
Lemma sim_add_gate md g c : sim md (m_add_gate md g) c (fst (add_gate c g)) (snd (add_gate c g)).
Proof.
  cbn. set (c0 := Circuit (input_map c) (output_map c) (<[gate_index c := g]> (gate_map c)) (c_storage c) (dep_map c) (const_gates c)
       (input_len c) (output_len c) (num_wire c) (num_gate c) (num_const c) (gate_index c + 1)).
  assert (S0 : sim md (m_wires md 1 ;; st_ret (gate_index c)) c0 (gate_index c) (bump c0 1 0 0)) by (eapply sim_bind; [apply sim_wires|apply sim_ret]).
  eapply sim_eq; [|instantiate (1 := bump c0 1 0 0); ceq]. destruct md; [|exact S0].
  destruct S0 as [G H]. split; [exact G|]. intros F. exact (H F).
Qed.
Lemma sim_dep md a g c : sim md (m_dep a g) c tt (add_dependence c a g).
Proof. by apply (sim_pure md tt (fun c => add_dependence c a g)). Qed.
Lemma sim_input md c : sim md (m_input md) c (fst (c_input c)) (snd (c_input c)).
Proof.
  cbn. set (c0 := Circuit (input_map c) (output_map c) (gate_map c) (c_storage c) (dep_map c) (const_gates c)
              (input_len c + 1) (output_len c) (num_wire c) (num_gate c) (num_const c) (gate_index c)).
  match goal with |- sim _ _ _ _ ?r => set (c1 := r) end.
  pose (m0 := (g <- m_add_gate md (GInput (input_len c)) ;;
   fun c' => (Ok g, Circuit (<[input_len c := Some g]> (input_map c')) (output_map c') (gate_map c') (c_storage c') (dep_map c') (const_gates c')
                     (input_len c') (output_len c') (num_wire c') (num_gate c') (num_const c') (gate_index c'))) : ST circuit N).
  assert (S0 : sim md m0 c0 (gate_index c) c1).
  { eapply sim_bind; [apply sim_add_gate|]. cbn.
    eapply sim_eq; [apply (sim_pure md (gate_index c) (fun c' => Circuit (<[input_len c := Some (gate_index c)]> (input_map c')) (output_map c') (gate_map c') (c_storage c') (dep_map c') (const_gates c')
                     (input_len c') (output_len c') (num_wire c') (num_gate c') (num_const c') (gate_index c'))); done|ceq]. }
  destruct md; [|exact S0]. destruct S0 as [G H]. split; [exact G|]. intros F. exact (H F).
Qed.
Lemma sim_constant md b c : sim md (m_constant md b) c (fst (c_constant c b)) (snd (c_constant c b)).
Proof.
  eapply sim_bind; [apply sim_add_gate|]. eapply sim_bind.
  { cbn. apply (sim_pure md tt (fun c' => Circuit (input_map c') (output_map c') (gate_map c') (c_storage c') (dep_map c') (const_gates c' ++ [gate_index c])
                      (input_len c') (output_len c') (num_wire c') (num_gate c') (num_const c') (gate_index c'))); done. }
  eapply sim_bind; [apply sim_consts|]. eapply sim_eq; [apply sim_ret|]. ceq.
Qed.
Lemma sim_not md a c : sim md (m_not md a) c (fst (c_not c a)) (snd (c_not c a)).
Proof.
  eapply sim_bind; [apply sim_add_gate|]. eapply sim_bind; [apply sim_dep|]. eapply sim_bind; [apply sim_gates|].
  eapply sim_eq; [apply sim_ret|]. ceq.
Qed.
Lemma sim_binary md gt a b c : sim md (m_binary md gt a b) c (fst (c_binary c gt a b)) (snd (c_binary c gt a b)).
Proof.
  eapply sim_bind; [apply sim_add_gate|]. eapply sim_bind; [apply sim_dep|]. eapply sim_bind; [apply sim_dep|]. eapply sim_bind; [apply sim_gates|].
  eapply sim_eq; [apply sim_ret|]. ceq.
Qed.
Lemma sim_equivalent md a b c : sim md (m_equivalent md a b) c (fst (c_equivalent c a b)) (snd (c_equivalent c a b)).
Proof. eapply sim_bind; [apply sim_binary|]. apply sim_not. Qed.
Lemma sim_identity md a c : sim md (m_identity md a) c (fst (c_identity c a)) (snd (c_identity c a)).
Proof. eapply sim_bind; [apply sim_not|]. apply sim_not. Qed.
Lemma sim_module_gates md il ol ids mid k : forall i c,
  sim md (m_module_gates md il ol ids mid i k) c (fst (add_module_gates c il ol ids mid i k)) (snd (add_module_gates c il ol ids mid i k)).
Proof.
  induction k as [|k IH]; intros i c; cbn [m_module_gates add_module_gates]; [apply sim_ret|].
  pose proof (sim_add_gate md (GModule il ol ids i mid) c) as H. destruct (add_gate c _) as [g c1] eqn:E. cbn [fst snd] in *.
  eapply sim_bind; [exact H|]. pose proof (IH (i + 1) c1) as H1. destruct (add_module_gates c1 _ _ _ _ _ _) as [gs c2]. cbn [fst snd] in *.
  eapply sim_bind; [exact H1|]. apply sim_ret.
Qed.
Lemma add_deps_words ids outs : forall c, add_module_deps (words c) ids outs = words (add_module_deps c ids outs) /\
  num_wire (add_module_deps c ids outs) = num_wire c /\ num_gate (add_module_deps c ids outs) = num_gate c /\ num_const (add_module_deps c ids outs) = num_const c.
Proof.
  unfold add_module_deps. induction ids as [|i ids IH]; intros c; cbn [fold_left]; [done|].
  assert (forall outs c, fold_left (fun c o => add_dependence c i o) outs (words c) = words (fold_left (fun c o => add_dependence c i o) outs c) /\
    num_wire (fold_left (fun c o => add_dependence c i o) outs c) = num_wire c /\ num_gate (fold_left (fun c o => add_dependence c i o) outs c) = num_gate c /\
    num_const (fold_left (fun c o => add_dependence c i o) outs c) = num_const c) as H.
  { clear. intros outs. induction outs as [|o outs IH]; intros c; cbn [fold_left]; [done|]. exact (IH (add_dependence c i o)). }
  destruct (H outs c) as (-> & E1 & E2 & E3). destruct (IH (fold_left (fun c o => add_dependence c i o) outs c)) as (-> & F1 & F2 & F3).
  by rewrite F1, F2, F3.
Qed.
(** [module], when the sizes of the called circuit are usize values. *)
Lemma sim_module_rel c m mid ids outs c' : cwf m -> input_len m < 2 ^ 64 -> output_len m < 2 ^ 64 ->
  c_module Release c m mid ids = Some (outs, c') -> sim Release (m_module Release (words m) mid ids) c outs c'.
Proof.
  intros Hm Li Lo. unfold c_module, m_module. cbn [num_wire words input_len output_len num_gate num_const]. intros E.
  set (d := (num_wire m - Z.of_N (input_len m) - Z.of_N (output_len m))%Z) in *.
  set (c1 := Circuit _ _ _ _ _ _ _ _ _ _ _ _) in E.
  assert (exists x y, (fst (add_module_gates c1 (input_len m) (output_len m) ids mid 0 (N.to_nat (output_len m))) = x /\
     snd (add_module_gates c1 (input_len m) (output_len m) ids mid 0 (N.to_nat (output_len m))) = y /\ outs = x /\ c' = add_module_deps y ids x)) as (x & y & Ex & Ey & -> & ->).
  { destruct (add_module_gates _ _ _ _ _ _ _) as [x y]. exists x, y. split; [done|]. split; [done|]. destruct (d <? 0)%Z; by injection E as <- <-. }
  clear E.
  pose proof (Zto_mod (num_wire m)) as Hw.
  set (k1 := (2 ^ 64 + Z.to_N (num_wire m mod 2 ^ 64) - input_len m) mod 2 ^ 64).
  set (k := (2 ^ 64 + k1 - output_len m) mod 2 ^ 64).
  eapply (sim_bind Release _ _ c k1 c); [unfold sim, st_lift; by rewrite usub_rel by done|].
  eapply (sim_bind Release _ _ c k c); [unfold sim, st_lift; rewrite usub_rel; [done| |done]; apply N.mod_lt; lia|].
  assert (exists q : Z, Z.of_N k = d + q * 2 ^ 64)%Z as [q Hq].
  { set (a := 2 ^ 64 + Z.to_N (num_wire m mod 2 ^ 64) - input_len m). set (b := 2 ^ 64 + a mod 2 ^ 64 - output_len m).
    assert (Z.of_N a = 2 ^ 64 + num_wire m mod 2 ^ 64 - Z.of_N (input_len m))%Z as Ea.
    { unfold a. rewrite N2Z.inj_sub by (clear - Li Hw; set (z := Z.to_N _) in *; lia). rewrite N2Z.inj_add, Z2N.id; [|apply Z.mod_pos_bound; lia]. reflexivity. }
    assert (a mod 2 ^ 64 < 2 ^ 64) as Ha by (apply N.mod_lt; lia).
    assert (Z.of_N b = 2 ^ 64 + Z.of_N (a mod 2 ^ 64) - Z.of_N (output_len m))%Z as Eb.
    { unfold b. rewrite N2Z.inj_sub by (clear - Lo Ha; generalize dependent (a mod 2 ^ 64); intros; lia). rewrite N2Z.inj_add. reflexivity. }
    exists (- (Z.of_N b / 2 ^ 64) + 2 - (Z.of_N a / 2 ^ 64) - (num_wire m / 2 ^ 64))%Z.
    change k with (b mod 2 ^ 64). rewrite N2Z.inj_mod, Z.mod_eq by lia. change (Z.of_N (2 ^ 64)) with (2 ^ 64)%Z. rewrite Eb at 1.
    rewrite N2Z.inj_mod, (Z.mod_eq (Z.of_N a)) by lia. change (Z.of_N (2 ^ 64)) with (2 ^ 64)%Z. rewrite Ea at 1.
    rewrite (Z.mod_eq (num_wire m)) by lia. unfold d. lia. }
  eapply sim_bind; [apply sim_wires|]. eapply sim_bind; [apply sim_gates|]. eapply sim_bind; [apply sim_consts|].
  eapply (sim_bind Release _ _ _ _ y).
  - pose proof (sim_module_gates Release (input_len m) (output_len m) ids mid (N.to_nat (output_len m)) 0 c1) as H. rewrite Ex, Ey in H.
    eapply sim_words; [|exact H]. unfold words, c1, bump. cbn [input_map output_map gate_map c_storage dep_map const_gates input_len output_len num_wire num_gate num_const gate_index].
    f_equal.
    + rewrite Hq, !Z.add_0_r, Z.add_assoc. by rewrite Z.mod_add.
    + rewrite !N.add_0_r. by rewrite N.add_mod_idemp_r.
    + rewrite !N.add_0_r. by rewrite N.add_mod_idemp_r.
  - eapply sim_bind; [|apply sim_ret]. apply (sim_pure Release tt (fun c => add_module_deps c ids x)); [intros; by apply add_deps_words|].
    by apply add_deps_words.
Qed.
Lemma sim_module_dbg c m mid ids outs c' : (0 <= num_wire m)%Z -> c_module Debug c m mid ids = Some (outs, c') -> sim Debug (m_module Debug m mid ids) c outs c'.
Proof.
  intros Hm. unfold c_module, m_module. intros E.
  set (d := (num_wire m - Z.of_N (input_len m) - Z.of_N (output_len m))%Z) in *.
  destruct (Z.ltb_spec d 0) as [|Hd]; [done|].
  set (c1 := Circuit _ _ _ _ _ _ _ _ _ _ _ _) in E.
  assert (exists x y, (fst (add_module_gates c1 (input_len m) (output_len m) ids mid 0 (N.to_nat (output_len m))) = x /\
     snd (add_module_gates c1 (input_len m) (output_len m) ids mid 0 (N.to_nat (output_len m))) = y /\ outs = x /\ c' = add_module_deps y ids x)) as (x & y & Ex & Ey & -> & ->).
  { destruct (add_module_gates _ _ _ _ _ _ _) as [x y]. exists x, y. split; [done|]. split; [done|]. by injection E as <- <-. }
  clear E.
  assert (lift : forall A (r : res A) (v : A), r = Ok v -> sim Debug (st_lift r) c v c).
  { intros A r v ->. split; [apply grows_refl|]. auto. }
  eapply (sim_bind Debug _ _ c (Z.to_N (num_wire m) - input_len m) c).
  { apply lift. unfold usize_sub. destruct (N.leb_spec (input_len m) (Z.to_N (num_wire m))); [done|lia]. }
  eapply (sim_bind Debug _ _ c (Z.to_N d) c).
  { apply lift. unfold usize_sub. destruct (N.leb_spec (output_len m) (Z.to_N (num_wire m) - input_len m)); [|lia]. f_equal. unfold d. lia. }
  eapply sim_bind; [apply sim_wires|]. eapply sim_bind; [apply sim_gates|]. eapply sim_bind; [apply sim_consts|].
  replace (bump _ 0 0 (num_const m)) with c1 by (unfold c1; ceq).
  eapply (sim_bind Debug _ _ _ x y).
  - rewrite <- Ex, <- Ey. apply sim_module_gates.
  - eapply sim_bind; [|apply sim_ret]. apply (sim_pure Debug tt (fun c => add_module_deps c ids x)); [intros; by apply add_deps_words|].
    by apply add_deps_words.
Qed.
Lemma module_dbg_none c m mid ids : (0 <= num_wire m)%Z -> c_module Debug c m mid ids = None -> m_module Debug m mid ids c = (Panic PArith, c).
Proof.
  intros Hm E. apply c_module_none in E as [_ E]. unfold m_module, st_bind, st_lift, usize_sub.
  destruct (N.leb_spec (input_len m) (Z.to_N (num_wire m))); [|done].
  destruct (N.leb_spec (output_len m) (Z.to_N (num_wire m) - input_len m)); [lia|done].
Qed.

(** What a call keeps, even when it panics. *)
Definition keeps {A} (m : ST circuit A) : Prop := forall c, (forall g, gate_index c <= g -> gate_map c !! g = None) ->
  (forall g, gate_index (m c).2 <= g -> gate_map (m c).2 !! g = None) /\ gate_map c ⊆ gate_map (m c).2 /\ output_map (m c).2 = output_map c /\
  output_len (m c).2 = output_len c /\ c_storage (m c).2 = c_storage c.
Lemma keeps_ret {A} (r : res A) : keeps (st_lift r).
Proof. intros c H. by repeat split. Qed.
Lemma keeps_bind {A B} (m : ST circuit A) (k : A -> ST circuit B) : keeps m -> (forall a, keeps (k a)) -> keeps (st_bind m k).
Proof.
  intros Hm Hk c Hc. specialize (Hm c Hc) as (F & G & O & L & St). unfold st_bind. destruct (m c) as [[a|e|p|] c1]; cbn [snd] in *; try by repeat split.
  specialize (Hk a c1 F) as (F1 & G1 & O1 & L1 & St1). split; [done|]. split; [by etrans|]. by rewrite O1, L1, St1.
Qed.
Lemma keeps_same {A} (m : ST circuit A) : (forall c, gate_map (m c).2 = gate_map c /\ gate_index (m c).2 = gate_index c /\ output_map (m c).2 = output_map c /\
  output_len (m c).2 = output_len c /\ c_storage (m c).2 = c_storage c) -> keeps m.
Proof. intros H c Hc. destruct (H c) as (-> & -> & -> & -> & ->). by repeat split. Qed.
Lemma keeps_wires md k : keeps (m_wires md k).
Proof. apply keeps_same. intros c. unfold m_wires. by destruct (usize_add _ _ _). Qed.
Lemma keeps_gates md k : keeps (m_gates md k).
Proof. apply keeps_same. intros c. unfold m_gates. by destruct (usize_add _ _ _). Qed.
Lemma keeps_consts md k : keeps (m_consts md k).
Proof. apply keeps_same. intros c. unfold m_consts. by destruct (usize_add _ _ _). Qed.
Lemma keeps_add_gate md g : keeps (m_add_gate md g).
Proof.
  intros c Hc. unfold m_add_gate. set (c0 := Circuit _ _ _ _ _ _ _ _ _ _ _ _).
  assert (forall x, gate_index c0 <= x -> gate_map c0 !! x = None) as H0.
  { intros x. cbn. intros. rewrite lookup_insert_ne by lia. apply Hc. lia. }
  destruct (keeps_bind (m_wires md 1) (fun _ => st_ret (gate_index c)) (keeps_wires md 1) (fun _ => keeps_ret (Ok _)) c0 H0) as (F & G & O & L & St).
  split; [exact F|]. split; [|by rewrite O, L, St]. etrans; [|exact G]. cbn. apply insert_subseteq. apply Hc. lia.
Qed.
Lemma keeps_dep a g : keeps (m_dep a g).
Proof. by apply keeps_same. Qed.
Lemma keeps_input md : keeps (m_input md).
Proof.
  intros c Hc. unfold m_input. set (c0 := Circuit _ _ _ _ _ _ _ _ _ _ _ _).
  match goal with |- context [(st_bind ?a ?b) c0] => pose proof (keeps_bind a b) as H end.
  specialize (H (keeps_add_gate _ _)). apply (H ltac:(intros; by apply keeps_same) c0). done.
Qed.
Lemma keeps_constant md b : keeps (m_constant md b).
Proof. apply keeps_bind; [apply keeps_add_gate|]. intros g. apply keeps_bind; [by apply keeps_same|]. intros _. apply keeps_bind; [apply keeps_consts|]. intros. apply keeps_ret. Qed.
Lemma keeps_not md a : keeps (m_not md a).
Proof. apply keeps_bind; [apply keeps_add_gate|]. intros g. apply keeps_bind; [apply keeps_dep|]. intros _. apply keeps_bind; [apply keeps_gates|]. intros. apply keeps_ret. Qed.
Lemma keeps_binary md gt a b : keeps (m_binary md gt a b).
Proof.
  apply keeps_bind; [apply keeps_add_gate|]. intros g. do 2 (apply keeps_bind; [apply keeps_dep|]; intros _). apply keeps_bind; [apply keeps_gates|]. intros. apply keeps_ret.
Qed.
Lemma keeps_equivalent md a b : keeps (m_equivalent md a b).
Proof. apply keeps_bind; [apply keeps_binary|]. intros. apply keeps_not. Qed.
Lemma keeps_identity md a : keeps (m_identity md a).
Proof. apply keeps_bind; [apply keeps_not|]. intros. apply keeps_not. Qed.
Lemma keeps_module_gates md il ol ids mid k : forall i, keeps (m_module_gates md il ol ids mid i k).
Proof.
  induction k as [|k IH]; intros i; cbn [m_module_gates]; [apply (keeps_ret (Ok _))|]. apply keeps_bind; [apply keeps_add_gate|]. intros g.
  apply keeps_bind; [apply IH|]. intros. apply (keeps_ret (Ok _)).
Qed.
Lemma keeps_module md m mid ids : keeps (m_module md m mid ids).
Proof.
  do 2 (apply keeps_bind; [apply keeps_ret|]; intros ?). apply keeps_bind; [apply keeps_wires|]; intros _. apply keeps_bind; [apply keeps_gates|]; intros _.
  apply keeps_bind; [apply keeps_consts|]; intros _. apply keeps_bind; [apply keeps_module_gates|]; intros outs. apply keeps_bind; [|intros; apply (keeps_ret (Ok _))].
  apply keeps_same. intros c. cbn [snd]. unfold add_module_deps. revert c. induction ids as [|i ids IH]; intros c; cbn [fold_left]; [done|].
  destruct (IH (fold_left (fun c o => add_dependence c i o) outs c)) as (-> & -> & -> & -> & ->). clear.
  revert c. induction outs as [|o outs IH]; intros c; cbn [fold_left]; [done|]. exact (IH (add_dependence c i o)).
Qed.

(** * The heap *)
Lemma hwords_lookup h l : h_circ (hwords h) !! l = words <$> h_circ h !! l.
Proof. cbn. by rewrite list_lookup_fmap. Qed.
Lemma hwords_upd h l c : hwords (upd h l c) = upd (hwords h) l (words c).
Proof. unfold hwords, upd. cbn. f_equal. apply list_fmap_insert. Qed.
(** Both computations have the same result, and the heaps correspond. *)
Definition rsim {A} (m1 m2 : M A) (h : heap) : Prop := m1 (hwords h) = (fst (m2 h), hwords (snd (m2 h))).
Lemma rsim_ret {A B} (m1 m2 : M A) (f : A -> B) h : rsim m1 m2 h -> rsim (a <- m1 ;; st_ret (f a)) (a <- m2 ;; st_ret (f a)) h.
Proof. unfold rsim, st_bind. intros ->. by destruct (m2 h) as [[] h2]. Qed.
Lemma rsim_on {A} l (m : ST circuit A) (f : circuit -> A * circuit) h : (forall c, sim Release m c (fst (f c)) (snd (f c))) -> rsim (m_on l m) (on_circ l f) h.
Proof.
  intros Hs. unfold rsim, m_on, on_circ, st_bind, get_circ. rewrite hwords_lookup. destruct (h_circ h !! l) as [c|]; cbn [fmap option_fmap option_map]; [|done].
  specialize (Hs c). cbn in Hs. rewrite Hs. destruct (f c) as [a c']. unfold put_circ, st_lift, st_ret. cbn [fst snd]. f_equal. symmetry. apply hwords_upd.
Qed.
Lemma output_words c g : c_output (words c) g = (fst (c_output c g), words (snd (c_output c g))).
Proof. unfold c_output. cbn. by destruct (gate_map c !! g). Qed.
Definition hlens (h : heap) : Prop := forall l c, h_circ h !! l = Some c -> input_len c < 2 ^ 64 /\ output_len c < 2 ^ 64.
Lemma hwords_alloc h c : alloc_circ (words c) (hwords h) = (fst (alloc_circ c h), hwords (snd (alloc_circ c h))).
Proof. unfold alloc_circ, hwords. cbn. rewrite map_length, map_app. done. Qed.
Lemma words_new s : words (circuit_new s) = circuit_new s.
Proof. reflexivity. Qed.
Lemma run_op_rel o h : hinv h -> hlens h -> rsim (m_run_op Release o) (run_op Release o) h.
Proof.
  intros Hi Hl. destruct o as [|s|l|l|l g|l b|l a|l a b|l a b|l a b|l a b|l a|l l'|l|l mid ids|s l']; cbn [m_run_op run_op].
  - done.
  - apply rsim_ret. unfold rsim, st_bind, get_stor. cbn [hwords h_stor]. destruct (h_stor h !! s); [|done]. rewrite <- (words_new s) at 1. apply hwords_alloc.
  - apply rsim_ret. unfold rsim, st_bind, get_circ. rewrite hwords_lookup. destruct (h_circ h !! l); [|done]. cbn [fmap option_fmap option_map]. apply hwords_alloc.
  - apply rsim_ret, rsim_on. apply sim_input.
  - apply rsim_ret. unfold rsim, r_output, on_circ, st_bind, get_circ. rewrite hwords_lookup. destruct (h_circ h !! l) as [c|]; [|done]. cbn [fmap option_fmap option_map].
    rewrite output_words. destruct (c_output c g) as [r c']. cbn [fst snd]. unfold put_circ, st_lift, st_ret. cbn. f_equal. symmetry. apply (hwords_upd h l c').
  - apply rsim_ret, rsim_on. intros. apply sim_constant.
  - apply rsim_ret, rsim_on. intros. apply sim_not.
  - apply rsim_ret, rsim_on. intros. apply sim_binary.
  - apply rsim_ret, rsim_on. intros. apply sim_binary.
  - apply rsim_ret, rsim_on. intros. apply sim_binary.
  - apply rsim_ret, rsim_on. intros. apply sim_equivalent.
  - apply rsim_ret, rsim_on. intros. apply sim_identity.
  - apply rsim_ret. unfold rsim, r_register, st_bind, get_circ. rewrite hwords_lookup. destruct (h_circ h !! l) as [c|]; [|done]. cbn [fmap option_fmap option_map].
    rewrite hwords_lookup. destruct (h_circ h !! l') as [c'|]; [|done]. cbn [fmap option_fmap option_map]. unfold s_register, st_bind, get_stor. cbn.
    by destruct (h_stor h !! c_storage c).
  - apply rsim_ret. unfold rsim, r_sub_circuit, st_bind, get_circ, get_stor. rewrite hwords_lookup. destruct (h_circ h !! l) as [c|]; [|done]. cbn [fmap option_fmap option_map].
    cbn [hwords h_stor words c_storage]. destruct (h_stor h !! c_storage c) as [x|] eqn:Es; [|done].
    unfold alloc_circ. cbn. unfold s_register, st_bind, get_stor. cbn. rewrite Es. cbn. unfold hwords. cbn. by rewrite map_length, map_app.
  - apply rsim_ret. unfold rsim, m_call, r_module, r_get_module, st_bind, get_circ, get_stor. rewrite hwords_lookup. destruct (h_circ h !! l) as [c|] eqn:El; [|done].
    cbn [fmap option_fmap option_map hwords h_stor words c_storage]. destruct (h_stor h !! c_storage c) as [x|]; [|done].
    destruct (module_map x !! mid) as [l'|]; [|done]. cbv beta iota delta [st_ret]. destruct (decide (l' = l)); [done|].
    change (map words (h_circ h)) with (h_circ (hwords h)). rewrite !hwords_lookup. destruct (h_circ h !! l') as [m|] eqn:Em; [|done]. rewrite El. cbn [fmap option_fmap option_map].
    destruct (c_module_some Release c m mid ids) as (outs & c' & E); [done|]. rewrite E.
    pose proof (sim_module_rel c m mid ids outs c' (hi_circ h Hi l' m Em) (proj1 (Hl _ _ Em)) (proj2 (Hl _ _ Em)) E) as H.
    unfold sim in H. unfold m_on, st_bind, get_circ. change (Heap (map words (h_circ h)) (h_stor h)) with (hwords h). rewrite hwords_lookup, El. cbn [fmap option_fmap option_map].
    rewrite H. unfold put_circ, st_lift, st_ret. cbn [fst snd]. f_equal. symmetry. apply hwords_upd.
  - apply rsim_ret. unfold rsim, st_bind, get_circ. rewrite hwords_lookup. destruct (h_circ h !! l') as [c'|]; [|done].
    cbn [fmap option_fmap option_map]. unfold s_register, st_bind, get_stor. cbn. by destruct (h_stor h !! s).
Qed.
(** What a panicking call leaves: one circuit has changed, and it still has its gates and outputs. *)
Definition spoiled (h hm : heap) : Prop := exists l c c', h_circ h !! l = Some c /\ hm = upd h l c' /\ gate_map c ⊆ gate_map c' /\
  output_map c' = output_map c /\ output_len c' = output_len c /\ c_storage c' = c_storage c.
Definition dsim {A} (m1 m2 : M A) (h : heap) : Prop :=
  m1 h = m2 h /\ hfits (m2 h).2 \/ fst (m1 h) = Panic PArith /\ is_ok (m2 h).1 = true /\ ~ hfits (m2 h).2 /\ spoiled h (m1 h).2.
Lemma dsim_ret {A B} (m1 m2 : M A) (f : A -> B) h : dsim m1 m2 h -> dsim (a <- m1 ;; st_ret (f a)) (a <- m2 ;; st_ret (f a)) h.
Proof.
  unfold dsim, st_bind. intros [[-> F]|(E & O & F & K)].
  - left. split; [done|]. by destruct (m2 h) as [[] h2].
  - right. destruct (m1 h) as [r1 h1]. cbn in E. subst r1. destruct (m2 h) as [[] h2]; done.
Qed.
Lemma hfits_upd h l c : hfits h -> fits c -> hfits (upd h l c).
Proof. intros H Hc l' x E. cbn in E. apply list_lookup_insert_Some in E as [(_ & <- & _)|[_ E]]; [done|by eapply H]. Qed.
Lemma hfits_add h c : hfits h -> fits c -> hfits (add_circ h c).
Proof. intros H Hc l' x E. apply add_circ_inv in E as [E|[_ ->]]; [by eapply H|done]. Qed.
Lemma fits_new s : fits (circuit_new s).
Proof. unfold fits. cbn. lia. Qed.
Lemma cwf_fresh c g : cwf c -> gate_index c <= g -> gate_map c !! g = None.
Proof. intros H. by apply gm_none_ge. Qed.
Lemma unfit_upd h l c c' : h_circ h !! l = Some c -> ~ fits c' -> ~ hfits (upd h l c').
Proof. intros E H F. apply H, (F l). by eapply upd_lookup. Qed.
Lemma dsim_on {A} l (m : ST circuit A) (f : circuit -> A * circuit) h : hinv h -> hfits h -> keeps m ->
  (forall c, sim Debug m c (fst (f c)) (snd (f c))) -> dsim (m_on l m) (on_circ l f) h.
Proof.
  intros Hi Hf Hk Hs. unfold dsim, m_on, on_circ, st_bind, get_circ. destruct (h_circ h !! l) as [c|] eqn:El; [|by left].
  specialize (Hs c) as [G Hs]. specialize (Hk c (fun g => cwf_fresh c g (hi_circ h Hi l c El))) as (_ & K1 & K2 & K3 & K4).
  destruct (f c) as [a c']. cbn [fst snd] in *. unfold put_circ, st_lift, st_ret. cbn [fst snd].
  destruct (Hs (Hf _ _ El)) as [[E F]|[E F]].
  - left. rewrite E. split; [done|]. by apply hfits_upd.
  - right. destruct (m c) as [r cm]. cbn [fst snd] in *. subst r. split; [done|]. split; [done|]. split; [by eapply unfit_upd|].
    exists l, c, cm. done.
Qed.
Lemma run_op_dbg o h : hinv h -> hfits h -> dsim (m_run_op Debug o) (run_op Debug o) h.
Proof.
  intros Hi Hf. destruct o as [|s|l|l|l g|l b|l a|l a b|l a b|l a b|l a b|l a|l l'|l|l mid ids|s l']; cbn [m_run_op run_op].
  - apply dsim_ret. left. split; [done|]. exact Hf.
  - apply dsim_ret. left. split; [done|]. unfold st_bind, get_stor. destruct (h_stor h !! s); [|done]. apply hfits_add; [done|apply fits_new].
  - apply dsim_ret. left. split; [done|]. unfold st_bind, get_circ. destruct (h_circ h !! l) as [c|] eqn:E; [|done]. apply (hfits_add h c Hf (Hf _ _ E)).
  - apply dsim_ret, dsim_on; [done..|apply keeps_input|apply sim_input].
  - apply dsim_ret. left. split; [done|]. unfold r_output, on_circ, st_bind, get_circ. destruct (h_circ h !! l) as [c|] eqn:E; [|done].
    destruct (c_output c g) as [r c'] eqn:Eo. unfold put_circ, st_lift, st_ret. destruct r; cbn [fst snd]; apply (hfits_upd h l c' Hf).
    all: unfold c_output in Eo; destruct (gate_map c !! g); try done; injection Eo as <-; subst; exact (Hf _ _ E).
  - apply dsim_ret, dsim_on; [done..|apply keeps_constant|intros; apply sim_constant].
  - apply dsim_ret, dsim_on; [done..|apply keeps_not|intros; apply sim_not].
  - apply dsim_ret, dsim_on; [done..|apply keeps_binary|intros; apply sim_binary].
  - apply dsim_ret, dsim_on; [done..|apply keeps_binary|intros; apply sim_binary].
  - apply dsim_ret, dsim_on; [done..|apply keeps_binary|intros; apply sim_binary].
  - apply dsim_ret, dsim_on; [done..|apply keeps_equivalent|intros; apply sim_equivalent].
  - apply dsim_ret, dsim_on; [done..|apply keeps_identity|intros; apply sim_identity].
  - apply dsim_ret. left. split; [done|]. unfold r_register, st_bind, get_circ. destruct (h_circ h !! l) as [c|]; [|done]. destruct (h_circ h !! l') as [c'|]; [|done].
    unfold s_register, st_bind, get_stor. destruct (h_stor h !! c_storage c); [|done]. exact Hf.
  - apply dsim_ret. left. split; [done|]. unfold r_sub_circuit, st_bind, get_circ, get_stor. destruct (h_circ h !! l) as [c|]; [|done].
    destruct (h_stor h !! c_storage c) as [x|] eqn:Es; [|done]. unfold alloc_circ, s_register, st_bind, get_stor. cbn. rewrite Es.
    apply (hfits_add h _ Hf (fits_new _)).
  - apply dsim_ret. unfold dsim, m_call, r_module, r_get_module, st_bind, get_circ, get_stor. destruct (h_circ h !! l) as [c|] eqn:El; [|by left].
    destruct (h_stor h !! c_storage c) as [x|]; [|by left].
    destruct (module_map x !! mid) as [l'|]; [|by left]. cbv beta iota delta [st_ret]. destruct (decide (l' = l)); [by left|].
    destruct (h_circ h !! l') as [m|] eqn:Em; [|by left]. rewrite El.
    assert (0 <= num_wire m)%Z as Hm by (destruct (Hf _ _ Em); lia).
    unfold m_on, st_bind, get_circ. rewrite El.
    destruct (c_module Debug c m mid ids) as [[outs c']|] eqn:E.
    + destruct (sim_module_dbg c m mid ids outs c' Hm E) as [G Hs]. destruct (keeps_module Debug m mid ids c (fun g => cwf_fresh c g (hi_circ h Hi l c El))) as (_ & K1 & K2 & K3 & K4).
      unfold put_circ, st_lift, st_ret. cbn [fst snd]. destruct (Hs (Hf _ _ El)) as [[E1 F]|[E1 F]].
      * left. rewrite E1. split; [done|]. by apply hfits_upd.
      * right. destruct (m_module Debug m mid ids c) as [r cm]. cbn [fst snd] in *. subst r. split; [done|]. split; [done|]. split; [by eapply unfit_upd|]. exists l, c, cm. done.
    + left. rewrite (module_dbg_none c m mid ids Hm E). unfold put_circ, st_lift, st_panic. cbn [fst snd]. split; [|done]. f_equal. destruct h as [hc hs]. cbn. f_equal. by apply list_insert_id.
  - apply dsim_ret. left. split; [done|]. unfold st_bind, get_circ. destruct (h_circ h !! l') as [c'|]; [|done].
    unfold s_register, st_bind, get_stor. destruct (h_stor h !! s); [|done]. exact Hf.
Qed.
(** Sizes only grow. *)
Lemma eff_grows md h h' : hinv h -> eff md h h' -> forall l c, h_circ h !! l = Some c -> exists c', h_circ h' !! l = Some c' /\ grows c c'.
Proof.
  intros Hi He. assert (H0 : forall h l c c', h_circ h !! l = Some c -> grows c c' -> forall l0 c0, h_circ h !! l0 = Some c0 ->
    exists c1, h_circ (upd h l c') !! l0 = Some c1 /\ grows c0 c1).
  { clear. intros h l c c' El G l0 c0 E0. destruct (decide (l0 = l)) as [-> |Hne].
    - exists c'. split; [by eapply upd_lookup|]. congruence.
    - exists c0. rewrite upd_lookup_ne by done. split; [done|apply grows_refl]. }
  destruct He as [l c gt c' E Hp|l c g c' E Hp|l c s x l' m mid ids outs c' E Es Ex Em Hne Em' Hw Hp| |s x E|l c E|s x l' c' E E'].
  - eapply H0; [done|]. destruct Hp. unfold grows. lia.
  - eapply H0; [done|]. destruct Hp as [_ ->]. unfold grows; cbn; lia.
  - eapply H0; [done|]. pose proof (wf_wires m (hi_circ h Hi _ _ Em')). destruct Hp. unfold grows. lia.
  - intros l c E. exists c. split; [done|apply grows_refl].
  - intros l c0 E0. exists c0. split; [by apply add_circ_old|apply grows_refl].
  - intros l0 c0 E0. exists c0. split; [by apply add_circ_old|apply grows_refl].
  - intros l c0 E0. exists c0. split; [done|apply grows_refl].
Qed.
Lemma step_back md h o : hinv h -> hfits (step md h o) -> hfits h.
Proof.
  intros Hi. pose proof (run_op_effs md h o) as Hr. revert Hi Hr. generalize (step md h o). intros h' Hi Hr. induction Hr as [h|h h1 h' He Hr IH]; [done|].
  intros F. specialize (IH (hinv_eff md h h1 Hi He) F). intros l c E. destruct (eff_grows md h h1 Hi He l c E) as (c' & E' & G).
  specialize (IH _ _ E'). pose proof (wf_wires c (hi_circ h Hi _ _ E)). unfold fits, grows in *. lia.
Qed.
Lemma step_hinv md h o : hinv h -> hinv (step md h o).
Proof. intros Hi. by apply (rtc_eff_hinv md h _ Hi), run_op_effs. Qed.
Lemma step_lens_back md h o : hinv h -> hlens (step md h o) -> hlens h.
Proof.
  intros Hi F l c E. destruct (rtc_eff_hinv md h _ Hi (run_op_effs md h o)) as [_ Hle]. destruct (hle_circ _ _ Hle l c E) as (c' & E' & C).
  destruct (F _ _ E') as [A B]. destruct C. lia.
Qed.

(** * C73 *)
(** In builds without overflow checks every history does the same on words as on numbers, with the three counters taken modulo 2^64. *)
Theorem C73_release ops : hlens (run Release ops) ->
  m_run Release ops = hwords (run Release ops) /\
  forall o, m_run_op Release o (m_run Release ops) = (fst (run_op Release o (run Release ops)), hwords (snd (run_op Release o (run Release ops)))).
Proof.
  intros Hl. assert (m_run Release ops = hwords (run Release ops)) as E.
  { revert Hl. unfold m_run, run. change heap_empty with (hwords heap_empty) at 2. pose proof hinv_empty as Hi. revert Hi. generalize heap_empty.
    induction ops as [|o ops IH]; intros h Hi Hl; cbn [fold_left] in *; [done|].
    assert (hlens h) as Hl0.
    { clear IH. apply (step_lens_back Release h o Hi). revert Hl. pose proof (step_hinv Release h o Hi) as Hi'. revert Hi'. generalize (step Release h o).
      induction ops as [|o' ops IH]; intros h' Hi' Hl; [done|]. cbn [fold_left] in Hl. apply (step_lens_back Release h' o' Hi'). apply IH; [by apply step_hinv|done]. }
    replace (m_step Release (hwords h) o) with (hwords (step Release h o)); [apply IH; [by apply step_hinv|done]|].
    unfold m_step, step. by rewrite (run_op_rel o h Hi Hl0). }
  split; [done|]. intros o. rewrite E. apply run_op_rel; [apply run_hinv|done].
Qed.
Lemma fits_prefix md ops : forall h, hinv h -> hfits (fold_left (step md) ops h) -> hfits h.
Proof. induction ops as [|o ops IH]; intros h Hi H; [done|]. cbn [fold_left] in H. apply (step_back md h o Hi), IH; [by apply step_hinv|done]. Qed.
(** With overflow checks a history that ends with all sizes below 2^64 does the same on words as on numbers; the first call that would leave them
    panics, although on numbers it succeeds. It changes one circuit at most, which keeps its gates and outputs. *)
Theorem C73_debug ops : hfits (run Debug ops) ->
  m_run Debug ops = run Debug ops /\
  forall o, (hfits (run Debug (ops ++ [o])) -> m_run_op Debug o (m_run Debug ops) = run_op Debug o (run Debug ops)) /\
    (~ hfits (run Debug (ops ++ [o])) -> is_ok (fst (run_op Debug o (run Debug ops))) = true /\
       fst (m_run_op Debug o (m_run Debug ops)) = Panic PArith /\ spoiled (run Debug ops) (snd (m_run_op Debug o (m_run Debug ops)))).
Proof.
  intros Hf. assert (m_run Debug ops = run Debug ops) as E.
  { revert Hf. unfold m_run, run. pose proof hinv_empty as Hi. revert Hi. generalize heap_empty. induction ops as [|o ops IH]; intros h Hi Hf; cbn [fold_left] in *; [done|].
    assert (hfits (step Debug h o)) as Hf1 by (eapply fits_prefix; [by apply step_hinv|exact Hf]).
    assert (hfits h) as Hf0 by by eapply step_back.
    destruct (run_op_dbg o h Hi Hf0) as [[E _]|(_ & _ & F & _)]; [|by destruct F].
    replace (m_step Debug h o) with (step Debug h o) by (unfold m_step, step; by rewrite E). apply IH; [by apply step_hinv|done]. }
  split; [done|]. intros o. rewrite E. assert (run Debug (ops ++ [o]) = (run_op Debug o (run Debug ops)).2) as Es.
  { unfold run at 1. rewrite fold_left_app. done. }
  rewrite Es. destruct (run_op_dbg o (run Debug ops) (run_hinv Debug ops) Hf) as [[E1 F]|(E1 & O & F & K)]; split; intros F1; try done.
Qed.
(** [fits] is about one number, the wires of the circuit with all calls inlined. *)
Theorem C73_wires md ops : hfits (run md ops) <-> forall l c, h_circ (run md ops) !! l = Some c -> (num_wire c < 2 ^ 64)%Z.
Proof.
  split; intros H l c E.
  - destruct (H l c E) as [? _]. lia.
  - specialize (H l c E). pose proof (wf_wires c (hi_circ _ (run_hinv md ops) l c E)). unfold fits. lia.
Qed.

(** A tower of modules: the module of level 0 is a negation, every other one calls the one below twice. *)
Definition level (j : nat) : list op :=
  [OpSub 0; OpInput (S (S j)); OpModule (S (S j)) (N.of_nat j) [0]; OpModule (S (S j)) (N.of_nat j) [1]; OpOutput (S (S j)) 2].
Definition tower (k : nat) : list op := [OpNewStorage; OpNewCircuit 0; OpSub 0; OpInput 1; OpNot 1 0; OpOutput 1 1] ++ flat_map level (seq 0 k).
Lemma tower_length k : length (tower k) = (6 + 5 * k)%nat.
Proof.
  unfold tower. rewrite app_length. change (length [_; _; _; _; _; _]) with 6%nat. f_equal. induction k as [|k IH]; [done|].
  rewrite seq_S, flat_map_app, app_length, IH. cbn. lia.
Qed.
Lemma tower_S k : tower (S k) = tower k ++ level k.
Proof. unfold tower. rewrite seq_S, flat_map_app. rewrite <- app_assoc. cbn [flat_map app]. by rewrite app_nil_r. Qed.
Record tower_state (k : nat) (h : heap) : Prop := {
  ts_len : length (h_circ h) = (2 + k)%nat;
  ts_main : h_circ h !! 0%nat = Some (circuit_new 0);
  ts_top : exists c, h_circ h !! S k = Some c /\ input_len c = 1 /\ output_len c = 1 /\ num_gate c = 2 ^ N.of_nat k /\ num_const c = 0 /\
    num_wire c = (2 ^ Z.of_nat k + 1)%Z;
  ts_low : forall l c, h_circ h !! l = Some c -> input_len c < 2 ^ 64 /\ output_len c < 2 ^ 64 /\ (num_wire c <= 2 ^ Z.of_nat k + 1)%Z;
  ts_stor : exists x, h_stor h !! 0%nat = Some x /\ num_module x = N.of_nat (S k) /\ module_map x !! N.of_nat k = Some (S k);
}.
Lemma pow2_pos k : (0 < 2 ^ Z.of_nat k)%Z.
Proof. apply Z.pow_pos_nonneg; lia. Qed.
Lemma tower_run md k : tower_state k (run md (tower k)).
Proof.
  induction k as [|k IH].
  - destruct md.
    all: split; [vm_compute; reflexivity|vm_compute; reflexivity| | |].
    all: try (eexists; split; [vm_compute; reflexivity|]; vm_compute; repeat split; reflexivity).
    all: intros l c E.
    all: assert (l < 2)%nat as Hl by (apply lookup_lt_Some in E; vm_compute in E; lia).
    all: destruct l as [|[|l]]; [| |lia]; vm_compute in E; injection E as <-; cbn; lia.
  - rewrite tower_S. unfold run. rewrite fold_left_app. fold (run md (tower k)). pose proof (run_hinv md (tower k)) as Hi. revert IH Hi. generalize (run md (tower k)). intros h IH Hi.
    destruct IH as [Hlen Hmain (c & Hc & Ci & Co & Cg & Ck & Cw) Hlow (x & Hx & Xn & Xm)]. cbn [level fold_left].
    assert (Hop : forall A (m : M A) (f : A -> ret) h0 a h', m h0 = (Ok a, h') -> snd (as_ret f m h0) = h').
    { intros A m f h0 a h' E. unfold as_ret, st_bind. rewrite E. done. }
    pose proof (pow2_pos k) as Hpos.
    (* a new circuit *)
    pose proof (r_sub_ok h 0 _ Hmain x Hx) as E0. cbn [c_storage circuit_new] in E0.
    unfold step at 5. cbn [run_op]. rewrite (Hop _ _ _ _ _ _ E0). clear E0.
    set (l := length (h_circ h)) in *. set (h1 := reg _ _ _ _). assert (l = S (S k)) as El by done. rewrite <- El.
    assert (h_circ h1 !! l = Some (circuit_new 0)) as L1 by (cbn; rewrite lookup_app_r by lia; by rewrite Nat.sub_diag).
    assert (forall l0, (l0 < l)%nat -> h_circ h1 !! l0 = h_circ h !! l0) as O1 by (intros; cbn; by rewrite lookup_app_l).
    assert (exists x1, h_stor h1 !! 0%nat = Some x1 /\ num_module x1 = N.of_nat (S (S k)) /\ module_map x1 !! N.of_nat (S k) = Some l /\ module_map x1 !! N.of_nat k = Some (S k)) as (x1 & X1 & X2 & X3 & X4).
    { eexists. split; [cbn; rewrite list_lookup_insert; [done|]; by eapply lookup_lt_Some|]. cbn. rewrite Xn. split; [lia|].
      split; [by rewrite lookup_insert|]. rewrite lookup_insert_ne by lia. done. }
    assert (length (h_circ h1) = S l) as Len1 by (cbn; rewrite app_length; cbn; lia).
    clearbody h1.
    (* its input *)
    destruct (r_input_ok h1 l _ L1) as (c2 & E & P2). unfold step at 4. cbn [run_op]. rewrite (Hop _ _ _ _ _ _ E). clear E.
    assert (h_circ (upd h1 l c2) !! l = Some c2) as L2 by by eapply upd_lookup.
    (* two calls *)
    assert (h_circ (upd h1 l c2) !! S k = Some c) as K2 by (rewrite upd_lookup_ne by lia; rewrite O1 by lia; done).
    assert (wires_ok md c) as Hw by (intros _; rewrite Ci, Co, Cw; lia).
    destruct (r_module_ok md (upd h1 l c2) l c2 x1 (S k) c (N.of_nat k) [0] L2) as (outs & c3 & E & P3); [by rewrite (p_st _ _ _ P2)|done|lia|done|done|].
    unfold step at 3. cbn [run_op]. rewrite (Hop _ _ _ _ _ _ E). clear E. rewrite upd_upd.
    assert (h_circ (upd h1 l c3) !! l = Some c3) as L3 by by eapply upd_lookup.
    assert (h_circ (upd h1 l c3) !! S k = Some c) as K3 by (rewrite upd_lookup_ne by lia; rewrite O1 by lia; done).
    destruct (r_module_ok md (upd h1 l c3) l c3 x1 (S k) c (N.of_nat k) [1] L3) as (outs' & c4 & E & P4);
      [by rewrite (pm_st _ _ _ _ _ _ P3), (p_st _ _ _ P2)|done|lia|done|done|].
    unfold step at 2. cbn [run_op]. rewrite (Hop _ _ _ _ _ _ E). clear E. rewrite upd_upd.
    assert (h_circ (upd h1 l c4) !! l = Some c4) as L4 by by eapply upd_lookup.
    (* its output *)
    pose proof (pm_gm _ _ _ _ _ _ P4 2) as G4. rewrite (pm_gi _ _ _ _ _ _ P3), (p_gi _ _ _ P2), Co in G4. cbn [gate_index circuit_new] in G4.
    rewrite decide_True in G4 by lia.
    destruct (r_output_cases (upd h1 l c4) l c4 L4 2) as [[H1 _]|(c5 & E & P5)]; [congruence|].
    unfold step. cbn [run_op]. rewrite (Hop _ _ _ _ _ _ E). clear E. rewrite upd_upd.
    destruct P5 as [_ E5].
    assert (input_len c5 = 1 /\ output_len c5 = 1 /\ num_gate c5 = 2 ^ N.of_nat (S k) /\ num_const c5 = 0 /\ num_wire c5 = (2 ^ Z.of_nat (S k) + 1)%Z) as (F1 & F2 & F3 & F4 & F5).
    { rewrite E5. cbn [input_len output_len num_gate num_const num_wire].
      rewrite (pm_il _ _ _ _ _ _ P4), (pm_il _ _ _ _ _ _ P3), (p_il _ _ _ P2), (pm_ol _ _ _ _ _ _ P4), (pm_ol _ _ _ _ _ _ P3), (p_ol _ _ _ P2),
        (pm_ng _ _ _ _ _ _ P4), (pm_ng _ _ _ _ _ _ P3), (p_ng _ _ _ P2), (pm_nc _ _ _ _ _ _ P4), (pm_nc _ _ _ _ _ _ P3), (p_nc _ _ _ P2),
        (pm_nw _ _ _ _ _ _ P4), (pm_nw _ _ _ _ _ _ P3), (p_nw _ _ _ P2), Ci, Cg, Ck, Cw.
      cbn [circuit_new input_len output_len num_gate num_const num_wire is_input is_logic is_const].
      rewrite Nat2Z.inj_succ, Z.pow_succ_r by lia. rewrite Nat2N.inj_succ, N.pow_succ_r'. lia. }
    split.
    + cbn. rewrite insert_length. lia.
    + rewrite upd_lookup_ne by lia. by rewrite O1 by lia.
    + exists c5. rewrite <- El. split; [by eapply upd_lookup|]. done.
    + intros l0 c0 E0. rewrite Nat2Z.inj_succ, Z.pow_succ_r by lia. rewrite Nat2Z.inj_succ, Z.pow_succ_r in F5 by lia. destruct (decide (l0 = l)) as [-> |Hne].
      * rewrite (upd_lookup h1 l c5 _ L1) in E0. injection E0 as <-. rewrite F1, F2, F5. lia.
      * rewrite upd_lookup_ne in E0 by done. assert (l0 < l)%nat by (apply lookup_lt_Some in E0; lia). rewrite O1 in E0 by done.
        destruct (Hlow _ _ E0) as (? & ? & ?). lia.
    + exists x1. split; [done|]. split; [done|]. by rewrite <- El.
Qed.
Lemma hfits_dec ops : {hfits (run Debug ops)} + {~ hfits (run Debug ops)}.
Proof.
  destruct (decide (Forall (fun c => (num_wire c < 2 ^ 64)%Z) (h_circ (run Debug ops)))) as [F|F]; [left|right].
  - apply C73_wires. intros l c E. exact (proj1 (Forall_lookup _ _) F l c E).
  - intros H. apply F. apply Forall_lookup. exact (proj1 (C73_wires Debug ops) H).
Qed.
(** When a history leaves the sizes that fit, some call of it panics. *)
Lemma some_panic ops : ~ hfits (run Debug ops) -> exists pre o post, ops = pre ++ o :: post /\ fst (m_run_op Debug o (m_run Debug pre)) = Panic PArith.
Proof.
  induction ops as [|o pre IH] using rev_ind; intros H.
  - destruct H. intros l c E. done.
  - destruct (hfits_dec pre) as [F|F].
    + exists pre, o, []. split; [done|]. by apply (proj2 (proj2 (C73_debug pre F) o) H).
    + destruct (IH F) as (p & o' & post & -> & E). exists p, o', (post ++ [o]). by rewrite <- app_assoc.
Qed.
(** 6 + 5 k calls build a circuit of 2^k gates: the counters overflow after a few hundred calls. From level 64 on the number of gates is 0 in
    builds without overflow checks, and some call panics in builds with them. *)
Theorem C73_overflow k : length (tower k) = (6 + 5 * k)%nat /\
  (forall md, exists c, h_circ (run md (tower k)) !! S k = Some c /\ num_gate c = 2 ^ N.of_nat k) /\
  ((k <= 63)%nat -> m_run Debug (tower k) = run Debug (tower k)) /\
  ((64 <= k)%nat -> (exists c, h_circ (m_run Release (tower k)) !! S k = Some c /\ num_gate c = 0 /\ num_wire c = 1%Z) /\
    exists pre o post, tower k = pre ++ o :: post /\ fst (m_run_op Debug o (m_run Debug pre)) = Panic PArith).
Proof.
  split; [apply tower_length|]. split.
  { intros md. destruct (ts_top _ _ (tower_run md k)) as (c & ? & _ & _ & ? & _). eauto. }
  split.
  - intros Hk. apply C73_debug, C73_wires. intros l c E. destruct (ts_low _ _ (tower_run Debug k) l c E) as (_ & _ & H).
    assert (2 ^ Z.of_nat k <= 2 ^ 63)%Z by (apply Z.pow_le_mono_r; lia). lia.
  - intros Hk. assert (exists q, 2 ^ Z.of_nat k = q * 2 ^ 64 /\ 1 <= q)%Z as (q & Hq & Hq1).
    { exists (2 ^ (Z.of_nat k - 64))%Z. rewrite <- Z.pow_add_r by lia. split; [f_equal; lia|]. assert (0 < 2 ^ (Z.of_nat k - 64))%Z by (apply Z.pow_pos_nonneg; lia). lia. }
    split.
    + destruct (ts_top _ _ (tower_run Release k)) as (c & E & _ & _ & G & _ & W).
      destruct (C73_release (tower k)) as [-> _]. { intros l c0 E0. destruct (ts_low _ _ (tower_run Release k) l c0 E0) as (? & ? & _). done. }
      exists (words c). rewrite hwords_lookup, E. split; [done|]. cbn [words num_gate num_wire]. rewrite G, W, Hq. split.
      * replace (2 ^ N.of_nat k) with (Z.to_N q * 2 ^ 64); [by rewrite N.mod_mul|]. apply N2Z.inj. rewrite N2Z.inj_mul, (N2Z.inj_pow 2 (N.of_nat k)), nat_N_Z, Z2N.id by lia. symmetry. exact Hq.
      * rewrite Z.add_comm, Z.mod_add by lia. reflexivity.
    + apply some_panic. intros F. destruct (ts_top _ _ (tower_run Debug k)) as (c & E & _ & _ & _ & _ & W). destruct (F _ _ E) as [? _]. lia.
Qed.

(** * The writer on words *)
Lemma inputs_num h fuel c : cwf c -> forall f k w wog s s' wog', h_circ h !! w_c s = Some c ->
  write_inputs h f (write_single h fuel) k w wog s = (Ok wog', s') -> w_num s' = w_num s + N.of_nat k.
Proof.
  intros Hc. induction f as [|f IH]; intros k w wog s s' wog' El E; destruct k as [|k]; cbn [write_inputs] in E; try done.
  1, 2: injection E as <- <-; lia.
  unfold st_bind at 1, w_circ in E. rewrite El in E. unfold st_bind at 1, st_lift at 1, c_input_to_gate_id in E.
  destruct (decide (w < input_len c)) as [Hw|Hw]; [|by rewrite (wf_inputs_none c Hc) in E by lia].
  destruct (wf_inputs c Hc w Hw) as (g & Ew & Hg). rewrite Ew in E. unfold st_bind at 1, st_lift, c_get_gate in E. rewrite Hg in E.
  destruct fuel as [|fuel]; [done|]. cbn [write_single single_body] in E. unfold st_bind at 1 in E.
  unfold update_wire, st_bind, w_get, w_set_num, st_ret in E. cbn in E. apply IH in E; [|done]. cbn in E. lia.
Qed.
Lemma bind_ext {S A B} (m : ST S A) (k k' : A -> ST S B) s : (forall a s', m s = (Ok a, s') -> k a s' = k' a s') -> st_bind m k s = st_bind m k' s.
Proof. intros H. unfold st_bind. destruct (m s) as [[a| | |] s'] eqn:E; try done. by apply H. Qed.
(** A circuit whose header fits is written as [Writer.v] says. *)
Theorem C73_write md ops fuel n given l c (h := run md ops) : h_circ h !! l = Some c -> (num_wire c + Z.of_N (num_const c) < 2 ^ 64)%Z ->
  m_write md h fuel n given (writer_new l) = write h fuel n given (writer_new l).
Proof.
  intros El Hf. assert (hinv h) as Hi by apply run_hinv. clearbody h. pose proof (hi_circ h Hi l c El) as Hc. pose proof (wf_wires c Hc) as Hw. unfold m_write, write.
  assert (forall A a b (k : N -> WM A) s, a + b < 2 ^ 64 -> st_bind (st_lift (usize_add md a b)) k s = k (a + b) s) as Ha.
  { intros A a b k s H. unfold usize_add. rewrite umod. by rewrite (proj2 (N.ltb_lt _ _) H). }
  apply bind_ext. intros x s0 E0. unfold w_circ in E0. cbn [w_c writer_new] in E0. rewrite El in E0. injection E0 as <- <-.
  rewrite Ha by lia. apply bind_ext. intros [] s1 E1. rewrite Ha by lia. apply (f_equal snd) in E1. cbn [snd w_write w_set_cow w_set_const] in E1. subst s1.
  apply bind_ext. intros [] s2 E2. assert (s2 = WState l 0 0 [(show_N (num_gate c) ++ " " ++ show_N (Z.to_N (num_wire c) + num_const c) ++ nl)%string] ∅) as ->.
  { destruct (_ <=? _); [|done]. by apply (f_equal snd) in E2. }
  apply bind_ext. intros [] s3 E3. apply (f_equal snd) in E3. cbn [snd w_write w_set_cow w_set_const] in E3. subst s3. apply bind_ext. intros [] s3 E3. apply (f_equal snd) in E3. cbn [snd w_write w_set_cow w_set_const] in E3. subst s3. apply bind_ext. intros [] s3 E3. apply (f_equal snd) in E3. cbn [snd w_write w_set_cow w_set_const] in E3. subst s3.
  apply bind_ext. intros [] s3 E3. apply (f_equal snd) in E3. cbn [snd w_write w_set_cow w_set_const] in E3. subst s3. apply bind_ext. intros wog s4 E4. apply (inputs_num h fuel c Hc) in E4; [|done].
  apply bind_ext. intros [] s5 E5. apply (f_equal snd) in E5. cbn [snd w_write w_set_cow w_set_const] in E5. subst s5. apply bind_ext. intros s6 s7 E6. injection E6 as <- <-. cbn [w_num] in *.
  rewrite Ha by lia. done.
Qed.
(** With overflow checks a header that does not fit is a panic before anything is written. *)
Theorem C73_write_panics h fuel n given l c : h_circ h !! l = Some c -> 2 ^ 64 <= Z.to_N (num_wire c) + num_const c ->
  m_write Debug h fuel n given (writer_new l) = (Panic PArith, writer_new l).
Proof.
  intros El Hf. unfold m_write, st_bind at 1, w_circ. cbn [w_c writer_new]. rewrite El. unfold st_bind at 1, st_lift at 1. rewrite uadd_dbg.
  by rewrite (proj2 (N.ltb_ge _ _) Hf).
Qed.
(** * The text of a circuit that does not fit, without overflow checks *)
Definition wgrow {A} (m : WM A) : Prop := forall s, exists r, w_out (m s).2 = w_out s ++ r.
Lemma wgrow_same {A} (m : WM A) : (forall s, w_out (m s).2 = w_out s) -> wgrow m.
Proof. intros H s. exists []. by rewrite H, app_nil_r. Qed.
Lemma wgrow_bind {A B} (m : WM A) (k : A -> WM B) : wgrow m -> (forall a, wgrow (k a)) -> wgrow (st_bind m k).
Proof.
  intros Hm Hk s. unfold st_bind. destruct (Hm s) as [r E]. destruct (m s) as [[a| | |] s']; cbn [snd] in *; eauto.
  destruct (Hk a s') as [r' ->]. rewrite E, <- app_assoc. eauto.
Qed.
Lemma wgrow_lift {A} (r : res A) : wgrow (st_lift r).
Proof. by apply wgrow_same. Qed.
Lemma wgrow_ret {A} (a : A) : wgrow (st_ret a).
Proof. by apply wgrow_same. Qed.
Lemma wgrow_write s : wgrow (w_write s).
Proof. intros st. by eexists. Qed.
Lemma wgrow_foldM {A B} (f : B -> A -> WM B) xs : (forall b a, wgrow (f b a)) -> forall b, wgrow (st_foldM f b xs).
Proof. intros H. induction xs as [|x xs IH]; intros b; cbn; [apply wgrow_ret|]. apply wgrow_bind; auto. Qed.
Lemma wgrow_mapM {A B} (f : A -> WM B) xs : (forall a, wgrow (f a)) -> wgrow (st_mapM f xs).
Proof. intros H. induction xs as [|x xs IH]; cbn; [apply wgrow_ret|]. apply wgrow_bind; auto. intros. apply wgrow_bind; auto. intros. apply wgrow_ret. Qed.
Lemma wgrow_circ h : wgrow (w_circ h).
Proof. apply wgrow_same. intros s. unfold w_circ. by destruct (h_circ h !! w_c s). Qed.
Lemma wgrow_key {A} (m : gmap N A) k : wgrow (w_key m k).
Proof. apply wgrow_same. intros s. unfold w_key. by destruct (m !! k). Qed.
Lemma wgrow_gate h i : wgrow (w_gate h i).
Proof. apply wgrow_bind; [apply wgrow_circ|]. intros. apply wgrow_lift. Qed.
Lemma wgrow_update g ws str wog : wgrow (update_wire g ws str wog).
Proof.
  apply wgrow_bind; [by apply wgrow_same|]. intros st. apply wgrow_bind; [destruct ws; [apply wgrow_write|apply wgrow_ret]|].
  intros _. apply wgrow_bind; [by apply wgrow_same|]. intros _. apply wgrow_ret.
Qed.
Section grow.
Context (h : heap) (single : N -> gate -> wmap -> WM wmap) (Hs : forall g gt wog, wgrow (single g gt wog)).
Lemma wgrow_ensure wog i : wgrow (ensure h single wog i).
Proof using Hs. unfold ensure. destruct (wog !! i); [apply wgrow_ret|]. apply wgrow_bind; [apply wgrow_gate|auto]. Qed.
Lemma wgrow_ensure_all wog ids : wgrow (ensure_all h single wog ids).
Proof using Hs. apply wgrow_foldM. apply wgrow_ensure. Qed.
Lemma wgrow_all wog : wgrow (write_all h single wog).
Proof using Hs.
  apply wgrow_bind; [apply wgrow_circ|]. intros c. apply wgrow_bind.
  { apply wgrow_foldM. intros w i. apply wgrow_bind; [apply wgrow_gate|]. intros []; try apply wgrow_ret.
    apply wgrow_bind; [by apply wgrow_same|]. intros st. apply wgrow_bind; [by apply wgrow_same|]. intros _. apply wgrow_bind; [by apply wgrow_same|]. intros. apply wgrow_ret. }
  intros w. apply wgrow_bind.
  { apply wgrow_foldM. intros acc i. apply wgrow_bind; [apply wgrow_circ|]. intros c'. apply wgrow_bind; [apply wgrow_lift|]. intros o. apply wgrow_bind; [apply wgrow_lift|].
    intros []; try apply wgrow_ret; (apply wgrow_bind; [apply wgrow_ensure_all|]); intros; apply wgrow_ret. }
  intros [w' outs]. apply wgrow_foldM. intros b [i g]. unfold write_pass2. destruct (b !! _); [apply wgrow_ret|apply Hs].
Qed.
Lemma wgrow_args f m wog : forall ids w new, wgrow (bind_args f m wog ids w new).
Proof.
  induction f as [|f IH]; intros [|i ids] w new; cbn [bind_args]; try apply wgrow_ret.
  - by apply wgrow_same.
  - apply wgrow_bind; [apply wgrow_lift|]. intros [g|]; [|apply IH]. apply wgrow_bind; [apply wgrow_key|]. intros. apply IH.
Qed.
Lemma wgrow_body g gt wog : wgrow (single_body h single g gt wog).
Proof using Hs.
  destruct gt as [w|b|a|a b|a b|a b|il ol ids oi mid]; cbn [single_body].
  - apply wgrow_update.
  - apply wgrow_ret.
  - apply wgrow_bind; [apply wgrow_ensure_all|]. intros. apply wgrow_bind; [apply wgrow_key|]. intros. apply wgrow_update.
  - apply wgrow_bind; [apply wgrow_ensure_all|]. intros. do 2 (apply wgrow_bind; [apply wgrow_key|]; intros). apply wgrow_update.
  - apply wgrow_bind; [apply wgrow_ensure_all|]. intros. do 2 (apply wgrow_bind; [apply wgrow_key|]; intros). apply wgrow_update.
  - apply wgrow_bind; [apply wgrow_ensure_all|]. intros. do 2 (apply wgrow_bind; [apply wgrow_key|]; intros). apply wgrow_update.
  - apply wgrow_bind; [apply wgrow_ensure_all|]. intros w1. apply wgrow_bind; [apply wgrow_circ|]. intros c. apply wgrow_bind.
    { apply wgrow_same. intros s. destruct (h_stor h !! c_storage c); [|done]. by destruct (module_map _ !! mid). }
    intros l'. apply wgrow_bind; [apply wgrow_same; intros s; by destruct (h_circ h !! l')|]. intros m. apply wgrow_bind; [apply wgrow_args|]. intros new.
    apply wgrow_bind; [by apply wgrow_same|]. intros st. apply wgrow_bind; [by apply wgrow_same|]. intros _. apply wgrow_bind; [apply wgrow_all|]. intros new'.
    apply wgrow_bind; [by apply wgrow_same|]. intros _. apply wgrow_foldM. intros w i. apply wgrow_bind; [apply wgrow_lift|]. intros o. apply wgrow_bind; [apply wgrow_key|].
    intros. apply wgrow_ret.
Qed.
Lemma wgrow_inputs f : forall k w wog, wgrow (write_inputs h f single k w wog).
Proof using Hs.
  induction f as [|f IH]; intros [|k] w wog; cbn [write_inputs]; try apply wgrow_ret; [by apply wgrow_same|].
  apply wgrow_bind; [apply wgrow_circ|]. intros c. apply wgrow_bind; [apply wgrow_lift|]. intros [i|]; [|apply IH].
  apply wgrow_bind; [apply wgrow_lift|]. intros g. apply wgrow_bind; [apply Hs|]. intros. apply IH.
Qed.
End grow.
Lemma wgrow_single h fuel : forall g gt wog, wgrow (write_single h fuel g gt wog).
Proof. induction fuel as [|f IH]; intros; cbn [write_single]; [by apply wgrow_same|]. by apply wgrow_body. Qed.
Open Scope string_scope.
Theorem C73_header ops fuel n given l c : hlens (run Release ops) -> h_circ (run Release ops) !! l = Some c ->
  exists rest, w_out (snd (m_write Release (m_run Release ops) fuel n given (writer_new l))) =
    (show_N (num_gate c mod 2 ^ 64) ++ " " ++ show_N (Z.to_N ((num_wire c + Z.of_N (num_const c)) mod 2 ^ 64)) ++ nl) :: rest.
Proof.
  intros Hl El. destruct (C73_release ops Hl) as [-> _]. unfold m_write, st_bind at 1, w_circ. cbn [w_c writer_new]. rewrite hwords_lookup, El. cbn [fmap option_fmap option_map].
  cbn [words num_wire num_const num_gate input_len output_len input_map]. unfold st_bind at 1, st_lift at 1. rewrite uadd_rel.
  replace ((Z.to_N (num_wire c mod 2 ^ 64) + num_const c mod 2 ^ 64) mod 2 ^ 64)%N with (Z.to_N ((num_wire c + Z.of_N (num_const c)) mod 2 ^ 64)).
  2: { apply N2Z.inj. rewrite Z2N.id by (apply Z.mod_pos_bound; lia). rewrite N2Z.inj_mod, N2Z.inj_add, N2Z.inj_mod, Z2N.id by (apply Z.mod_pos_bound; lia).
       change (Z.of_N (2 ^ 64)) with (2 ^ 64)%Z. by rewrite <- Z.add_mod. }
  unfold st_bind at 1. unfold w_write at 1. cbn [w_c w_num w_const w_out w_cow app].
  match goal with |- exists rest, w_out (?m ?s).2 = _ => assert (wgrow m) as H end.
  2: { match goal with |- exists rest, w_out (?m ?s).2 = _ => destruct (H s) as [r ->] end. by eexists. }
  apply wgrow_bind; [apply wgrow_lift|]. intros al. apply wgrow_bind; [destruct (_ <=? _)%N; by apply wgrow_same|]. intros _.
  do 3 (apply wgrow_bind; [apply wgrow_write|]; intros _). apply wgrow_bind; [by apply wgrow_same|]. intros _.
  apply wgrow_bind; [apply wgrow_inputs, wgrow_single|]. intros w1. apply wgrow_bind; [by apply wgrow_same|]. intros _. apply wgrow_bind; [by apply wgrow_same|]. intros st.
  apply wgrow_bind; [apply wgrow_lift|]. intros nn. apply wgrow_bind; [by apply wgrow_same|]. intros _. apply wgrow_bind; [apply wgrow_all, wgrow_single|]. intros w2.
  apply wgrow_bind; [by apply wgrow_same|]. intros st'. apply wgrow_bind; [apply wgrow_mapM; intros; apply wgrow_key|]. intros. apply wgrow_ret.
Qed.
Close Scope string_scope.

(** * Evaluation does not see the counters *)
Lemma need_ext (e1 e2 : N -> ST estate unit) a s : (forall g s, e1 g s = e2 g s) -> e_need e1 a s = e_need e2 a s.
Proof. intros H. unfold e_need. destruct (evaled s !! a); [done|apply H]. Qed.
Lemma bind_ext2 {S A B} (m m' : ST S A) (k k' : A -> ST S B) s : m s = m' s -> (forall a s', k a s' = k' a s') -> st_bind m k s = st_bind m' k' s.
Proof. intros E H. unfold st_bind. rewrite E. destruct (m' s) as [[a| | |] s']; [apply H|done..]. Qed.
Lemma mapM_ext {S A B} (f f' : A -> ST S B) xs : (forall a s, f a s = f' a s) -> forall s, st_mapM f xs s = st_mapM f' xs s.
Proof. intros H. induction xs as [|x xs IH]; intros s; cbn; [done|]. apply bind_ext2; [done|]. intros. apply bind_ext2; [done|]. done. Qed.
Lemma load_words c k : forall w ins s, e_load (words c) k w ins s = e_load c k w ins s.
Proof.
  induction k as [|k IH]; intros w [|b ins] s; try done. cbn [e_load words input_map]. destruct (input_map c !! w) as [[g|]|]; [|apply IH|done].
  apply bind_ext2; [done|]. intros. apply IH.
Qed.
Lemma output_with_ext h (e1 e2 : nat -> N -> ST estate unit) l ins : (forall l g s, e1 l g s = e2 l g s) ->
  eval_output_with (hwords h) e1 l ins = eval_output_with h e2 l ins.
Proof.
  intros H. unfold eval_output_with. rewrite hwords_lookup. destruct (h_circ h !! l) as [c|]; [|done]. cbn [fmap option_fmap option_map].
  change (input_len (words c)) with (input_len c). destruct (negb _); [done|]. f_equal. apply bind_ext2; [apply load_words|]. intros _ s. apply mapM_ext. intros w s'.
  unfold e_single_output. cbn [words input_len output_len output_map]. destruct (negb _); [done|]. destruct (_ <=? _); [done|]. destruct (output_map c !! w); [|done].
  destruct (evaled s' !! _); [done|]. by apply bind_ext2.
Qed.
Lemma gate_words md h fuel : forall l g s, eval_gate md (hwords h) fuel l g s = eval_gate md h fuel l g s.
Proof.
  induction fuel as [|f IH]; intros l g s; cbn [eval_gate]; [done|]. rewrite hwords_lookup. destruct (h_circ h !! l) as [c|]; [|done]. cbn [fmap option_fmap option_map].
  change (gate_map (words c)) with (gate_map c). assert (Hn : forall a s, e_need (eval_gate md (hwords h) f l) a s = e_need (eval_gate md h f l) a s) by (intros; by apply need_ext).
  destruct (gate_map c !! g) as [[w|b|a|a b|a b|a b|il ol ids oi mid]|]; try done.
  - apply bind_ext2; [apply Hn|]. done.
  - unfold e_binary. apply bind_ext2; [apply Hn|]. intros. by apply bind_ext2; [apply Hn|].
  - unfold e_binary. apply bind_ext2; [apply Hn|]. intros. by apply bind_ext2; [apply Hn|].
  - unfold e_binary. apply bind_ext2; [apply Hn|]. intros. by apply bind_ext2; [apply Hn|].
  - apply bind_ext2. { apply mapM_ext. intros. by apply bind_ext2; [apply Hn|]. }
    intros bits s'. cbn [hwords h_stor words c_storage]. destruct (h_stor h !! c_storage c) as [x|]; [|done]. destruct (module_map x !! mid) as [l'|]; [|done].
    change (Heap (map words (h_circ h)) (h_stor h)) with (hwords h). rewrite (output_with_ext h (eval_gate md (hwords h) f) (eval_gate md h f) l' bits IH).
    apply bind_ext2; [done|]. intros outs s2. apply bind_ext2; [done|]. intros _ s3. apply bind_ext2; [done|]. intros first s4. clear.
    generalize 0. revert s4. induction (N.to_nat ol) as [|k IH]; intros s4 i; cbn [e_insert_outputs]; [done|]. apply bind_ext2; [done|]. intros b s5. by apply bind_ext2.
Qed.
Theorem C73_eval md h fuel l ins : eval_output md (hwords h) fuel l ins = eval_output md h fuel l ins.
Proof. apply output_with_ext. apply gate_words. Qed.

(** The tower of 64 levels, 326 calls, and an ordinary history that fits. *)
Example C73_example : length (tower 64) = 326%nat /\
  (forall fuel n given, exists rest, w_out (snd (m_write Release (m_run Release (tower 64)) fuel n given (writer_new 65))) = ("0 1" ++ nl)%string :: rest) /\
  hfits (run Debug (tower 5)) /\ hlens (run Release (tower 64)) /\ ~ hfits (run Debug (tower 64)).
Proof.
  split; [rewrite tower_length; reflexivity|]. assert (hlens (run Release (tower 64))) as Hl.
  { intros l c0 E0. destruct (ts_low _ _ (tower_run Release 64) l c0 E0) as (? & ? & _). split; assumption. }
  split; [|split; [|split; [exact Hl|]]].
  - intros fuel n given. destruct (ts_top _ _ (tower_run Release 64)) as (c & E & _ & _ & G & K & W).
    destruct (C73_header (tower 64) fuel n given 65 c Hl E) as [rest H]. exists rest. rewrite H. rewrite G, K, W. reflexivity.
  - apply C73_wires. intros l c E. destruct (ts_low _ _ (tower_run Debug 5) l c E) as (_ & _ & H). cbn in H. lia.
  - intros F. destruct (ts_top _ _ (tower_run Debug 64)) as (c & E & _ & _ & _ & _ & W). destruct (F _ _ E) as [? _]. change (Z.of_nat 64) with 64%Z in W. lia.
Qed.
