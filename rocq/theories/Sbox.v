(** A checker for circuits made of affine layers over GF(2) and of functions of one byte. Not a model of any code. *)
From Verif Require Export Cuts.
Open Scope N_scope.
Open Scope list_scope.

(** * Wires that carry a bit, or its complement *)
Definition pval (v : N -> bool) (l : N * bool) : bool := xorb (snd l) (v (fst l)).
(** The wires known to carry a bit: there may be none or many. *)
Notation bitw := (list (N * bool)).
Definition says (v : N -> bool) (b : bool) (ws : bitw) : Prop := Forall (fun l => pval v l = b) ws.

(** * Sums of variables *)
(** The sum of the variables selected by the bits of [m]. *)
Fixpoint mval (vars : list bool) (m : N) : bool :=
  match vars with [] => false | b :: vars => xorb (b && N.odd m) (mval vars (N.div2 m)) end.
Lemma odd_lxor a b : N.odd (N.lxor a b) = xorb (N.odd a) (N.odd b).
Proof. by rewrite <- !N.bit0_odd, N.lxor_spec. Qed.
Lemma div2_lxor a b : N.div2 (N.lxor a b) = N.lxor (N.div2 a) (N.div2 b).
Proof. by rewrite !N.div2_spec, N.shiftr_lxor. Qed.
Lemma mval_lxor vars : forall a b, mval vars (N.lxor a b) = xorb (mval vars a) (mval vars b).
Proof.
  induction vars as [|x vars IH]; intros a b; [done|]. cbn [mval]. rewrite odd_lxor, div2_lxor, IH.
  destruct x, (N.odd a), (N.odd b), (mval vars (N.div2 a)), (mval vars (N.div2 b)); done.
Qed.
Lemma mval_0 vars : mval vars 0 = false.
Proof. induction vars as [|x vars IH]; [done|]. cbn [mval N.odd]. cbn. by rewrite andb_false_r, IH. Qed.
Lemma mval_unit vars : forall i, mval vars (2 ^ N.of_nat i) = nth i vars false.
Proof.
  induction vars as [|x vars IH]; intros i; [by destruct i|]. cbn [mval]. destruct i as [|i]; cbn [nth].
  - cbn. rewrite mval_0. by destruct x.
  - rewrite Nat2N.inj_succ, N.pow_succ_r', N.odd_mul. cbn [N.odd andb]. rewrite andb_false_r, xorb_false_l, N.div2_double. apply IH.
Qed.
(** The sum of the elements selected by the bits of [s], with any addition. *)
Fixpoint select {A} (zero : A) (add : A -> A -> A) (xs : list A) (s : N) : A :=
  match xs with [] => zero | x :: xs => add (if N.odd s then x else zero) (select zero add xs (N.div2 s)) end.
Lemma select_mval {A} (zero : A) (add : A -> A -> A) (f : A -> bool) xs : f zero = false -> (forall x y, f (add x y) = xorb (f x) (f y)) ->
  forall s, f (select zero add xs s) = mval (map f xs) s.
Proof.
  intros H0 Ha. induction xs as [|x xs IH]; intros s; [done|]. cbn [select map mval]. rewrite Ha, IH. f_equal. destruct (N.odd s); [by rewrite andb_true_r|].
  by rewrite andb_false_r.
Qed.

(** * Symbolic evaluation *)
(** The value of a wire as a function of a byte (a table of 256 bits) plus a sum of variables. *)
Notation env := (ptree (N * N)).
Definition full256 : N := Eval vm_compute in N.ones 256.
Definition polarity (p : bool) : N := if p then full256 else 0.
Fixpoint aeval (T : ptree cg) (e : env) (order : list N) : option env :=
  match order with
  | [] => Some e
  | w :: order =>
      match tget T w with
      | Some (CX a b _) =>
          match tget e a, tget e b with
          | Some (ta, ma), Some (tb, mb) => aeval T (tset w (N.lxor ta tb, N.lxor ma mb) e) order
          | _, _ => None
          end
      | Some (CA a b _) =>
          match tget e a, tget e b with
          | Some (ta, 0), Some (tb, 0) => aeval T (tset w (N.land ta tb, 0) e) order
          | _, _ => None
          end
      | Some (CI a _) => match tget e a with Some (ta, ma) => aeval T (tset w (N.lxor ta full256, ma) e) order | None => None end
      | Some (CW a _) => match tget e a with Some r => aeval T (tset w r e) order | None => None end
      | None => None
      end
  end.
Definition esound (v : N -> bool) (vars : list bool) (x : N) (e : env) : Prop :=
  forall w t m, tget e w = Some (t, m) -> v w = xorb (N.testbit t x) (mval vars m).
Lemma full256_spec x : x < 256 -> N.testbit full256 x = true.
Proof. intros H. change full256 with (N.ones 256). by apply N.ones_spec_low. Qed.
Lemma polarity_spec p x : x < 256 -> N.testbit (polarity p) x = p.
Proof. intros H. destruct p; [by apply full256_spec|apply N.bits_0]. Qed.
Lemma esound_set v vars x e w t m : esound v vars x e -> v w = xorb (N.testbit t x) (mval vars m) -> esound v vars x (tset w (t, m) e).
Proof. intros He Hw u t' m' H. rewrite tget_set in H. destruct (N.eqb_spec w u) as [<-|_]; [injection H as <- <-; exact Hw|]. by apply He in H. Qed.
Lemma aeval_sound v T vars x : tree_sat v T -> x < 256 -> forall order e e', esound v vars x e -> aeval T e order = Some e' -> esound v vars x e'.
Proof.
  intros HT Hx. induction order as [|w order IH]; intros e e' He H; cbn [aeval] in H; [by injection H as <-|].
  destruct (tget T w) as [ [a b o|a b o|a o|a o]|] eqn:E; try done; destruct (HT _ _ E) as [Hs Ho]; cbn [sat cg_out] in *; subst o.
  - destruct (tget e a) as [[ta ma]|] eqn:Ea; [|done]. destruct (tget e b) as [[tb mb]|] eqn:Eb; [|done].
    refine (IH _ _ _ H). apply esound_set; [done|]. rewrite Hs, (He _ _ _ Ea), (He _ _ _ Eb), N.lxor_spec, mval_lxor.
    destruct (N.testbit ta x), (N.testbit tb x), (mval vars ma), (mval vars mb); done.
  - destruct (tget e a) as [[ta ma]|] eqn:Ea; [|done]. destruct ma; [|done]. destruct (tget e b) as [[tb mb]|] eqn:Eb; [|done]. destruct mb; [|done].
    refine (IH _ _ _ H). apply esound_set; [done|]. rewrite Hs, (He _ _ _ Ea), (He _ _ _ Eb), N.land_spec, mval_0. by rewrite !xorb_false_r.
  - destruct (tget e a) as [[ta ma]|] eqn:Ea; [|done].
    refine (IH _ _ _ H). apply esound_set; [done|]. rewrite Hs, (He _ _ _ Ea), N.lxor_spec, full256_spec by done.
    by destruct (N.testbit ta x), (mval vars ma).
  - destruct (tget e a) as [[ta ma]|] eqn:Ea; [|done].
    refine (IH _ _ _ H). apply esound_set; [done|]. by rewrite Hs, (He _ _ _ Ea).
Qed.

(** * One byte function *)
(** Leaves: wires that carry a sum of variables. *)
Definition leaves_env (ls : list (N * bool * N)) (e : env) : env := fold_left (fun e '(w, p, m) => tset w (polarity p, m) e) ls e.
Definition leaf_ok (v : N -> bool) (vars : list bool) (l : N * bool * N) : Prop := let '(w, p, m) := l in pval v (w, p) = mval vars m.
Lemma leaves_env_sound v vars x ls : x < 256 -> Forall (leaf_ok v vars) ls -> forall e, esound v vars x e -> esound v vars x (leaves_env ls e).
Proof.
  intros Hx Hl. induction Hl as [|[[w p] m] ls H _ IH]; intros e He; [done|]. unfold leaves_env. cbn [fold_left]. apply IH. apply esound_set; [done|].
  unfold leaf_ok, pval in H. cbn [fst snd] in H. rewrite polarity_spec by done. rewrite <- H. by destruct p, (v w).
Qed.
(** The tables of the bits of a byte, low bit first. *)
Definition bit_tables : list N := Eval vm_compute in map (leaf_table 8) [0; 1; 2; 3; 4; 5; 6; 7].
(** [sb_claims]: wires that carry a sum of bits of the byte: the wire, the bits, the polarity. *)
Record sbox := SBox { sb_order1 : list N; sb_claims : list (N * N * bool); sb_order2 : list N }.
Definition claim_ok (e : env) (xs : list N) (c : N * N * bool) : bool :=
  let '(w, s, p) := c in match tget e w with Some (t, m) => (t =? polarity p) && (m =? select 0 N.lxor xs s) | None => false end.
Definition claims_env (cs : list (N * N * bool)) (e : env) : env :=
  fold_left (fun e '(w, s, p) => tset w (N.lxor (polarity p) (select 0 N.lxor bit_tables s), 0) e) cs e.
(** Targets: a wire with polarity, a table and a sum of variables. *)
Definition target_ok (e : env) (g : N * bool * (N * N)) : bool :=
  let '(w, p, (t, m)) := g in match tget e w with Some (t', m') => (t' =? N.lxor (polarity p) t) && (m' =? m) | None => false end.
(** [xs]: the bits of the byte, low bit first, as sums of variables. *)
Definition sbox_ok (T : ptree cg) (leaves1 : list (N * bool * N)) (xs : list N) (s : sbox) (leaves2 : list (N * bool * N)) (targets : list (N * bool * (N * N))) : bool :=
  match aeval T (leaves_env leaves1 PL) (sb_order1 s) with
  | Some e1 =>
      forallb (claim_ok e1 xs) (sb_claims s) &&
      match aeval T (claims_env (sb_claims s) (leaves_env leaves2 PL)) (sb_order2 s) with
      | Some e2 => forallb (target_ok e2) targets
      | None => false
      end
  | None => false
  end.
Lemma bit_tables_spec x : x < 256 -> map (fun t => N.testbit t x) bit_tables = map (N.testbit x) [0; 1; 2; 3; 4; 5; 6; 7].
Proof.
  intros H. change bit_tables with (map (leaf_table 8) [0; 1; 2; 3; 4; 5; 6; 7]). rewrite map_map. apply map_ext. intros j. by apply leaf_table_spec.
Qed.
Lemma esound_PL v vars x : esound v vars x PL.
Proof. intros w t m H. by rewrite tget_PL in H. Qed.
Theorem sbox_sound v T vars leaves1 xs s leaves2 targets : tree_sat v T -> length xs = 8%nat ->
  sbox_ok T leaves1 xs s leaves2 targets = true -> Forall (leaf_ok v vars) leaves1 -> Forall (leaf_ok v vars) leaves2 ->
  Forall (fun '(w, p, (t, m)) => pval v (w, p) = xorb (N.testbit t (of_bits (map (mval vars) xs))) (mval vars m)) targets.
Proof.
  intros HT Hl H L1 L2. set (x := of_bits (map (mval vars) xs)).
  assert (Hx : x < 256). { pose proof (of_bits_lt (map (mval vars) xs)) as Hx. rewrite map_length, Hl in Hx. exact Hx. }
  unfold sbox_ok in H. destruct (aeval T (leaves_env leaves1 PL) (sb_order1 s)) as [e1|] eqn:E1; [|done]. apply andb_true_iff in H as [Hc H].
  pose proof (aeval_sound v T vars x HT Hx _ _ _ (leaves_env_sound v vars x _ Hx L1 _ (esound_PL _ _ _)) E1) as S1.
  destruct (aeval T (claims_env (sb_claims s) (leaves_env leaves2 PL)) (sb_order2 s)) as [e2|] eqn:E2; [|done].
  assert (Hxs : map (mval vars) xs = map (N.testbit x) [0; 1; 2; 3; 4; 5; 6; 7]).
  { unfold x. destruct xs as [|x0 [|x1 [|x2 [|x3 [|x4 [|x5 [|x6 [|x7 [|] ] ] ] ] ] ] ] ]; try done. set (l := map (mval vars) _).
    change [0; 1; 2; 3; 4; 5; 6; 7] with (map N.of_nat [0; 1; 2; 3; 4; 5; 6; 7]%nat). cbn [map]. rewrite !of_bits_spec. reflexivity. }
  assert (S2 : esound v vars x e2).
  { refine (aeval_sound v T vars x HT Hx _ _ _ _ E2). pose proof (leaves_env_sound v vars x _ Hx L2 _ (esound_PL v vars x)) as S0.
    revert S0. generalize (leaves_env leaves2 PL). clear -Hc S1 Hxs Hx. induction (sb_claims s) as [|[[w b] p] cs IH]; intros e S0; [done|].
    cbn [forallb] in Hc. apply andb_true_iff in Hc as [H1 H2]. unfold claims_env. cbn [fold_left]. apply (IH H2). apply esound_set; [done|].
    unfold claim_ok in H1. destruct (tget e1 w) as [[t m]|] eqn:E; [|done]. apply andb_true_iff in H1 as [Ht Hm]. apply N.eqb_eq in Ht, Hm. subst.
    rewrite (S1 _ _ _ E), N.lxor_spec, polarity_spec, mval_0, xorb_false_r by done. f_equal.
    rewrite (select_mval 0 N.lxor (mval vars)), (select_mval 0 N.lxor (fun t => N.testbit t x)).
    - by rewrite bit_tables_spec, Hxs.
    - apply N.bits_0.
    - intros a c. apply N.lxor_spec.
    - apply mval_0.
    - apply mval_lxor. }
  apply Forall_forall. intros [[w p] [t m]] Hin. rewrite forallb_forall in H. apply elem_of_list_In in Hin. specialize (H _ Hin). unfold target_ok in H.
  destruct (tget e2 w) as [[t' m']|] eqn:E; [|done]. apply andb_true_iff in H as [Ht Hm]. apply N.eqb_eq in Ht, Hm. subst.
  unfold pval. cbn [fst snd]. rewrite (S2 _ _ _ E), N.lxor_spec, polarity_spec by done. by destruct p, (N.testbit t x), (mval vars m).
Qed.
