(** Certificates about netlists, checked by computation: truth tables of small cuts, and sums of linear facts. Not a model of any code. *)
From Verif Require Export Netlist ZBits.
Open Scope N_scope.
Open Scope list_scope.

(** * The gates by output wire *)
Definition gate_tree (gs : list cg) : ptree cg := fold_left (fun t g => tset (cg_out g) g t) gs PL.
Definition tree_sat (v : N -> bool) (T : ptree cg) : Prop := forall w g, tget T w = Some g -> sat v g /\ cg_out g = w.
Lemma gate_tree_sat v gs : Forall (sat v) gs -> tree_sat v (gate_tree gs).
Proof.
  unfold gate_tree. assert (H : forall T, tree_sat v T -> Forall (sat v) gs -> tree_sat v (fold_left (fun t g => tset (cg_out g) g t) gs T)).
  { induction gs as [|g gs IH]; intros T HT Hs; [done|]. apply Forall_cons in Hs as [Hg Hs]. cbn [fold_left]. apply IH; [|done].
    intros w g' H. rewrite tget_set in H. destruct (N.eqb_spec (cg_out g) w) as [E|_]; [|by apply HT]. by injection H as <-. }
  intros Hs. apply H; [|done]. intros w g. by rewrite tget_PL.
Qed.

(** * Cuts *)
(** A truth table over [k] leaves is a number of [2^k] bits: bit [m] is the value when leaf [j] has value [N.testbit m j]. *)
Fixpoint of_bits (l : list bool) : N := match l with [] => 0 | b :: l => N.b2n b + 2 * of_bits l end.
Lemma of_bits_spec l : forall j, N.testbit (of_bits l) (N.of_nat j) = nth j l false.
Proof.
  induction l as [|b l IH]; intros j; cbn [of_bits]; [rewrite N.bits_0; by destruct j|].
  destruct j as [|j]; cbn [nth].
  - rewrite N.add_comm. by rewrite N.testbit_0_r.
  - rewrite Nat2N.inj_succ, N.add_comm, N.testbit_succ_r. apply IH.
Qed.
Lemma of_bits_lt l : of_bits l < 2 ^ N.of_nat (length l).
Proof.
  induction l as [|b l IH]; [done|]. cbn [of_bits length]. rewrite Nat2N.inj_succ, N.pow_succ_r'. destruct b; cbn [N.b2n]; lia.
Qed.
Definition rows (k : nat) : list N := nseq 0 (Nat.pow 2 k).
Definition leaf_table (k : nat) (j : N) : N := of_bits (map (fun m => N.testbit m j) (rows k)).
Lemma to_nat_pow_lt m k : (m < 2 ^ N.of_nat k)%N -> (N.to_nat m < Nat.pow 2 k)%nat.
Proof. intros H. assert (N.of_nat (Nat.pow 2 k) = 2 ^ N.of_nat k)%N by (rewrite Nat2N.inj_pow; done). lia. Qed.
Lemma leaf_table_spec k j m : m < 2 ^ N.of_nat k -> N.testbit (leaf_table k j) m = N.testbit m j.
Proof.
  intros H. unfold leaf_table. rewrite <- (N2Nat.id m) at 1. rewrite of_bits_spec.
  pose proof (to_nat_pow_lt m k H).
  apply nth_lookup_Some. rewrite list_lookup_fmap. unfold rows. rewrite nseq_lookup, decide_True by done. cbn [fmap option_fmap option_map].
  by rewrite N.add_0_l, N2Nat.id.
Qed.
Fixpoint aget (env : list (N * N)) (w : N) : option N :=
  match env with [] => None | (u, t) :: env => if u =? w then Some t else aget env w end.
Fixpoint eval_cut (T : ptree cg) (full : N) (env : list (N * N)) (order : list N) : option (list (N * N)) :=
  match order with
  | [] => Some env
  | w :: order =>
      t ← match tget T w with
          | Some (CX a b _) => ta ← aget env a; tb ← aget env b; Some (N.lxor ta tb)
          | Some (CA a b _) => ta ← aget env a; tb ← aget env b; Some (N.land ta tb)
          | Some (CI a _) => ta ← aget env a; Some (N.lxor ta full)
          | Some (CW a _) => aget env a
          | None => None
          end;
      eval_cut T full ((w, t) :: env) order
  end.
Definition leaf_env (leaves : list N) : list (N * N) :=
  let k := length leaves in imap (fun j w => (w, leaf_table k (N.of_nat j))) leaves.
(** The truth tables of the wires [ws] over the leaves; [order] lists the gates between, operands first. *)
Definition cut_tables (T : ptree cg) (leaves order ws : list N) : option (list N) :=
  env ← eval_cut T (N.ones (2 ^ N.of_nat (length leaves))) (leaf_env leaves) order; mapM (aget env) ws.
(** [f] holds of the values of [ws] in every row. *)
Definition cut_check (T : ptree cg) (leaves order ws : list N) (f : list bool -> bool) : bool :=
  match cut_tables T leaves order ws with
  | Some ts => forallb (fun m => f (map (fun t => N.testbit t m) ts)) (rows (length leaves))
  | None => false
  end.

Definition env_sound (v : N -> bool) (m : N) (env : list (N * N)) : Prop := forall w t, aget env w = Some t -> N.testbit t m = v w.
Lemma eval_cut_sound v T n m order : tree_sat v T -> m < n -> forall env env', env_sound v m env ->
  eval_cut T (N.ones n) env order = Some env' -> env_sound v m env'.
Proof.
  intros HT Hm. induction order as [|w order IH]; intros env env' He; cbn [eval_cut]; [by intros [= <-]|].
  destruct (tget T w) as [g|] eqn:Eg; [|done]. destruct (HT _ _ Eg) as [Hs Ho].
  assert (Hstep : forall t, N.testbit t m = v w -> eval_cut T (N.ones n) ((w, t) :: env) order = Some env' -> env_sound v m env').
  { intros t Ht. apply IH. intros u t'. cbn [aget]. destruct (N.eqb_spec w u) as [<- |]; [by intros [= <-]|apply He]. }
  destruct g as [a b o|a b o|a o|a o]; cbn [sat cg_out] in *; subst o.
  - destruct (aget env a) as [ta|] eqn:Ea; [|done]. destruct (aget env b) as [tb|] eqn:Eb; [|done]. cbn [mbind option_bind]. apply Hstep.
    by rewrite N.lxor_spec, (He _ _ Ea), (He _ _ Eb), Hs.
  - destruct (aget env a) as [ta|] eqn:Ea; [|done]. destruct (aget env b) as [tb|] eqn:Eb; [|done]. cbn [mbind option_bind]. apply Hstep.
    by rewrite N.land_spec, (He _ _ Ea), (He _ _ Eb), Hs.
  - destruct (aget env a) as [ta|] eqn:Ea; [|done]. cbn [mbind option_bind]. apply Hstep.
    rewrite N.lxor_spec, N.ones_spec_low, (He _ _ Ea), Hs by done. by rewrite xorb_true_r.
  - destruct (aget env a) as [ta|] eqn:Ea; [|done]. cbn [mbind option_bind]. apply Hstep. by rewrite (He _ _ Ea), Hs.
Qed.
(** The row of a valuation. *)
Definition row_of (v : N -> bool) (leaves : list N) : N := of_bits (map v leaves).
Lemma row_of_lt v leaves : row_of v leaves < 2 ^ N.of_nat (length leaves).
Proof. unfold row_of. pose proof (of_bits_lt (map v leaves)) as H. by rewrite map_length in H. Qed.
Lemma leaf_env_sound v leaves : env_sound v (row_of v leaves) (leaf_env leaves).
Proof.
  unfold leaf_env. intros w t H. assert (exists j, leaves !! j = Some w /\ t = leaf_table (length leaves) (N.of_nat j)) as (j & Hj & ->).
  { assert (Hgen : forall (k : nat) ls d, aget (imap (fun j w => (w, leaf_table k (N.of_nat (d + j)))) ls) w = Some t ->
      exists j, ls !! j = Some w /\ t = leaf_table k (N.of_nat (d + j))).
    { intros k. induction ls as [|x ls IH]; intros d; [done|]. cbn [imap aget]. destruct (N.eqb_spec x w) as [<- |Hn].
      - intros [= <-]. exists O. split; [done|]. done.
      - intros Hx. destruct (IH (S d)) as (j & Hj & Ht).
        { rewrite <- Hx. f_equal. apply imap_ext. intros i y _. unfold compose. do 3 f_equal. lia. }
        exists (S j). split; [done|]. rewrite Ht. do 2 f_equal. lia. }
    apply (Hgen (length leaves) leaves O). done. }
  rewrite leaf_table_spec by apply row_of_lt. unfold row_of. rewrite of_bits_spec. apply nth_lookup_Some. by rewrite list_lookup_fmap, Hj.
Qed.
Lemma cut_tables_sound v T leaves order ws ts : tree_sat v T -> cut_tables T leaves order ws = Some ts ->
  map (fun t => N.testbit t (row_of v leaves)) ts = map v ws.
Proof.
  intros HT H. unfold cut_tables in H. destruct (eval_cut _ _ _ _) as [env|] eqn:E; [|done]. cbn [mbind option_bind] in H.
  pose proof (eval_cut_sound v T _ _ order HT (row_of_lt v leaves) _ _ (leaf_env_sound v leaves) E) as He.
  apply mapM_Some in H. induction H as [|w t ws ts Hw _ IH]; [done|]. cbn [map]. rewrite IH. f_equal. by apply He.
Qed.
Theorem cut_sound v T leaves order ws f : tree_sat v T -> cut_check T leaves order ws f = true -> f (map v ws) = true.
Proof.
  intros HT H. unfold cut_check in H. destruct (cut_tables _ _ _ _) as [ts|] eqn:E; [|done]. rewrite forallb_forall in H.
  specialize (H (row_of v leaves)). rewrite (cut_tables_sound _ _ _ _ _ _ HT E) in H. apply H.
  apply elem_of_list_In, elem_of_list_lookup. exists (N.to_nat (row_of v leaves)). unfold rows. rewrite nseq_lookup.
  pose proof (row_of_lt v leaves) as Hr. rewrite decide_True; [f_equal; lia|]. by apply to_nat_pow_lt.
Qed.

(** * Linear facts *)
Open Scope Z_scope.
Definition lin_terms := list (Z * N).
Definition lin_eval (v : N -> bool) (ts : lin_terms) : Z := fold_right (fun '(c, w) s => c * Z.b2z (v w) + s) 0 ts.
Lemma lin_eval_app v a b : lin_eval v (a ++ b) = lin_eval v a + lin_eval v b.
Proof. induction a as [|[c w] a IH]; [done|]. cbn [app lin_eval fold_right]. unfold lin_eval in IH. rewrite IH. fold (lin_eval v a). fold (lin_eval v b). lia. Qed.
(** [lf_const] plus the terms is 0 modulo [lf_mod], as seen from the cut; the fact is used with the factor [lf_weight]. *)
Record lin_fact := Lin { lf_leaves : list N; lf_order : list N; lf_const : Z; lf_terms : lin_terms; lf_mod : Z; lf_weight : Z }.
Fixpoint lin_row (ts : lin_terms) (bs : list bool) : Z :=
  match ts, bs with (c, _) :: ts, b :: bs => (if b then c else 0) + lin_row ts bs | _, _ => 0 end.
Definition fact_ok (M : Z) (T : ptree cg) (f : lin_fact) : bool :=
  cut_check T (lf_leaves f) (lf_order f) (map snd (lf_terms f)) (fun bs => (lf_const f + lin_row (lf_terms f) bs) mod lf_mod f =? 0) &&
  negb (lf_mod f =? 0) && ((lf_weight f * lf_mod f) mod M =? 0).
Lemma lin_row_eval v ts : lin_row ts (map v (map snd ts)) = lin_eval v ts.
Proof.
  induction ts as [|[c w] ts IH]; [done|]. cbn [map snd lin_row lin_eval fold_right]. unfold lin_eval in IH. rewrite IH. destruct (v w); cbn [Z.b2z]; lia.
Qed.
Lemma fact_ok_sound M v T f : M <> 0 -> tree_sat v T -> fact_ok M T f = true -> (M | lf_weight f * (lf_const f + lin_eval v (lf_terms f))).
Proof.
  intros HM HT H. unfold fact_ok in H. rewrite !andb_true_iff, negb_true_iff in H. destruct H as ((H & Hm) & Hw).
  apply (cut_sound v) in H; [|done]. rewrite lin_row_eval in H. apply Z.eqb_eq in H. apply Z.eqb_neq in Hm. apply Z.eqb_eq in Hw.
  apply Z.mod_divide in H; [|done]. apply Z.mod_divide in Hw; [|done]. destruct H as [x Hx]. rewrite Hx.
  replace (lf_weight f * (x * lf_mod f)) with (x * (lf_weight f * lf_mod f)) by lia. by apply Z.divide_mul_r.
Qed.

(** Sums of terms, by wire. *)
Fixpoint psum (v : positive -> Z) (t : ptree Z) : Z :=
  match t with
  | PL => 0
  | PN l x r => psum (fun p => v (xO p)) l + match x with Some c => c * v xH | None => 0 end + psum (fun p => v (xI p)) r
  end.
Fixpoint padd (p : positive) (c : Z) (t : ptree Z) : ptree Z :=
  match p, t with
  | xH, PL => PN PL (Some c) PL
  | xH, PN l x r => PN l (Some (match x with Some d => c + d | None => c end)) r
  | xO p, PL => PN (padd p c PL) None PL
  | xO p, PN l x r => PN (padd p c l) x r
  | xI p, PL => PN PL None (padd p c PL)
  | xI p, PN l x r => PN l x (padd p c r)
  end.
Lemma psum_padd p : forall v c t, psum v (padd p c t) = psum v t + c * v p.
Proof. induction p as [p IH|p IH|]; intros v c [|l x r]; cbn [padd psum]; rewrite ?IH; cbn [psum]; try lia. destruct x; lia. Qed.
Fixpoint pzero (M : Z) (t : ptree Z) : bool :=
  match t with PL => true | PN l x r => pzero M l && match x with Some c => c mod M =? 0 | None => true end && pzero M r end.
Lemma pzero_sound M t : M <> 0 -> pzero M t = true -> forall v, (M | psum v t).
Proof.
  intros HM. induction t as [|l IHl x r IHr]; intros H v; [apply Z.divide_0_r|]. cbn [pzero] in H. rewrite !andb_true_iff in H. destruct H as ((H1 & H2) & H3).
  cbn [psum]. apply Z.divide_add_r; [apply Z.divide_add_r|]; [by apply IHl| |by apply IHr].
  destruct x as [c|]; [|apply Z.divide_0_r]. apply Z.eqb_eq in H2. apply Z.mod_divide in H2; [|done]. by apply Z.divide_mul_l.
Qed.
Definition add_terms (k : Z) (ts : lin_terms) (t : ptree Z) : ptree Z := fold_left (fun t '(c, w) => padd (N.succ_pos w) (k * c) t) ts t.
Definition vz (v : N -> bool) (p : positive) : Z := Z.b2z (v (N.pred (N.pos p))).
Lemma add_terms_sum v k ts : forall t, psum (vz v) (add_terms k ts t) = psum (vz v) t + k * lin_eval v ts.
Proof.
  unfold add_terms. induction ts as [|[c w] ts IH]; intros t; cbn [fold_left lin_eval fold_right]; [lia|]. rewrite IH, psum_padd.
  unfold vz at 2. rewrite N.succ_pos_spec, N.pred_succ. unfold lin_eval. lia.
Qed.
(** The target [tconst + tterms] is the sum of the weighted facts, modulo [M]. *)
Fixpoint sum_facts (fs : list lin_fact) (acc : Z * ptree Z) : Z * ptree Z :=
  match fs with
  | [] => acc
  | f :: fs => sum_facts fs (fst acc - lf_weight f * lf_const f, add_terms (- lf_weight f) (lf_terms f) (snd acc))
  end.
Definition lin_check (M : Z) (T : ptree cg) (fs : list lin_fact) (tconst : Z) (tterms : lin_terms) : bool :=
  forallb (fact_ok M T) fs &&
  let '(c, t) := sum_facts fs (tconst, add_terms 1 tterms PL) in (c mod M =? 0) && pzero M t.
Theorem lin_sound M v T fs tconst tterms : M <> 0 -> tree_sat v T -> lin_check M T fs tconst tterms = true -> (M | tconst + lin_eval v tterms).
Proof.
  intros HM HT H. unfold lin_check in H. apply andb_true_iff in H as [Hf H].
  assert (Hs : forall fs acc, forallb (fact_ok M T) fs = true ->
    (M | (fst acc + psum (vz v) (snd acc)) - (fst (sum_facts fs acc) + psum (vz v) (snd (sum_facts fs acc))))).
  { clear H Hf fs tconst tterms. induction fs as [|f fs IH]; intros [c t] Hf; cbn [sum_facts fst snd].
    - replace (_ - _) with 0 by lia. apply Z.divide_0_r.
    - cbn [forallb] in Hf. apply andb_true_iff in Hf as [H1 H2].
      specialize (IH (c - lf_weight f * lf_const f, add_terms (- lf_weight f) (lf_terms f) t) H2). cbn [fst snd] in IH.
      rewrite add_terms_sum in IH. pose proof (fact_ok_sound M v T f HM HT H1) as Hx.
      match goal with |- (_ | c + psum (vz v) t - ?B) => set (R := B) in * end.
      replace (c + psum (vz v) t - R) with ((c - lf_weight f * lf_const f + (psum (vz v) t + - lf_weight f * lin_eval v (lf_terms f)) - R) +
        lf_weight f * (lf_const f + lin_eval v (lf_terms f))) by lia.
      by apply Z.divide_add_r. }
  specialize (Hs fs (tconst, add_terms 1 tterms PL) Hf). destruct (sum_facts fs _) as [c t] eqn:E. cbn [fst snd] in Hs.
  rewrite add_terms_sum in Hs. cbn [psum] in Hs. apply andb_true_iff in H as [Hc Ht]. apply Z.eqb_eq in Hc. apply Z.mod_divide in Hc; [|done].
  pose proof (pzero_sound M t HM Ht (vz v)) as Hz.
  replace (tconst + lin_eval v tterms) with ((tconst + (0 + 1 * lin_eval v tterms) - (c + psum (vz v) t)) + (c + psum (vz v) t)) by lia.
  apply Z.divide_add_r; [done|]. by apply Z.divide_add_r.
Qed.

(** The terms of a little-endian word on consecutive wires, and their value. *)
Fixpoint word_terms (k : Z) (ws : list N) : lin_terms := match ws with [] => [] | w :: ws => (k, w) :: word_terms (2 * k) ws end.
Lemma word_terms_eval v ws : forall k, lin_eval v (word_terms k ws) = k * zval (map v ws).
Proof.
  induction ws as [|w ws IH]; intros k; cbn [word_terms lin_eval fold_right map zval]; [lia|]. unfold lin_eval in IH. rewrite IH. lia.
Qed.
