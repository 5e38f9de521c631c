(** Properties of the bit-vector circuits: C35, C36, C37. *)
From Verif Require Export Logic BuildEval.
Open Scope list_scope.

(** Every theorem starts in an arbitrary heap [h] built by disciplined calls ([base h l]: the invariant [dinv] holds, see [base_run], and [l]
    is a circuit) and says of the heap [h'] afterwards that all circuits of [h] are in it unchanged ([built h l h']). *)
Lemma base_run md ops l c : disciplined md heap_empty ops -> h_circ (run md ops) !! l = Some c -> base (run md ops) l.
Proof. intros D E. split; [by apply dinv_run|eauto]. Qed.
Lemma demo_base : base (run Debug demo) 0.
Proof. eapply base_run; [apply disciplined_b_sound; vm_compute; done|vm_compute; reflexivity]. Qed.

(** The module [mid] has two [n]-bit operands and evaluates to [F] of them. *)
Definition module2 (h : heap) (l : nat) (mid : N) (n n_out : nat) (F : list bool -> list bool -> list bool) : Prop :=
  exists l', get_module h l mid = Ok l' /\ inputs_of h l' = Ok (N.of_nat (n + n)) /\ outputs_of h l' = Ok (N.of_nat n_out) /\
  forall md, exists depth, forall fuel xs ys, (depth <= fuel)%nat -> length xs = n -> length ys = n ->
    eval_output md h fuel l' (xs ++ ys) = Ok (F xs ys).
Lemma evaluates_module2 h l mid n n_out F F' : module_evaluates h l mid (n + n) n_out F -> (forall xs ys, length xs = n -> length ys = n -> F (xs ++ ys) = F' xs ys) ->
  module2 h l mid n n_out F'.
Proof.
  intros (l' & Hl & Hi & Ho & Hv) HF. exists l'. split; [done|]. split; [done|]. split; [done|]. intros md. destruct (Hv md) as [d Hd]. exists d.
  intros fuel xs ys Hf Hx Hy. rewrite Hd; [by rewrite HF|done|rewrite app_length; lia].
Qed.
Lemma halves {A} (F : list bool -> list bool -> A) n xs ys : length xs = n -> F (take n (xs ++ ys)) (drop n (xs ++ ys)) = F xs ys.
Proof. intros <-. by rewrite take_app, drop_app. Qed.

(** * C35 *)
Theorem C35_not h l n : base h l -> exists mid h', build_not l n h = (Ok mid, h') /\ built h l h' /\ module_evaluates h' l mid n n (map negb).
Proof.
  intros Hb. destruct (build_not_ok h l n Hb) as (mid & h' & E & T & Hm). exists mid, h'. split; [done|]. split; [done|].
  eapply mspec_evaluates; [apply T|done].
Qed.
Lemma binary_theorem f op h l n : op_ok f op -> base h l -> exists mid h', build_binary f l n h = (Ok mid, h') /\ built h l h' /\ module2 h' l mid n n (zip_with op).
Proof.
  intros Hop Hb. destruct (build_binary_ok f op h l n Hop Hb) as (mid & h' & E & T & Hm). exists mid, h'. split; [done|]. split; [done|].
  eapply evaluates_module2; [eapply mspec_evaluates; [apply T|done]|]. intros xs ys Hx Hy. apply (halves (zip_with op)), Hx.
Qed.
Theorem C35_and h l n : base h l -> exists mid h', build_and l n h = (Ok mid, h') /\ built h l h' /\ module2 h' l mid n n (zip_with andb).
Proof. apply binary_theorem, and_ok. Qed.
Theorem C35_or h l n : base h l -> exists mid h', build_or l n h = (Ok mid, h') /\ built h l h' /\ module2 h' l mid n n (zip_with orb).
Proof. apply binary_theorem, or_ok. Qed.
Theorem C35_xor h l n : base h l -> exists mid h', build_xor l n h = (Ok mid, h') /\ built h l h' /\ module2 h' l mid n n (zip_with xorb).
Proof. apply binary_theorem, xor_ok. Qed.
(** Building on a circuit with inputs, gates and a module of its own; the new module gets the next free id. *)
Example C35_example : base (run Debug demo) 0 /\ exists h', build_xor 0 3 (run Debug demo) = (Ok 1, h') /\ get_module h' 0 1 = Ok 2%nat /\
  eval_output Debug h' 20 2 [true; true; false; false; true; true] = Ok [true; false; true].
Proof. split; [apply demo_base|]. eexists. split; [vm_compute; reflexivity|]. split; vm_compute; reflexivity. Qed.

(** * C36 *)
Lemma same_bits_spec xs ys : length xs = length ys -> same_bits xs ys = bool_decide (xs = ys).
Proof.
  revert ys. induction xs as [|x xs IH]; intros [|y ys] H; simpl in H; try done.
  unfold same_bits in *. cbn [zip zip_with forallb fst snd]. rewrite IH by lia. destruct (eqb x y) eqn:Exy.
  - apply eqb_prop in Exy as ->. simpl. apply bool_decide_ext. split; [by intros ->|by intros [= ->]].
  - apply eqb_false_iff in Exy. simpl. symmetry. apply bool_decide_eq_false_2. congruence.
Qed.
Theorem C36_eq h l n : base h l -> exists mid h', build_eq l n h = (Ok mid, h') /\ built h l h' /\ module2 h' l mid n 1 (fun xs ys => [bool_decide (xs = ys)]).
Proof.
  intros Hb. destruct (build_eq_ok h l n Hb) as (mid & h' & E & T & Hm). exists mid, h'. split; [done|]. split; [done|].
  eapply evaluates_module2; [eapply mspec_evaluates; [apply T|done]|]. intros xs ys Hx Hy. cbn beta.
  rewrite (halves (fun xs ys => [same_bits xs ys]) n xs ys Hx). by rewrite same_bits_spec by lia.
Qed.
(** [build_neq_circuit] is given the id of the equality module. *)
Theorem C36_neq md h l n : base h l -> exists eq_mid h1 mid h', build_eq l n h = (Ok eq_mid, h1) /\ build_neq md l n eq_mid h1 = (Ok mid, h') /\ built h l h' /\
  module2 h' l mid n 1 (fun xs ys => [bool_decide (xs <> ys)]).
Proof.
  intros Hb. destruct (build_eq_ok h l n Hb) as (eq_mid & h1 & E1 & T1 & Hm1). pose proof (built_base _ _ _ Hb T1) as Hb1.
  destruct (build_neq_ok md h1 l n eq_mid _ Hb1 Hm1) as (mid & h' & E & T & Hm). exists eq_mid, h1, mid, h'. split; [done|]. split; [done|].
  split; [by eapply built_trans|].
  eapply evaluates_module2; [eapply mspec_evaluates; [apply T|done]|]. intros xs ys Hx Hy. cbn [nth].
  rewrite (halves (fun xs ys => [negb (same_bits xs ys)]) n xs ys Hx). rewrite same_bits_spec by lia. f_equal. symmetry. apply bool_decide_not.
Qed.
Example C36_example : base (run Debug demo) 0 /\ exists h1 h', build_eq 0 2 (run Debug demo) = (Ok 1, h1) /\ build_neq Debug 0 2 1 h1 = (Ok 2, h') /\
  eval_output Debug h' 20 2 [true; false; true; false] = Ok [true] /\ eval_output Debug h' 20 2 [true; false; true; true] = Ok [false] /\
  eval_output Debug h' 20 3 [true; false; true; false] = Ok [false] /\ eval_output Debug h' 20 3 [true; false; false; false] = Ok [true].
Proof.
  split; [apply demo_base|]. do 2 eexists. split; [vm_compute; reflexivity|]. split; [vm_compute; reflexivity|].
  repeat (split; [vm_compute; reflexivity|]). vm_compute. reflexivity.
Qed.

(** * C37 *)
(** Expressions over allocated bits: [x.mux(y, a.eq(b))] is [BMuxEq a b x y]; [BTake k e] is [from_gate_ids] of the first [k] gates of [e]. *)
Inductive bexp :=
| BVar (k : nat) | BNot (e : bexp) | BAnd (e1 e2 : bexp) | BOr (e1 e2 : bexp) | BXor (e1 e2 : bexp)
| BMuxEq (a b e1 e2 : bexp) | BMuxNeq (a b e1 e2 : bexp) | BTake (k : nat) (e : bexp).
Fixpoint bwf (m n : nat) (e : bexp) : Prop :=
  match e with
  | BVar k => (k < m)%nat
  | BNot e => bwf m n e
  | BAnd e1 e2 | BOr e1 e2 | BXor e1 e2 => bwf m n e1 /\ bwf m n e2
  | BMuxEq a b e1 e2 | BMuxNeq a b e1 e2 => bwf m n a /\ bwf m n b /\ bwf m n e1 /\ bwf m n e2
  | BTake k e => (k <= n)%nat /\ bwf m n e
  end.
(** The value of an expression, the variables having the values [vs]. *)
Fixpoint bval (n : nat) (vs : list (list bool)) (e : bexp) : list bool :=
  match e with
  | BVar k => nth k vs []
  | BNot e => map negb (bval n vs e)
  | BAnd e1 e2 => zip_with andb (bval n vs e1) (bval n vs e2)
  | BOr e1 e2 => zip_with orb (bval n vs e1) (bval n vs e2)
  | BXor e1 e2 => zip_with xorb (bval n vs e1) (bval n vs e2)
  | BMuxEq a b e1 e2 => if decide (bval n vs a = bval n vs b) then bval n vs e2 else bval n vs e1
  | BMuxNeq a b e1 e2 => if decide (bval n vs a = bval n vs b) then bval n vs e1 else bval n vs e2
  | BTake k e => take k (bval n vs e) ++ replicate (n - k) false
  end.
(** The calls that build it. *)
Fixpoint bbuild (md : mode) (n : nat) (vars : list abits) (e : bexp) : M abits :=
  match e with
  | BVar k => st_nth vars k
  | BNot e => x <- bbuild md n vars e ;; bits_not md x
  | BAnd e1 e2 => x <- bbuild md n vars e1 ;; y <- bbuild md n vars e2 ;; bits_and md x y
  | BOr e1 e2 => x <- bbuild md n vars e1 ;; y <- bbuild md n vars e2 ;; bits_or md x y
  | BXor e1 e2 => x <- bbuild md n vars e1 ;; y <- bbuild md n vars e2 ;; bits_xor md x y
  | BMuxEq a b e1 e2 => a <- bbuild md n vars a ;; b <- bbuild md n vars b ;; s <- bits_eq md a b ;;
      x <- bbuild md n vars e1 ;; y <- bbuild md n vars e2 ;; bits_mux x y s n
  | BMuxNeq a b e1 e2 => a <- bbuild md n vars a ;; b <- bbuild md n vars b ;; s <- bits_neq md a b ;;
      x <- bbuild md n vars e1 ;; y <- bbuild md n vars e2 ;; bits_mux x y s n
  | BTake k e => x <- bbuild md n vars e ;; bits_from_gate_ids (take k (ab_bits x)) (ab_cfg x) n
  end.
(** A whole program: configure, allocate [m] variables as inputs, build [e], output it. *)
Definition bits_program (md : mode) (l n m : nat) (e : bexp) : M unit :=
  cfg <- bits_config_new md l n ;; vars <- st_mapM (fun _ => bits_new cfg n) (seq 0 m) ;; z <- bbuild md n vars e ;; bits_output z n.

(** The value of an expression when the variables are [Vs] of the input wires. *)
Definition sval (n : nat) (Vs : list ((N -> bool) -> list bool)) (e : bexp) (ρ : N -> bool) : list bool := bval n (map (fun V => V ρ) Vs) e.
Definition vars_at (h : heap) (l : nat) (cfg : bits_config) (n : nat) (vars : list abits) (Vs : list ((N -> bool) -> list bool)) : Prop :=
  Forall2 (bits_val h l cfg n) vars Vs.
Lemma vars_at_ext h l cfg n vars Vs h' : ext l h h' -> vars_at h l cfg n vars Vs -> vars_at h' l cfg n vars Vs.
Proof. intros X V. eapply Forall2_impl; [exact V|]. intros x X0 [H1 H2 H3]. split; [done|done|by eapply gfs_ext]. Qed.
Lemma bits_val_ext h l cfg n x X h' : ext l h h' -> bits_val h l cfg n x X -> bits_val h' l cfg n x X.
Proof. intros He [H1 H2 H3]. split; [done|done|by eapply gfs_ext]. Qed.
Lemma bval_length n m vs e : (forall k, (k < m)%nat -> length (nth k vs []) = n) -> bwf m n e -> length (bval n vs e) = n.
Proof.
  intros Hv. induction e; cbn [bwf bval]; intros Hw.
  - by apply Hv.
  - rewrite map_length. auto.
  - destruct Hw as [H1 H2]. rewrite zip_with_length. rewrite IHe1, IHe2 by done. lia.
  - destruct Hw as [H1 H2]. rewrite zip_with_length. rewrite IHe1, IHe2 by done. lia.
  - destruct Hw as [H1 H2]. rewrite zip_with_length. rewrite IHe1, IHe2 by done. lia.
  - destruct Hw as (H1 & H2 & H3 & H4). case_decide; auto.
  - destruct Hw as (H1 & H2 & H3 & H4). case_decide; auto.
  - destruct Hw as [H1 H2]. rewrite app_length, take_length, replicate_length. rewrite IHe by done. lia.
Qed.
(** What building [e] in [h] achieves. *)
Definition built_exp (h : heap) (l : nat) (i : N) (os : list N) (cfg : bits_config) (n : nat) (vars : list abits) (Vs : list ((N -> bool) -> list bool))
    (e : bexp) (z : abits) (h' : heap) : Prop :=
  bs l h' l i os /\ ext l h h' /\ bits_cfg h' l cfg n /\ bits_val h' l cfg n z (sval n Vs e) /\
  ((forall x g, x ∈ vars -> g ∈ ab_bits x -> free h l g) -> forall g, g ∈ ab_bits z -> free h' l g).
Lemma post_exp h l i os cfg n vars Vs e z h1 h' ops : bits_post h1 l cfg n h' i os ops (ab_bits z) -> ext l h h1 -> bits_val h' l cfg n z (sval n Vs e) ->
  built_exp h l i os cfg n vars Vs e z h'.
Proof.
  intros (B & M & C) X V. split; [done|]. split; [eapply ext_trans; [done|apply M]|]. split; [done|]. split; [done|].
  intros _ g Hg. by apply (mv_new _ _ _ _ _ M g Hg).
Qed.
Lemma bits_val_eq h l cfg n x X X' : bits_val h l cfg n x X -> (forall ρ, X ρ = X' ρ) -> bits_val h l cfg n x X'.
Proof. intros [H1 H2 H3] HX. split; [done|done|by eapply gfs_eq]. Qed.
Lemma bbuild_ok md l i os cfg n Vs : (0 < n)%nat -> forall e vars h, bs l h l i os -> bits_cfg h l cfg n -> vars_at h l cfg n vars Vs -> bwf (length Vs) n e ->
  exists z h', bbuild md n vars e h = (Ok z, h') /\ built_exp h l i os cfg n vars Vs e z h'.
Proof.
  intros Hn. induction e as [k|e IH|e1 IH1 e2 IH2|e1 IH1 e2 IH2|e1 IH1 e2 IH2|a IHa b IHb e1 IH1 e2 IH2|a IHa b IHb e1 IH1 e2 IH2|k e IH];
    cbn [bwf bbuild]; intros vars h B C V Hw.
  - destruct (lookup_lt_is_Some_2 Vs k Hw) as [X HX]. destruct (Forall2_lookup_r _ _ _ _ _ V HX) as (x & Hx & Hb).
    exists x, h. split; [by apply st_nth_ok|]. split; [done|]. split; [apply ext_refl|]. split; [done|]. split.
    + eapply bits_val_eq; [exact Hb|]. intros ρ. unfold sval. cbn [bval]. symmetry. apply nth_lookup_Some. by rewrite list_lookup_fmap, HX.
    + intros Hf g Hg. eapply Hf; [by eapply elem_of_list_lookup_2|done].
  - destruct (IH vars h B C V Hw) as (x & h1 & E1 & B1 & X1 & C1 & V1 & _).
    destruct (bits_not_ok md h1 l i os cfg n B1 C1 x _ V1 Hn) as (z & h' & E & P & Vz). exists z, h'. rewrite (st_bind_ok _ _ _ _ _ E1).
    split; [done|]. eapply post_exp; [exact P|done|]. exact Vz.
  - destruct Hw as [W1 W2]. destruct (IH1 vars h B C V W1) as (x & h1 & E1 & B1 & X1 & C1 & V1 & _).
    destruct (IH2 vars h1 B1 C1 (vars_at_ext _ _ _ _ _ _ _ X1 V) W2) as (y & h2 & E2 & B2 & X2 & C2 & V2 & _).
    destruct (bits_and_ok md h2 l i os cfg n B2 C2 x y _ _ (bits_val_ext _ _ _ _ _ _ _ X2 V1) V2 Hn) as (z & h' & E & P & Vz). exists z, h'.
    rewrite (st_bind_ok _ _ _ _ _ E1), (st_bind_ok _ _ _ _ _ E2). split; [done|]. eapply post_exp; [exact P|by eapply ext_trans|]. exact Vz.
  - destruct Hw as [W1 W2]. destruct (IH1 vars h B C V W1) as (x & h1 & E1 & B1 & X1 & C1 & V1 & _).
    destruct (IH2 vars h1 B1 C1 (vars_at_ext _ _ _ _ _ _ _ X1 V) W2) as (y & h2 & E2 & B2 & X2 & C2 & V2 & _).
    destruct (bits_or_ok md h2 l i os cfg n B2 C2 x y _ _ (bits_val_ext _ _ _ _ _ _ _ X2 V1) V2 Hn) as (z & h' & E & P & Vz). exists z, h'.
    rewrite (st_bind_ok _ _ _ _ _ E1), (st_bind_ok _ _ _ _ _ E2). split; [done|]. eapply post_exp; [exact P|by eapply ext_trans|]. exact Vz.
  - destruct Hw as [W1 W2]. destruct (IH1 vars h B C V W1) as (x & h1 & E1 & B1 & X1 & C1 & V1 & _).
    destruct (IH2 vars h1 B1 C1 (vars_at_ext _ _ _ _ _ _ _ X1 V) W2) as (y & h2 & E2 & B2 & X2 & C2 & V2 & _).
    destruct (bits_xor_ok md h2 l i os cfg n B2 C2 x y _ _ (bits_val_ext _ _ _ _ _ _ _ X2 V1) V2 Hn) as (z & h' & E & P & Vz). exists z, h'.
    rewrite (st_bind_ok _ _ _ _ _ E1), (st_bind_ok _ _ _ _ _ E2). split; [done|]. eapply post_exp; [exact P|by eapply ext_trans|]. exact Vz.
  - destruct Hw as (Wa & Wb & W1 & W2). destruct (IHa vars h B C V Wa) as (xa & h1 & E1 & B1 & X1 & C1 & V1 & _).
    destruct (IHb vars h1 B1 C1 (vars_at_ext _ _ _ _ _ _ _ X1 V) Wb) as (xb & h2 & E2 & B2 & X2 & C2 & V2 & _).
    pose proof (bits_val_ext _ _ _ _ _ _ _ X2 V1) as V1'.
    destruct (bits_eq_ok md h2 l i os cfg n B2 C2 xa xb _ _ V1' V2) as (s & h3 & E3 & (B3 & M3 & C3) & F3).
    pose proof (ext_trans _ _ _ _ X1 (ext_trans _ _ _ _ X2 (mv_ext _ _ _ _ _ M3))) as X3.
    destruct (IH1 vars h3 B3 C3 (vars_at_ext _ _ _ _ _ _ _ X3 V) W1) as (x & h4 & E4 & B4 & X4 & C4 & V4 & _).
    pose proof (ext_trans _ _ _ _ X3 X4) as X34.
    destruct (IH2 vars h4 B4 C4 (vars_at_ext _ _ _ _ _ _ _ X34 V) W2) as (y & h5 & E5 & B5 & X5 & C5 & V5 & _).
    destruct (bits_mux_ok md h5 l i os cfg n B5 C5 x y _ _ (bits_val_ext _ _ _ _ _ _ _ X5 V4) V5 s _ (gf_ext _ _ _ _ _ _ (ext_trans _ _ _ _ X4 X5) F3))
      as (z & h' & E & P & Vz). exists z, h'.
    rewrite (st_bind_ok _ _ _ _ _ E1), (st_bind_ok _ _ _ _ _ E2), (st_bind_ok _ _ _ _ _ E3), (st_bind_ok _ _ _ _ _ E4), (st_bind_ok _ _ _ _ _ E5).
    split; [done|]. eapply post_exp; [exact P|by eapply ext_trans|]. eapply bits_val_eq; [exact Vz|]. intros ρ. unfold sval. cbn [bval]. unfold mux_bits.
    rewrite same_bits_spec by (etrans; [apply (bits_val_len _ _ _ _ _ _ ρ V1)|symmetry; apply (bits_val_len _ _ _ _ _ _ ρ V2)]).
    unfold sval. case_decide as Hd; [by rewrite bool_decide_eq_true_2|by rewrite bool_decide_eq_false_2].
  - destruct Hw as (Wa & Wb & W1 & W2). destruct (IHa vars h B C V Wa) as (xa & h1 & E1 & B1 & X1 & C1 & V1 & _).
    destruct (IHb vars h1 B1 C1 (vars_at_ext _ _ _ _ _ _ _ X1 V) Wb) as (xb & h2 & E2 & B2 & X2 & C2 & V2 & _).
    pose proof (bits_val_ext _ _ _ _ _ _ _ X2 V1) as V1'.
    destruct (bits_neq_ok md h2 l i os cfg n B2 C2 xa xb _ _ V1' V2) as (s & h3 & E3 & (B3 & M3 & C3) & F3).
    pose proof (ext_trans _ _ _ _ X1 (ext_trans _ _ _ _ X2 (mv_ext _ _ _ _ _ M3))) as X3.
    destruct (IH1 vars h3 B3 C3 (vars_at_ext _ _ _ _ _ _ _ X3 V) W1) as (x & h4 & E4 & B4 & X4 & C4 & V4 & _).
    pose proof (ext_trans _ _ _ _ X3 X4) as X34.
    destruct (IH2 vars h4 B4 C4 (vars_at_ext _ _ _ _ _ _ _ X34 V) W2) as (y & h5 & E5 & B5 & X5 & C5 & V5 & _).
    destruct (bits_mux_ok md h5 l i os cfg n B5 C5 x y _ _ (bits_val_ext _ _ _ _ _ _ _ X5 V4) V5 s _ (gf_ext _ _ _ _ _ _ (ext_trans _ _ _ _ X4 X5) F3))
      as (z & h' & E & P & Vz). exists z, h'.
    rewrite (st_bind_ok _ _ _ _ _ E1), (st_bind_ok _ _ _ _ _ E2), (st_bind_ok _ _ _ _ _ E3), (st_bind_ok _ _ _ _ _ E4), (st_bind_ok _ _ _ _ _ E5).
    split; [done|]. eapply post_exp; [exact P|by eapply ext_trans|]. eapply bits_val_eq; [exact Vz|]. intros ρ. unfold sval. cbn [bval]. unfold mux_bits.
    rewrite same_bits_spec by (etrans; [apply (bits_val_len _ _ _ _ _ _ ρ V1)|symmetry; apply (bits_val_len _ _ _ _ _ _ ρ V2)]).
    unfold sval. case_decide as Hd; [by rewrite bool_decide_eq_true_2|by rewrite bool_decide_eq_false_2].
  - destruct Hw as [Hk Hw]. destruct (IH vars h B C V Hw) as (x & h1 & E1 & B1 & X1 & C1 & V1 & Hf1).
    pose proof (bv_len _ _ _ _ _ _ V1) as Hl.
    destruct (bits_from_ok md h1 l i os cfg n B1 C1 (take k (ab_bits x)) _ ltac:(rewrite take_length; lia) (gfs_take _ _ _ _ k (bv_val _ _ _ _ _ _ V1)))
      as (z & h' & pad & E & (B' & M & C') & Hz & Vz). exists z, h'. rewrite (st_bind_ok _ _ _ _ _ E1), (bv_cfg _ _ _ _ _ _ V1). split; [done|].
    split; [done|]. split; [eapply ext_trans; [done|apply M]|]. split; [done|]. split.
    + eapply bits_val_eq; [exact Vz|]. intros ρ. unfold sval. cbn [bval]. by rewrite take_length, Nat.min_l by lia.
    + intros Hf g. rewrite Hz. intros [Hg|Hg]%elem_of_app; [|by apply (mv_new _ _ _ _ _ M g Hg)].
      assert (Hg' : g ∈ ab_bits x). { apply elem_of_list_lookup in Hg as [j Hj]. apply lookup_take_Some in Hj as [Hj _]. by eapply elem_of_list_lookup_2. }
      eapply (mv_free _ _ _ _ _ M); [eapply gfs_in; [apply V1|done]|by apply Hf1|]. by intros []%elem_of_nil.
Qed.
(** The variables, one after the other. *)
Lemma bits_vars_ok (md : mode) h l i os cfg n m : bs l h l i os -> bits_cfg h l cfg n ->
  exists vars h', st_mapM (fun _ => bits_new cfg n) (seq 0 m) h = (Ok vars, h') /\ length vars = m /\ bs l h' l (i + N.of_nat (m * n)) os /\ ext l h h' /\
    bits_cfg h' l cfg n /\ vars_at h' l cfg n vars (map (fun k => inb (i + N.of_nat (k * n)) n) (seq 0 m)) /\
    forall x g, x ∈ vars -> g ∈ ab_bits x -> has_gate h' l g /\ free h' l g.
Proof.
  intros B C. destruct (mapM_inv (fun _ : nat => bits_new cfg n) (seq 0 m)
    (fun vars h' => bs l h' l (i + N.of_nat (length vars * n)) os /\ ext l h h' /\
       bits_cfg h' l cfg n /\ vars_at h' l cfg n vars (map (fun k => inb (i + N.of_nat (k * n)) n) (seq 0 (length vars))) /\
       forall x g, x ∈ vars -> g ∈ ab_bits x -> has_gate h' l g /\ free h' l g) h) as (vars & h' & E & Hl & Bv & Xv & Cv & Vv & Fv).
  - intros vars k h1 _ (B1 & X1 & C1 & V1 & F1). destruct (bits_new_ok md h1 l _ os cfg n B1 C1) as (z & h2 & E & (B2 & M2 & C2) & V2).
    exists z, h2. split; [done|]. rewrite app_length. cbn [length]. rewrite Nat.add_1_r. cbn [Nat.mul].
    split; [by replace (i + N.of_nat (n + length vars * n)) with (i + N.of_nat (length vars * n) + N.of_nat n) by lia|].
    split; [eapply ext_trans; [done|apply M2]|]. split; [done|]. split.
    + rewrite seq_S, map_app. apply Forall2_app; [eapply vars_at_ext; [apply M2|done]|]. constructor; [|constructor]. done.
    + intros x g Hx Hg. apply elem_of_app in Hx as [Hx|Hx].
      * destruct (F1 x g Hx Hg) as [H1 H2]. split; [eapply has_gate_hle; [apply M2|done]|]. eapply (mv_free _ _ _ _ _ M2); [done|done|]. by intros []%elem_of_nil.
      * apply elem_of_list_singleton in Hx as ->. split; by apply (mv_new _ _ _ _ _ M2 g Hg).
  - cbn [length Nat.mul]. rewrite N.add_0_r. split; [done|]. split; [apply ext_refl|]. split; [done|]. split; [constructor|]. intros x g []%elem_of_nil.
  - rewrite seq_length in Hl. rewrite Hl in *. eauto 10.
Qed.
Lemma concat_chunk {A} (vs : list (list A)) n k v : Forall (fun v => length v = n) vs -> vs !! k = Some v -> take n (drop (k * n) (concat vs)) = v.
Proof.
  revert k. induction vs as [|w vs IH]; intros k Hf Hk; [done|]. apply Forall_cons in Hf as [Hw Hf]. cbn [concat]. destruct k as [|k]; cbn [Nat.mul].
  - injection Hk as <-. rewrite drop_0. by rewrite take_app_alt.
  - rewrite <- drop_drop. rewrite drop_app_alt by done. by apply IH.
Qed.
Lemma concat_length {A} (vs : list (list A)) n : Forall (fun v => length v = n) vs -> length (concat vs) = (length vs * n)%nat.
Proof. induction 1 as [|w vs Hw Hf IH]; cbn [concat length Nat.mul]; [done|]. rewrite app_length. lia. Qed.
Lemma inb_concat vs n : Forall (fun v => length v = n) vs -> map (fun k => inb (0 + N.of_nat (k * n)) n (wires (concat vs))) (seq 0 (length vs)) = vs.
Proof.
  intros Hf. apply list_eq_same_length with (n := length vs); [done|by rewrite map_length, seq_length|]. intros k x y Hk Hx Hy.
  rewrite list_lookup_fmap, lookup_seq_lt in Hx by done. injection Hx as <-. rewrite N.add_0_l, inb_wires.
  - rewrite Nat2N.id. cbn [plus]. by eapply concat_chunk.
  - rewrite Nat2N.id, (concat_length vs n) by done. simpl. nia.
Qed.

(** Every expression, of any size and shape, over any number of variables of any positive width, builds without an error, and the finished circuit
    evaluates to its value. The inputs of the circuit are the bits of the variables in order. *)
Theorem C37_expressions md h l n m e : (0 < n)%nat -> fresh h l -> bwf m n e ->
  exists h', bits_program md l n m e h = (Ok tt, h') /\ inputs_of h' l = Ok (N.of_nat (m * n)) /\ outputs_of h' l = Ok (N.of_nat n) /\
  forall md', exists depth, forall fuel vs, (depth <= fuel)%nat -> length vs = m -> Forall (fun v => length v = n) vs ->
    eval_output md' h' fuel l (concat vs) = Ok (bval n vs e).
Proof.
  intros Hn Hf Hw. destruct (bits_config_new_ok md h l n (fresh_base _ _ Hf)) as (cfg & h1 & E1 & T1 & C1).
  pose proof (bs_built _ _ _ _ _ T1 (fresh_bs _ _ Hf)) as B1.
  destruct (bits_vars_ok md h1 l 0 [] cfg n m B1 C1) as (vars & h2 & E2 & Lv & B2 & X2 & C2 & V2 & F2).
  destruct (bbuild_ok md l _ [] cfg n _ Hn e vars h2 B2 C2 V2) as (z & h3 & E3 & B3 & X3 & C3 & V3 & F3); [by rewrite map_length, seq_length|].
  destruct (bits_output_ok md h3 l _ [] cfg n B3 C3 z _ V3) as (h4 & E4 & B4 & M4 & C4).
  exists h4. split; [unfold bits_program; by rewrite (st_bind_ok _ _ _ _ _ E1), (st_bind_ok _ _ _ _ _ E2), (st_bind_ok _ _ _ _ _ E3)|].
  cbn [app] in B4. rewrite N.add_0_l in B4.
  assert (Ev : evaluates h4 l (m * n) n (fun bits => sval n (map (fun k => inb (0 + N.of_nat (k * n)) n) (seq 0 m)) e (wires bits))).
  { eapply bs_evaluates; [exact B4|eapply gfs_mv; [exact M4|apply V3]| |apply V3|done]. apply Forall_forall. intros g Hg.
    eapply (mv_free _ _ _ _ _ M4); [eapply gfs_in; [apply V3|done]| |by intros []%elem_of_nil]. apply F3; [|done]. intros x g0 Hx Hg0. by eapply F2. }
  destruct Ev as (H1 & H2 & H3). split; [done|]. split; [done|]. intros md'. destruct (H3 md') as [depth Hd]. exists depth. intros fuel vs Hfu Hm Hvs.
  rewrite Hd; [|done|by rewrite (concat_length vs n), Hm]. f_equal. unfold sval. pose proof (inb_concat vs n Hvs) as Hi. rewrite Hm in Hi. rewrite map_map. exact (f_equal (fun v => bval n v e) Hi).
Qed.
(** mux(x AND y selected by x = y, else x XOR y), truncated to two bits, in the only circuit of a heap. *)
Definition bexp_demo : bexp := BTake 2 (BMuxEq (BVar 0) (BVar 1) (BXor (BVar 0) (BVar 1)) (BAnd (BVar 0) (BNot (BVar 2)))).
Example C37_example : fresh blank1 0 /\ bwf 3 3 bexp_demo /\ exists h', bits_program Debug 0 3 3 bexp_demo blank1 = (Ok tt, h') /\
  eval_output Debug h' 30 0 ([true; true; true] ++ [true; true; true] ++ [false; true; false]) = Ok [true; false; false] /\
  eval_output Debug h' 30 0 ([true; true; true] ++ [true; false; true] ++ [false; true; false]) = Ok [false; true; false].
Proof.
  split; [apply fresh_blank1|]. split; [cbn; lia|]. eexists. split; [vm_compute; reflexivity|]. split; vm_compute; reflexivity.
Qed.

(** [from_gate_ids] panics exactly when given more than [n] ids. *)
Theorem C37_from_gate_ids gs cfg n h : (exists h', bits_from_gate_ids gs cfg n h = (Panic PAssert, h')) <-> (n < length gs)%nat.
Proof.
  unfold bits_from_gate_ids. case_decide as Hd; split; try lia; [|by eexists]. intros [h' E]. exfalso. revert E. unfold st_bind, b_consts.
  assert (Hc : forall xs h1, fst (st_mapM (fun _ : nat => r_constant (bc_ref cfg) false) xs h1) <> Panic PAssert).
  { induction xs as [|x xs IH]; intros h1; cbn [st_mapM]; [done|]. unfold st_bind. 
    unfold r_constant at 1, on_circ, get_circ, put_circ, st_bind, st_ret. destruct (h_circ h1 !! bc_ref cfg) as [c|]; [|done].
    destruct (c_constant c false) as [g c']. cbn -[st_mapM]. 
    match goal with |- context [st_mapM _ xs ?h2] => specialize (IH h2); destruct (st_mapM (fun _ : nat => r_constant (bc_ref cfg) false) xs h2) as [ [?|?|?|] ?] end; done. }
  specialize (Hc (seq 0 (n - length gs)) h). unfold st_ret.
  destruct (st_mapM _ _ h) as [ [?|?|p|] ?]; cbn in *; intros E; injection E; intros; subst; done.
Qed.
