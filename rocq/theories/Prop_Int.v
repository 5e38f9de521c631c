(** Properties of the integer circuits: C38 to C45. *)
From Verif Require Export Prop_Logic IntOps.
Open Scope list_scope.

(** An integer is given to a circuit as its [n] low bits, lowest first ([zbits n a]; negative integers in two's complement), so that every list of
    [n] input bits is [zbits n a] of some [a] ([zbits_zval]). The module [mid] has two [n]-bit operands and evaluates to [F] of them. *)
Definition arith2 (h : heap) (l : nat) (mid : N) (n n_out : nat) (F : Z -> Z -> list bool) : Prop :=
  exists l', get_module h l mid = Ok l' /\ inputs_of h l' = Ok (N.of_nat (n + n)) /\ outputs_of h l' = Ok (N.of_nat n_out) /\
  forall md, exists depth, forall fuel a b, (depth <= fuel)%nat -> eval_output md h fuel l' (zbits n a ++ zbits n b) = Ok (F a b).
Lemma mspec_arith2 h l mid n n_out G F : dinv h -> mspec l h l mid (n + n) n_out (fun bits => G (take n bits) (drop n bits)) ->
  (forall a b, G (zbits n a) (zbits n b) = F a b) -> arith2 h l mid n n_out F.
Proof.
  intros D Hm HF. destruct (mspec_evaluates _ _ _ _ _ _ _ D Hm) as (l' & Hl & Hi & Ho & Hv). exists l'. split; [done|]. split; [done|]. split; [done|].
  intros md. destruct (Hv md) as [d Hd]. exists d. intros fuel a b Hf. rewrite Hd; [|done|by rewrite app_length, !zbits_length].
  by rewrite (IntFacts.halves G n _ _ (zbits_length n a)), HF.
Qed.
Lemma addz_zbits n a b : addz n (zbits n a) (zbits n b) = zbits n (a + b).
Proof. unfold addz. apply zbits_inj. rewrite !zval_zbits. symmetry. apply Zplus_mod. Qed.
Lemma subz_zbits n a b : subz n (zbits n a) (zbits n b) = zbits n (a - b).
Proof. unfold subz. apply zbits_inj. rewrite !zval_zbits. symmetry. apply Zminus_mod. Qed.
Lemma mulz_zbits n a b : mulz n (zbits n a) (zbits n b) = zbits n (a * b).
Proof. unfold mulz. apply zbits_inj. rewrite !zval_zbits. symmetry. apply Zmult_mod. Qed.

(** * C38 *)
Theorem C38_add h l n : (1 <= n)%nat -> base h l -> exists mid h', build_add l n h = (Ok mid, h') /\ built h l h' /\
  arith2 h' l mid n n (fun a b => zbits n (a + b)).
Proof.
  intros Hn Hb. destruct (build_add_ok h l n Hn Hb) as (mid & h' & E & T & Hm). exists mid, h'. split; [done|]. split; [done|].
  eapply mspec_arith2; [apply T|exact Hm|]. apply addz_zbits.
Qed.
(** Without bits the access to the first generate gate fails. *)
Theorem C38_no_bits h l : base h l -> exists h', build_add l 0 h = (Panic PIndex, h').
Proof.
  intros Hb. destruct (t_sub h l Hb) as (mid & s & h1 & E1 & B1 & So). eexists. unfold build_add. by rewrite (st_bind_ok _ _ _ _ _ E1).
Qed.
(** Builds a module and evaluates it. *)
Definition try_module (prog : M N) (h : heap) (l fuel : nat) (ins : list bool) : option (list bool) :=
  match prog h with
  | (Ok mid, h') => match get_module h' l mid with Ok l' => match eval_output Debug h' fuel l' ins with Ok o => Some o | _ => None end | _ => None end
  | _ => None
  end.
(** 5 + 6 = 11 and 13 + 6 = 19 = 3 modulo 16. *)
Example C38_example : base (run Debug demo) 0 /\ try_module (build_add 0 4) (run Debug demo) 0 40 (zbits 4 5 ++ zbits 4 6) = Some (zbits 4 11) /\
  try_module (build_add 0 4) (run Debug demo) 0 40 (zbits 4 13 ++ zbits 4 6) = Some [true; true; false; false].
Proof. split; [apply demo_base|]. split; vm_compute; reflexivity. Qed.

(** * C39, C40, C41 *)
Theorem C39_sub md h l n : (1 <= n)%nat -> base h l -> exists add_mid h1 mid h', build_add l n h = (Ok add_mid, h1) /\ build_sub md l n add_mid h1 = (Ok mid, h') /\
  built h l h' /\ arith2 h' l mid n n (fun a b => zbits n (a - b)).
Proof.
  intros Hn Hb. destruct (build_add_ok h l n Hn Hb) as (m1 & h1 & E1 & T1 & S1). pose proof (built_base _ _ _ Hb T1) as Hb1.
  destruct (build_sub_ok md h1 l n m1 Hn Hb1 S1) as (mid & h' & E & T & Hm). exists m1, h1, mid, h'. split; [done|]. split; [done|].
  split; [by eapply built_trans|]. eapply mspec_arith2; [apply T|exact Hm|]. apply subz_zbits.
Qed.
Theorem C40_mul md h l n : (1 <= n)%nat -> base h l -> exists add_mid h1 mid h', build_add l n h = (Ok add_mid, h1) /\ build_mul md l n add_mid h1 = (Ok mid, h') /\
  built h l h' /\ arith2 h' l mid n n (fun a b => zbits n (a * b)).
Proof.
  intros Hn Hb. destruct (build_add_ok h l n Hn Hb) as (m1 & h1 & E1 & T1 & S1). pose proof (built_base _ _ _ Hb T1) as Hb1.
  destruct (build_mul_ok md h1 l n m1 Hn Hb1 S1) as (mid & h' & E & T & Hm). exists m1, h1, mid, h'. split; [done|]. split; [done|].
  split; [by eapply built_trans|]. eapply mspec_arith2; [apply T|exact Hm|]. apply mulz_zbits.
Qed.
(** The product of the unsigned values of the operands, which always fits in [2 * n] bits. *)
Theorem C41_mul_extend md h l n : (1 <= n)%nat -> base h l -> exists add_mid h1 mid h', build_add l (2 * n) h = (Ok add_mid, h1) /\
  build_mul_extend md l n add_mid h1 = (Ok mid, h') /\ built h l h' /\
  arith2 h' l mid n (2 * n) (fun a b => zbits (2 * n) ((a mod 2 ^ Z.of_nat n) * (b mod 2 ^ Z.of_nat n))) /\
  forall a b, (0 <= (a mod 2 ^ Z.of_nat n) * (b mod 2 ^ Z.of_nat n) < 2 ^ Z.of_nat (2 * n))%Z.
Proof.
  intros Hn Hb. destruct (build_add_ok h l (2 * n) ltac:(lia) Hb) as (m1 & h1 & E1 & T1 & S1). pose proof (built_base _ _ _ Hb T1) as Hb1.
  destruct (build_mul_extend_ok md h1 l n m1 Hn Hb1 S1) as (mid & h' & E & T & Hm). exists m1, h1, mid, h'. split; [done|]. split; [done|].
  split; [by eapply built_trans|]. split.
  - eapply (mspec_arith2 h' l mid n (2 * n) (mulz (2 * n))); [apply T|exact Hm|]. intros a b. unfold mulz. by rewrite !zval_zbits.
  - intros a b. fold (two_p n). replace (2 ^ Z.of_nat (2 * n))%Z with (two_p n * two_p n)%Z by (rewrite <- two_p_add; unfold two_p; f_equal; lia).
    pose proof (two_p_pos n). pose proof (Z.mod_pos_bound a (two_p n)). pose proof (Z.mod_pos_bound b (two_p n)). split; [apply Z.mul_nonneg_nonneg; lia|].
    apply Z.mul_lt_mono_nonneg; lia.
Qed.
(** 2 - 3 = -1, 3 * 6 = 18 = 2 modulo 8, and 2 * 3 = 6 on 2 bits. *)
Example C39_example : base (run Debug demo) 0 /\ try_module (a <- build_add 0 3 ;; build_sub Debug 0 3 a) (run Debug demo) 0 40 (zbits 3 2 ++ zbits 3 3) = Some (zbits 3 7).
Proof. split; [apply demo_base|]. vm_compute. reflexivity. Qed.
Example C40_example : base (run Debug demo) 0 /\ try_module (a <- build_add 0 3 ;; build_mul Debug 0 3 a) (run Debug demo) 0 60 (zbits 3 3 ++ zbits 3 6) = Some (zbits 3 2).
Proof. split; [apply demo_base|]. vm_compute. reflexivity. Qed.
Example C41_example : base (run Debug demo) 0 /\ try_module (a <- build_add 0 4 ;; build_mul_extend Debug 0 2 a) (run Debug demo) 0 60 (zbits 2 2 ++ zbits 2 3) = Some (zbits 4 6).
Proof. split; [apply demo_base|]. vm_compute. reflexivity. Qed.

(** * C42 *)
(** The representative of [a] modulo [2^n] between [-2^(n-1)] and [2^(n-1) - 1] is [signed n a] ([signed_mod], [signed_range]). The comparison modules
    of a configuration look at the sign of the wrapped difference. *)
Definition cmp_less (n : nat) (a b : Z) : bool := (signed n (a - b) <? 0)%Z.
Definition cmp_equal (n : nat) (a b : Z) : bool := (a mod 2 ^ Z.of_nat n =? b mod 2 ^ Z.of_nat n)%Z.
Theorem C42_modules md h l n : (1 <= n)%nat -> base h l -> exists cfg h', int_config_new md l n h = (Ok cfg, h') /\ built h l h' /\
  arith2 h' l (ic_less cfg) n 1 (fun a b => [cmp_less n a b]) /\
  arith2 h' l (ic_less_or_eq cfg) n 1 (fun a b => [cmp_less n a b || cmp_equal n a b]) /\
  arith2 h' l (ic_larger cfg) n 1 (fun a b => [negb (cmp_less n a b || cmp_equal n a b)]) /\
  arith2 h' l (ic_larger_or_eq cfg) n 1 (fun a b => [negb (cmp_less n a b)]) /\
  arith2 h' l (ic_eq cfg) n 1 (fun a b => [cmp_equal n a b]) /\
  arith2 h' l (ic_neq cfg) n 1 (fun a b => [negb (cmp_equal n a b)]) /\
  arith2 h' l (ic_add cfg) n n (fun a b => zbits n (a + b)) /\
  arith2 h' l (ic_sub cfg) n n (fun a b => zbits n (a - b)) /\
  arith2 h' l (ic_mul cfg) n n (fun a b => zbits n (a * b)).
Proof.
  intros Hn Hb. destruct (int_config_new_ok md h l n Hn Hb) as (cfg & h' & E & T & [_ C1 C2 C3 C4 C5 C6 C7 C8 C9]).
  exists cfg, h'. split; [done|]. split; [done|].
  assert (D : dinv h') by apply T.
  split; [eapply (mspec_arith2 _ _ _ _ _ (fun xs ys => [lessz n xs ys])); [done|exact C6|]; intros a b; by rewrite lessz_zbits|].
  split; [eapply (mspec_arith2 _ _ _ _ _ (fun xs ys => [lessz n xs ys || same_bits xs ys])); [done|exact C7|]; intros a b; by rewrite lessz_zbits, same_zbits|].
  split; [eapply (mspec_arith2 _ _ _ _ _ (fun xs ys => [negb (lessz n xs ys || same_bits xs ys)])); [done|exact C8|]; intros a b; by rewrite lessz_zbits, same_zbits|].
  split; [eapply (mspec_arith2 _ _ _ _ _ (fun xs ys => [negb (lessz n xs ys)])); [done|exact C9|]; intros a b; by rewrite lessz_zbits|].
  split; [eapply (mspec_arith2 _ _ _ _ _ (fun xs ys => [same_bits xs ys])); [done|exact C4|]; intros a b; by rewrite same_zbits|].
  split; [eapply (mspec_arith2 _ _ _ _ _ (fun xs ys => [negb (same_bits xs ys)])); [done|exact C5|]; intros a b; by rewrite same_zbits|].
  split; [eapply mspec_arith2; [done|exact C1|apply addz_zbits]|].
  split; [eapply mspec_arith2; [done|exact C2|apply subz_zbits]|].
  eapply mspec_arith2; [done|exact C3|apply mulz_zbits].
Qed.
Lemma cmp_equal_signed n a b : (1 <= n)%nat -> (- 2 ^ (Z.of_nat n - 1) <= a < 2 ^ (Z.of_nat n - 1))%Z -> (- 2 ^ (Z.of_nat n - 1) <= b < 2 ^ (Z.of_nat n - 1))%Z ->
  cmp_equal n a b = (a =? b)%Z.
Proof.
  intros Hn Ha Hb. replace (2 ^ (Z.of_nat n - 1))%Z with (two_p (n - 1)) in * by (unfold two_p; f_equal; lia). unfold cmp_equal. fold (two_p n).
  apply eq_true_iff_eq. rewrite !Z.eqb_eq. split; [|by intros ->]. intros E.
  rewrite <- (signed_id n a Hn Ha), <- (signed_id n b Hn Hb). unfold signed. by rewrite E.
Qed.
(** On signed operands the comparison is right exactly when their difference fits in [n] bits. *)
Theorem C42_signed n a b : (1 <= n)%nat -> (- 2 ^ (Z.of_nat n - 1) <= a < 2 ^ (Z.of_nat n - 1))%Z -> (- 2 ^ (Z.of_nat n - 1) <= b < 2 ^ (Z.of_nat n - 1))%Z ->
  let fits := (- 2 ^ (Z.of_nat n - 1) <= a - b < 2 ^ (Z.of_nat n - 1))%Z in
  (cmp_less n a b = (a <? b)%Z <-> fits) /\ (cmp_less n a b || cmp_equal n a b = (a <=? b)%Z <-> fits) /\
  (negb (cmp_less n a b || cmp_equal n a b) = (a >? b)%Z <-> fits) /\ (negb (cmp_less n a b) = (a >=? b)%Z <-> fits).
Proof.
  intros Hn Ha Hb fits. rewrite (cmp_equal_signed n a b Hn Ha Hb). subst fits.
  replace (2 ^ (Z.of_nat n - 1))%Z with (two_p (n - 1)) in * by (unfold two_p; f_equal; lia).
  assert (Hl : cmp_less n a b = (a <? b)%Z <-> (- two_p (n - 1) <= a - b < two_p (n - 1))%Z).
  { unfold cmp_less. pose proof (two_p_pos (n - 1)). assert (E : (two_p n = 2 * two_p (n - 1))%Z) by (replace n with (S (n - 1)) at 1 by lia; apply two_p_S).
    destruct (Z_lt_le_dec (a - b) (- two_p (n - 1))) as [H1|H1].
    - assert (Hs : signed n (a - b) = (a - b + two_p n)%Z).
      { rewrite <- (signed_id n (a - b + two_p n)) by lia. unfold signed. replace ((a - b + two_p n) mod two_p n)%Z with ((a - b) mod two_p n)%Z; [done|].
        rewrite <- (Z_mod_plus_full (a - b) 1). f_equal. lia. }
      rewrite Hs. rewrite (proj2 (Z.ltb_ge _ _)), (proj2 (Z.ltb_lt a b)) by lia. split; [done|lia].
    - destruct (Z_lt_le_dec (a - b) (two_p (n - 1))) as [H2|H2].
      + rewrite signed_id by lia. split; [lia|]. intros _. apply eq_true_iff_eq. rewrite !Z.ltb_lt. lia.
      + assert (Hs : signed n (a - b) = (a - b - two_p n)%Z).
        { rewrite <- (signed_id n (a - b - two_p n)) by lia. unfold signed. replace ((a - b - two_p n) mod two_p n)%Z with ((a - b) mod two_p n)%Z; [done|].
          rewrite <- (Z_mod_plus_full (a - b) (-1)). f_equal; lia. }
        rewrite Hs. rewrite (proj2 (Z.ltb_lt _ _)), (proj2 (Z.ltb_ge a b)) by lia. split; [done|lia]. }
  assert (Hle : cmp_less n a b || (a =? b)%Z = (a <=? b)%Z <-> (- two_p (n - 1) <= a - b < two_p (n - 1))%Z).
  { rewrite <- Hl. destruct (Z.eqb_spec a b) as [-> |Hne].
    - rewrite orb_true_r, Z.leb_refl, Z.ltb_irrefl. unfold cmp_less. rewrite Z.sub_diag. unfold signed. rewrite Z.mod_0_l by (pose proof (two_p_pos n); lia).
      by rewrite (proj2 (Z.ltb_lt (2 * 0) _)) by (pose proof (two_p_pos n); lia).
    - rewrite orb_false_r. destruct (Z.leb_spec a b), (Z.ltb_spec a b); try lia; done. }
  split; [done|]. split; [done|]. rewrite Z.gtb_ltb, Z.geb_leb. split.
  - rewrite <- Hle. rewrite Z.ltb_antisym. destruct (cmp_less n a b || (a =? b)%Z), (a <=? b)%Z; cbn; intuition congruence.
  - rewrite <- Hl. rewrite Z.leb_antisym. destruct (cmp_less n a b), (a <? b)%Z; cbn; intuition congruence.
Qed.
(** On unsigned operands below [2^(n-1)] it is right. *)
Theorem C42_unsigned n a b : (1 <= n)%nat -> (0 <= a < 2 ^ (Z.of_nat n - 1))%Z -> (0 <= b < 2 ^ (Z.of_nat n - 1))%Z ->
  cmp_less n a b = (a <? b)%Z /\ cmp_less n a b || cmp_equal n a b = (a <=? b)%Z /\
  negb (cmp_less n a b || cmp_equal n a b) = (a >? b)%Z /\ negb (cmp_less n a b) = (a >=? b)%Z.
Proof. intros Hn Ha Hb. destruct (C42_signed n a b Hn) as (H1 & H2 & H3 & H4); [lia|lia|]. rewrite H1, H2, H3, H4. lia. Qed.
(** 1 < 3; -4 < 3 is denied by the circuit because the difference -7 does not fit. *)
Example C42_example : base blank1 0 /\
  try_module (cfg <- int_config_new Debug 0 3 ;; st_ret (ic_less cfg)) blank1 0 60 (zbits 3 1 ++ zbits 3 3) = Some [true] /\
  try_module (cfg <- int_config_new Debug 0 3 ;; st_ret (ic_less cfg)) blank1 0 60 (zbits 3 (-4) ++ zbits 3 3) = Some [false] /\
  try_module (cfg <- int_config_new Debug 0 3 ;; st_ret (ic_larger cfg)) blank1 0 60 (zbits 3 3 ++ zbits 3 1) = Some [true].
Proof. split; [apply fresh_base, fresh_blank1|]. split; [|split]; vm_compute; reflexivity. Qed.

(** * C45 *)
(** Expressions over allocated integers. [ITrunc k e] is [from_gate_ids] of the first [k] gates of [e]; [ICmp c e1 e2] is [from_gate_ids] of the bit that the
    comparison [c] gives. *)
Inductive icmp := CEq | CNeq | CLess | CLessOrEq | CLarger | CLargerOrEq.
Inductive iexp :=
| IVar (k : nat) | IBig (v : N) | IZero | IOne | IAdd (e1 e2 : iexp) | ISub (e1 e2 : iexp) | IMul (e1 e2 : iexp) | INeg (e : iexp)
| IShl (e : iexp) (k : nat) | IShr (e : iexp) (k : nat) | ITrunc (k : nat) (e : iexp) | ICmp (c : icmp) (e1 e2 : iexp).
(** [IBig v] is admitted when [v] has at most [n / 8] bytes. *)
Fixpoint iwf (m n : nat) (e : iexp) : Prop :=
  match e with
  | IVar k => (k < m)%nat
  | IBig v => exists k, (1 <= k)%nat /\ (8 * k <= n)%nat /\ (v < 256 ^ N.of_nat k)%N
  | IZero | IOne => True
  | IAdd e1 e2 | ISub e1 e2 | IMul e1 e2 | ICmp _ e1 e2 => iwf m n e1 /\ iwf m n e2
  | INeg e => iwf m n e
  | IShl e k | IShr e k | ITrunc k e => (k <= n)%nat /\ iwf m n e
  end.
Definition cval (n : nat) (c : icmp) (a b : Z) : bool :=
  match c with
  | CEq => cmp_equal n a b | CNeq => negb (cmp_equal n a b) | CLess => cmp_less n a b | CLessOrEq => cmp_less n a b || cmp_equal n a b
  | CLarger => negb (cmp_less n a b || cmp_equal n a b) | CLargerOrEq => negb (cmp_less n a b)
  end.
(** The value of an expression, the variables having the values [vs]. *)
Fixpoint ival (n : nat) (vs : list Z) (e : iexp) : Z :=
  match e with
  | IVar k => nth k vs 0
  | IBig v => Z.of_N v
  | IZero => 0
  | IOne => 1
  | IAdd e1 e2 => ival n vs e1 + ival n vs e2
  | ISub e1 e2 => ival n vs e1 - ival n vs e2
  | IMul e1 e2 => ival n vs e1 * ival n vs e2
  | INeg e => - ival n vs e
  | IShl e k => ival n vs e * 2 ^ Z.of_nat k
  | IShr e k => signed n (ival n vs e) / 2 ^ Z.of_nat k
  | ITrunc k e => ival n vs e mod 2 ^ Z.of_nat k
  | ICmp c e1 e2 => if cval n c (ival n vs e1) (ival n vs e2) then 1 else 0
  end%Z.
Definition ccall (c : icmp) : mode -> aint -> aint -> nat -> M N :=
  match c with
  | CEq => int_eq | CNeq => int_neq | CLess => int_less | CLessOrEq => int_less_or_eq | CLarger => int_larger | CLargerOrEq => int_larger_or_eq
  end.
(** The calls that build it. *)
Fixpoint ibuild (md : mode) (cfg : int_config) (n : nat) (vars : list aint) (e : iexp) : M aint :=
  match e with
  | IVar k => st_nth vars k
  | IBig v => int_from_biguint v cfg n
  | IZero => int_zero cfg n
  | IOne => int_one cfg n
  | IAdd e1 e2 => x <- ibuild md cfg n vars e1 ;; y <- ibuild md cfg n vars e2 ;; int_add md x y
  | ISub e1 e2 => x <- ibuild md cfg n vars e1 ;; y <- ibuild md cfg n vars e2 ;; int_sub md x y
  | IMul e1 e2 => x <- ibuild md cfg n vars e1 ;; y <- ibuild md cfg n vars e2 ;; int_mul md x y
  | INeg e => x <- ibuild md cfg n vars e ;; int_neg md x n
  | IShl e k => x <- ibuild md cfg n vars e ;; int_shift_left x k n
  | IShr e k => x <- ibuild md cfg n vars e ;; int_shift_right md x k n
  | ITrunc k e => x <- ibuild md cfg n vars e ;; int_from_gate_ids (take k (ai_val x)) (ai_cfg x) n
  | ICmp c e1 e2 => x <- ibuild md cfg n vars e1 ;; y <- ibuild md cfg n vars e2 ;; g <- ccall c md x y n ;; int_from_gate_ids [g] cfg n
  end.
(** A whole program: configure, allocate [m] variables as inputs, build [e], output it. *)
Definition int_program (md : mode) (l n m : nat) (e : iexp) : M unit :=
  cfg <- int_config_new md l n ;; vars <- st_mapM (fun _ => int_new cfg n) (seq 0 m) ;; z <- ibuild md cfg n vars e ;; int_output z n.

Lemma bytes_loop_length fuel v k : (N.size_nat v <= fuel)%nat -> (length (bytes_loop fuel v) <= k)%nat <-> (v < 256 ^ N.of_nat k)%N.
Proof.
  revert v k. induction fuel as [|fuel IH]; intros v k Hf; cbn [bytes_loop].
  - assert (v = 0)%N as -> by (destruct v as [|q]; [done|destruct q; cbn in Hf; lia]). cbn [length]. split; [intros _|lia]. apply N.neq_0_lt_0, N.pow_nonzero. done.
  - destruct (N.eqb_spec v 0) as [-> |Hv]; [cbn [length]; split; [intros _; apply N.neq_0_lt_0, N.pow_nonzero; done|lia]|].
    assert (Hs : forall x, N.of_nat (N.size_nat x) = N.size x). { intros [|q]; [done|]. cbn. induction q; cbn; lia. }
    assert (Hd : (N.size_nat (v / 256) <= fuel)%nat).
    { assert (H1 : (N.size (v / 256) < N.size v)%N).
      { destruct (N.eqb_spec (v / 256) 0) as [E|E]; [rewrite E; destruct v; [done|cbn; lia]|]. rewrite !N.size_log2 by done. apply (proj1 (N.succ_lt_mono _ _)).
        change 256%N with (2 ^ 8)%N in *. rewrite <- N.shiftr_div_pow2 in *. destruct (N.lt_ge_cases (N.log2 v) 8) as [Hl|Hl].
        - exfalso. apply E. by apply N.shiftr_eq_0.
        - rewrite N.log2_shiftr. lia. }
      pose proof (Hs v). pose proof (Hs (v / 256)%N). lia. }
    cbn [length]. destruct k as [|k]; [split; [lia|]; rewrite N.pow_0_r; lia|].
    rewrite <- Nat.succ_le_mono, (IH _ k Hd), Nat2N.inj_succ, N.pow_succ_r by lia. split; intros H.
    + rewrite (N.div_mod v 256) by done. pose proof (N.mod_upper_bound v 256 ltac:(done)). nia.
    + apply N.div_lt_upper_bound; [done|]. done.
Qed.
(** The number of bytes of a number: at most [k >= 1] exactly if it is below [256^k]. *)
Lemma to_bytes_le_length v k : (1 <= k)%nat -> (length (to_bytes_le v) <= k)%nat <-> (v < 256 ^ N.of_nat k)%N.
Proof.
  intros Hk. unfold to_bytes_le. destruct (N.eqb_spec v 0) as [-> |Hv]; [|by apply bytes_loop_length].
  cbn [length]. split; [intros _; apply N.neq_0_lt_0, N.pow_nonzero; done|lia].
Qed.
Lemma iwf_big v n : (exists k, (1 <= k)%nat /\ (8 * k <= n)%nat /\ (v < 256 ^ N.of_nat k)%N) <-> (8 * length (to_bytes_le v) <= n)%nat.
Proof.
  split.
  - intros (k & H1 & H2 & H3). apply to_bytes_le_length in H3; lia.
  - intros H. exists (length (to_bytes_le v)). assert (H1 : (1 <= length (to_bytes_le v))%nat).
    { unfold to_bytes_le. destruct (N.eqb_spec v 0) as [-> |Hv]; [done|]. destruct v as [|q]; [done|]. destruct q; cbn; lia. }
    split; [done|]. split; [done|]. by apply to_bytes_le_length.
Qed.

Definition zvars (Vs : list ((N -> bool) -> Z)) (ρ : N -> bool) : list Z := map (fun V => V ρ) Vs.
Definition ivars_at (h : heap) (l : nat) (cfg : int_config) (n : nat) (vars : list aint) (Vs : list ((N -> bool) -> Z)) : Prop := Forall2 (int_val h l cfg n) vars Vs.
Lemma ivars_at_ext h l cfg n vars Vs h' : ext l h h' -> ivars_at h l cfg n vars Vs -> ivars_at h' l cfg n vars Vs.
Proof. intros X V. eapply Forall2_impl; [exact V|]. intros x X0 Hx. by eapply int_val_ext. Qed.
(** What building [e] in [h] achieves. *)
Definition built_iexp (p : nat) (h : heap) (l : nat) (i : N) (os : list N) (cfg : int_config) (n : nat) (vars : list aint) (Vs : list ((N -> bool) -> Z))
    (e : iexp) (z : aint) (h' : heap) : Prop :=
  bs p h' l i os /\ ext l h h' /\ int_cfg p h' l cfg n /\ int_val h' l cfg n z (fun ρ => ival n (zvars Vs ρ) e) /\
  ((forall x g, x ∈ vars -> g ∈ ai_val x -> free h l g) -> forall g, g ∈ ai_val z -> free h' l g).
Lemma ipost_exp p h l i os cfg n vars Vs e z h1 h' ops V : int_post p h1 l cfg n h' i os ops (ai_val z) -> ext l h h1 -> int_val h' l cfg n z V ->
  (forall ρ, (V ρ mod two_p n = ival n (zvars Vs ρ) e mod two_p n)%Z) -> built_iexp p h l i os cfg n vars Vs e z h'.
Proof.
  intros (B & M & C) X V' HV. split; [done|]. split; [eapply ext_trans; [done|apply M]|]. split; [done|]. split; [by eapply int_val_eq|].
  intros _ g Hg. by apply (mv_new _ _ _ _ _ M g Hg).
Qed.
Lemma ccall_ok c md p h l i os cfg n x y X Y : (0 < n)%nat -> bs p h l i os -> int_cfg p h l cfg n -> int_val h l cfg n x X -> int_val h l cfg n y Y ->
  exists g h', ccall c md x y n h = (Ok g, h') /\ int_post p h l cfg n h' i os (ai_val x ++ ai_val y) [g] /\ gf h' l g (fun ρ => cval n c (X ρ) (Y ρ)).
Proof.
  intros Hn B C Hx Hy. destruct c; cbn [ccall cval].
  - exact (int_eq_ok md p h l i os cfg n Hn B C x y X Y Hx Hy).
  - exact (int_neq_ok md p h l i os cfg n Hn B C x y X Y Hx Hy).
  - exact (int_less_ok md p h l i os cfg n Hn B C x y X Y Hx Hy).
  - exact (int_less_or_eq_ok md p h l i os cfg n Hn B C x y X Y Hx Hy).
  - exact (int_larger_ok md p h l i os cfg n Hn B C x y X Y Hx Hy).
  - exact (int_larger_or_eq_ok md p h l i os cfg n Hn B C x y X Y Hx Hy).
Qed.
Lemma ibuild_ok md p l i os cfg n Vs : (0 < n)%nat -> forall e vars h, bs p h l i os -> int_cfg p h l cfg n -> ivars_at h l cfg n vars Vs -> iwf (length Vs) n e ->
  exists z h', ibuild md cfg n vars e h = (Ok z, h') /\ built_iexp p h l i os cfg n vars Vs e z h'.
Proof.
  intros Hn. induction e as [k|v| | |e1 IH1 e2 IH2|e1 IH1 e2 IH2|e1 IH1 e2 IH2|e IH|e IH k|e IH k|k e IH|c e1 IH1 e2 IH2];
    cbn [iwf ibuild]; intros vars h B C V Hw.
  - destruct (lookup_lt_is_Some_2 Vs k Hw) as [X HX]. destruct (Forall2_lookup_r _ _ _ _ _ V HX) as (x & Hx & Hb).
    exists x, h. split; [by apply st_nth_ok|]. split; [done|]. split; [apply ext_refl|]. split; [done|]. split.
    + eapply int_val_eq; [exact Hb|]. intros ρ. unfold zvars. cbn [ival]. f_equal. symmetry. apply nth_lookup_Some. by rewrite list_lookup_fmap, HX.
    + intros Hf g Hg. eapply Hf; [by eapply elem_of_list_lookup_2|done].
  - apply iwf_big in Hw. destruct (int_biguint_ok p h l i os cfg n Hn B C v Hw) as (z & h' & E & P & Vz). exists z, h'. split; [done|].
    by eapply ipost_exp; [exact P|apply ext_refl|exact Vz|].
  - destruct (int_zero_ok p h l i os cfg n Hn B C) as (z & h' & E & P & Vz). exists z, h'. split; [done|]. by eapply ipost_exp; [exact P|apply ext_refl|exact Vz|].
  - destruct (int_one_ok p h l i os cfg n Hn B C) as (z & h' & E & P & Vz). exists z, h'. split; [done|]. by eapply ipost_exp; [exact P|apply ext_refl|exact Vz|].
  - destruct Hw as [W1 W2]. destruct (IH1 vars h B C V W1) as (x & h1 & E1 & B1 & X1 & C1 & V1 & _).
    destruct (IH2 vars h1 B1 C1 (ivars_at_ext _ _ _ _ _ _ _ X1 V) W2) as (y & h2 & E2 & B2 & X2 & C2 & V2 & _).
    destruct (int_add_ok md p h2 l i os cfg n Hn B2 C2 x y _ _ (int_val_ext _ _ _ _ _ _ _ X2 V1) V2) as (z & h' & E & P & Vz). exists z, h'.
    rewrite (st_bind_ok _ _ _ _ _ E1), (st_bind_ok _ _ _ _ _ E2). split; [done|]. by eapply ipost_exp; [exact P|by eapply ext_trans|exact Vz|].
  - destruct Hw as [W1 W2]. destruct (IH1 vars h B C V W1) as (x & h1 & E1 & B1 & X1 & C1 & V1 & _).
    destruct (IH2 vars h1 B1 C1 (ivars_at_ext _ _ _ _ _ _ _ X1 V) W2) as (y & h2 & E2 & B2 & X2 & C2 & V2 & _).
    destruct (int_sub_ok md p h2 l i os cfg n Hn B2 C2 x y _ _ (int_val_ext _ _ _ _ _ _ _ X2 V1) V2) as (z & h' & E & P & Vz). exists z, h'.
    rewrite (st_bind_ok _ _ _ _ _ E1), (st_bind_ok _ _ _ _ _ E2). split; [done|]. by eapply ipost_exp; [exact P|by eapply ext_trans|exact Vz|].
  - destruct Hw as [W1 W2]. destruct (IH1 vars h B C V W1) as (x & h1 & E1 & B1 & X1 & C1 & V1 & _).
    destruct (IH2 vars h1 B1 C1 (ivars_at_ext _ _ _ _ _ _ _ X1 V) W2) as (y & h2 & E2 & B2 & X2 & C2 & V2 & _).
    destruct (int_mul_ok md p h2 l i os cfg n Hn B2 C2 x y _ _ (int_val_ext _ _ _ _ _ _ _ X2 V1) V2) as (z & h' & E & P & Vz). exists z, h'.
    rewrite (st_bind_ok _ _ _ _ _ E1), (st_bind_ok _ _ _ _ _ E2). split; [done|]. by eapply ipost_exp; [exact P|by eapply ext_trans|exact Vz|].
  - destruct (IH vars h B C V Hw) as (x & h1 & E1 & B1 & X1 & C1 & V1 & _).
    destruct (int_neg_ok md p h1 l i os cfg n x _ Hn B1 C1 V1) as (z & h' & E & B' & X' & C' & Nw & Vz). exists z, h'. rewrite (st_bind_ok _ _ _ _ _ E1).
    split; [done|]. split; [done|]. split; [by eapply ext_trans|]. split; [done|]. split; [done|]. intros _ g Hg. by apply Nw.
  - destruct Hw as [Hk Hw]. destruct (IH vars h B C V Hw) as (x & h1 & E1 & B1 & X1 & C1 & V1 & Hf1).
    destruct (int_shift_left_ok p h1 l i os cfg n x _ k B1 C1 V1 Hk) as (z & h' & zs & E & (B' & M & C') & Hz & Vz). exists z, h'. rewrite (st_bind_ok _ _ _ _ _ E1).
    split; [done|]. split; [done|]. split; [eapply ext_trans; [done|apply M]|]. split; [done|]. split; [done|].
    intros Hf g. rewrite Hz. intros [Hg|Hg]%elem_of_app; [by apply (mv_new _ _ _ _ _ M g Hg)|].
    assert (Hg' : g ∈ ai_val x). { apply elem_of_list_lookup in Hg as [j Hj]. apply lookup_take_Some in Hj as [Hj _]. by eapply elem_of_list_lookup_2. }
    eapply (mv_free _ _ _ _ _ M); [eapply gfs_in; [apply V1|done]|by apply Hf1|]. by intros []%elem_of_nil.
  - destruct Hw as [Hk Hw]. destruct (IH vars h B C V Hw) as (x & h1 & E1 & B1 & X1 & C1 & V1 & Hf1).
    destruct (int_shift_right_ok md h1 l cfg n x _ k Hn V1 Hk) as (z & E & Hz & Vz). exists z, h1. rewrite (st_bind_ok _ _ _ _ _ E1).
    split; [done|]. split; [done|]. split; [done|]. split; [done|]. split; [done|]. intros Hf g Hg. by apply Hf1, Hz.
  - destruct Hw as [Hk Hw]. destruct (IH vars h B C V Hw) as (x & h1 & E1 & B1 & X1 & C1 & V1 & Hf1).
    pose proof (iv_len _ _ _ _ _ _ V1) as Hl.
    destruct (int_from_ok p h1 l i os cfg n Hn B1 C1 (take k (ai_val x)) _ ltac:(rewrite take_length; lia) (gfs_take _ _ _ _ k (iv_val _ _ _ _ _ _ V1)))
      as (z & h' & pad & E & (B' & M & C') & Hz & Vz). exists z, h'. rewrite (st_bind_ok _ _ _ _ _ E1), (iv_cfg _ _ _ _ _ _ V1). split; [done|].
    split; [done|]. split; [eapply ext_trans; [done|apply M]|]. split; [done|]. split.
    + eapply int_val_eq; [exact Vz|]. intros ρ. cbn [ival]. rewrite zval_take, zval_zbits. f_equal. fold (two_p k). pose proof (two_p_pos k). pose proof (two_p_pos (n - k)).
      assert (E2 : (two_p n = two_p k * two_p (n - k))%Z) by (rewrite <- two_p_add; f_equal; lia).
      rewrite E2, Z.rem_mul_r by lia. rewrite Z.mul_comm, Z_mod_plus_full. apply Z.mod_mod. lia.
    + intros Hf g. rewrite Hz. intros [Hg|Hg]%elem_of_app; [|by apply (mv_new _ _ _ _ _ M g Hg)].
      assert (Hg' : g ∈ ai_val x). { apply elem_of_list_lookup in Hg as [j Hj]. apply lookup_take_Some in Hj as [Hj _]. by eapply elem_of_list_lookup_2. }
      eapply (mv_free _ _ _ _ _ M); [eapply gfs_in; [apply V1|done]|by apply Hf1|]. by intros []%elem_of_nil.
  - destruct Hw as [W1 W2]. destruct (IH1 vars h B C V W1) as (x & h1 & E1 & B1 & X1 & C1 & V1 & _).
    destruct (IH2 vars h1 B1 C1 (ivars_at_ext _ _ _ _ _ _ _ X1 V) W2) as (y & h2 & E2 & B2 & X2 & C2 & V2 & _).
    destruct (ccall_ok c md p h2 l i os cfg n x y _ _ Hn B2 C2 (int_val_ext _ _ _ _ _ _ _ X2 V1) V2) as (g & h3 & E3 & (B3 & M3 & C3) & F3).
    destruct (int_from_ok p h3 l i os cfg n Hn B3 C3 [g] _ ltac:(cbn; lia) (proj1 (gfs_one _ _ _ _) F3)) as (z & h' & pad & E & (B' & M & C') & Hz & Vz). exists z, h'.
    rewrite (st_bind_ok _ _ _ _ _ E1), (st_bind_ok _ _ _ _ _ E2), (st_bind_ok _ _ _ _ _ E3). split; [done|]. split; [done|].
    split; [eapply ext_trans; [exact X1|]; eapply ext_trans; [exact X2|]; eapply ext_trans; [apply M3|apply M]|]. split; [done|]. split.
    + eapply int_val_eq; [exact Vz|]. intros ρ. cbn [ival zval]. f_equal. destruct (cval n c _ _); done.
    + intros _ g0. rewrite Hz. intros [Hg|Hg]%elem_of_app; [|by apply (mv_new _ _ _ _ _ M g0 Hg)]. apply elem_of_list_singleton in Hg as ->.
      eapply (mv_free _ _ _ _ _ M); [apply F3| |by intros []%elem_of_nil]. apply (mv_new _ _ _ _ _ M3 g). by apply elem_of_list_singleton.
Qed.
(** The variables, one after the other. *)
Lemma int_vars_ok p h l i os cfg n m : (0 < n)%nat -> bs p h l i os -> int_cfg p h l cfg n ->
  exists vars h', st_mapM (fun _ => int_new cfg n) (seq 0 m) h = (Ok vars, h') /\ length vars = m /\ bs p h' l (i + N.of_nat (m * n)) os /\ ext l h h' /\
    int_cfg p h' l cfg n /\ ivars_at h' l cfg n vars (map (fun k ρ => zval (inb (i + N.of_nat (k * n)) n ρ)) (seq 0 m)) /\
    forall x g, x ∈ vars -> g ∈ ai_val x -> has_gate h' l g /\ free h' l g.
Proof.
  intros Hn B C. destruct (mapM_inv (fun _ : nat => int_new cfg n) (seq 0 m)
    (fun vars h' => bs p h' l (i + N.of_nat (length vars * n)) os /\ ext l h h' /\
       int_cfg p h' l cfg n /\ ivars_at h' l cfg n vars (map (fun k ρ => zval (inb (i + N.of_nat (k * n)) n ρ)) (seq 0 (length vars))) /\
       forall x g, x ∈ vars -> g ∈ ai_val x -> has_gate h' l g /\ free h' l g) h) as (vars & h' & E & Hl & Bv & Xv & Cv & Vv & Fv).
  - intros vars k h1 _ (B1 & X1 & C1 & V1 & F1). destruct (int_new_ok p h1 l _ os cfg n Hn B1 C1) as (z & h2 & E & (B2 & M2 & C2) & V2).
    exists z, h2. split; [done|]. rewrite app_length. cbn [length]. rewrite Nat.add_1_r. cbn [Nat.mul].
    split; [by replace (i + N.of_nat (n + length vars * n)) with (i + N.of_nat (length vars * n) + N.of_nat n) by lia|].
    split; [eapply ext_trans; [done|apply M2]|]. split; [done|]. split.
    + rewrite seq_S, map_app. apply Forall2_app; [eapply ivars_at_ext; [apply M2|done]|]. constructor; [|constructor]. done.
    + intros x g Hx Hg. apply elem_of_app in Hx as [Hx|Hx].
      * destruct (F1 x g Hx Hg) as [H1 H2]. split; [eapply has_gate_hle; [apply M2|done]|]. eapply (mv_free _ _ _ _ _ M2); [done|done|]. by intros []%elem_of_nil.
      * apply elem_of_list_singleton in Hx as ->. split; by apply (mv_new _ _ _ _ _ M2 g Hg).
  - cbn [length Nat.mul]. rewrite N.add_0_r. split; [done|]. split; [apply ext_refl|]. split; [done|]. split; [constructor|]. intros x g []%elem_of_nil.
  - rewrite seq_length in Hl. rewrite Hl in *. eauto 10.
Qed.
(** The value depends on the variables only modulo [2^n]. *)
Lemma cmp_less_mod n a b a' b' : (a mod two_p n = a' mod two_p n -> b mod two_p n = b' mod two_p n -> cmp_less n a b = cmp_less n a' b')%Z.
Proof. intros H1 H2. unfold cmp_less, signed. by rewrite (Zminus_mod a b), (Zminus_mod a' b'), H1, H2. Qed.
Lemma cmp_equal_mod n a b a' b' : (a mod two_p n = a' mod two_p n -> b mod two_p n = b' mod two_p n -> cmp_equal n a b = cmp_equal n a' b')%Z.
Proof. intros H1 H2. unfold cmp_equal. fold (two_p n). by rewrite H1, H2. Qed.
Lemma ival_mod n m vs vs' e : iwf m n e -> (forall k, (k < m)%nat -> (nth k vs 0 mod two_p n = nth k vs' 0 mod two_p n)%Z) ->
  (ival n vs e mod two_p n = ival n vs' e mod two_p n)%Z.
Proof.
  intros Hw Hv. induction e; cbn [iwf ival] in *; try done.
  - by apply Hv.
  - destruct Hw as [H1 H2]. rewrite Zplus_mod, IHe1, IHe2 by done. symmetry. apply Zplus_mod.
  - destruct Hw as [H1 H2]. rewrite Zminus_mod, IHe1, IHe2 by done. symmetry. apply Zminus_mod.
  - destruct Hw as [H1 H2]. rewrite Zmult_mod, IHe1, IHe2 by done. symmetry. apply Zmult_mod.
  - rewrite <- (Z.sub_0_l (ival n vs e)), <- (Z.sub_0_l (ival n vs' e)), Zminus_mod, IHe by done. symmetry. apply Zminus_mod.
  - destruct Hw as [H1 H2]. rewrite Zmult_mod, IHe by done. symmetry. apply Zmult_mod.
  - destruct Hw as [H1 H2]. unfold signed. by rewrite IHe.
  - destruct Hw as [H1 H2]. f_equal. fold (two_p k). pose proof (two_p_pos k). pose proof (two_p_pos (n - k)).
    assert (E2 : (two_p n = two_p k * two_p (n - k))%Z) by (rewrite <- two_p_add; f_equal; lia).
    assert (Hm : forall a, (a mod two_p k = (a mod two_p n) mod two_p k)%Z).
    { intros a. rewrite E2, Z.rem_mul_r by lia. rewrite (Z.mul_comm (two_p k)), Z_mod_plus_full. symmetry. apply Z.mod_mod. lia. }
    rewrite Hm, IHe, <- Hm by done. done.
  - destruct Hw as [H1 H2]. do 2 f_equal. unfold cval.
    assert (L : cmp_less n (ival n vs e1) (ival n vs e2) = cmp_less n (ival n vs' e1) (ival n vs' e2)) by (apply cmp_less_mod; auto).
    assert (Q : cmp_equal n (ival n vs e1) (ival n vs e2) = cmp_equal n (ival n vs' e1) (ival n vs' e2)) by (apply cmp_equal_mod; auto).
    rewrite L, Q. done.
Qed.

(** Every expression, of any size and shape, over any number of variables of any positive width, builds without an error, and the finished circuit
    evaluates to its value modulo [2^n]. The inputs of the circuit are the bits of the variables in order. *)
Theorem C45_expressions md h l n m e : (1 <= n)%nat -> BuildEval.fresh h l -> iwf m n e ->
  exists h', int_program md l n m e h = (Ok tt, h') /\ inputs_of h' l = Ok (N.of_nat (m * n)) /\ outputs_of h' l = Ok (N.of_nat n) /\
  forall md', exists depth, forall fuel vs, (depth <= fuel)%nat -> length vs = m ->
    eval_output md' h' fuel l (concat (map (zbits n) vs)) = Ok (zbits n (ival n vs e)).
Proof.
  intros Hn Hf Hw. destruct (int_config_new_ok md h l n Hn (fresh_base _ _ Hf)) as (cfg & h1 & E1 & T1 & C1).
  pose proof (bs_built _ _ _ _ _ T1 (fresh_bs _ _ Hf)) as B1.
  destruct (int_vars_ok l h1 l 0 [] cfg n m Hn B1 C1) as (vars & h2 & E2 & Lv & B2 & X2 & C2 & V2 & F2).
  destruct (ibuild_ok md l l _ [] cfg n _ Hn e vars h2 B2 C2 V2) as (z & h3 & E3 & B3 & X3 & C3 & V3 & F3); [by rewrite map_length, seq_length|].
  destruct (int_output_ok l h3 l _ [] cfg n Hn B3 C3 z _ V3) as (h4 & E4 & B4 & M4 & C4).
  exists h4. split; [unfold int_program; by rewrite (st_bind_ok _ _ _ _ _ E1), (st_bind_ok _ _ _ _ _ E2), (st_bind_ok _ _ _ _ _ E3)|].
  cbn [app] in B4. rewrite N.add_0_l in B4.
  assert (Ev : evaluates h4 l (m * n) n (fun bits => zbits n (ival n (zvars (map (fun k ρ => zval (inb (0 + N.of_nat (k * n)) n ρ)) (seq 0 m)) (wires bits)) e))).
  { eapply bs_evaluates; [exact B4|exact (gfs_mv _ _ _ _ _ _ _ _ M4 (iv_val _ _ _ _ _ _ V3))| |apply V3|done].
    apply Forall_forall. intros g Hg.
    eapply (mv_free _ _ _ _ _ M4); [eapply gfs_in; [apply V3|done]| |by intros []%elem_of_nil]. apply F3; [|done]. intros x g0 Hx Hg0. by eapply F2. }
  destruct Ev as (H1 & H2 & H3). split; [done|]. split; [done|]. intros md'. destruct (H3 md') as [depth Hd]. exists depth. intros fuel vs Hfu Hm.
  assert (Hvs : Forall (fun v => length v = n) (map (zbits n) vs)). { apply Forall_map, Forall_forall. intros. apply zbits_length. }
  rewrite Hd; [|done|by rewrite (concat_length _ n), map_length, Hm]. f_equal. apply zbits_inj.
  pose proof (inb_concat _ n Hvs) as Hi. rewrite map_length, Hm in Hi.
  assert (Hz : zvars (map (fun k ρ => zval (inb (0 + N.of_nat (k * n)) n ρ)) (seq 0 m)) (wires (concat (map (zbits n) vs))) = map (fun v => v mod two_p n)%Z vs).
  { unfold zvars. rewrite map_map. apply (f_equal (map zval)) in Hi. rewrite !map_map in Hi. etrans; [exact Hi|]. apply map_ext. intros a. apply zval_zbits. }
  rewrite Hz. apply (ival_mod n m); [done|]. intros k Hk.
  destruct (lookup_lt_is_Some_2 vs k) as [v Hv]; [lia|]. rewrite (nth_lookup_Some _ _ _ _ Hv).
  rewrite (nth_lookup_Some (map (fun v => v mod two_p n)%Z vs) k 0%Z (v mod two_p n)%Z) by (by rewrite list_lookup_fmap, Hv).
  apply Z.mod_mod. pose proof (two_p_pos n). lia.
Qed.
(** Runs a program on the only circuit of a heap and evaluates it. *)
Definition try_program (prog : M unit) (fuel : nat) (ins : list bool) : option (list bool) :=
  match prog blank1 with (Ok _, h') => match eval_output Debug h' fuel 0 ins with Ok o => Some o | _ => None end | _ => None end.
(** ((x + 200) >> 2) - (-z << 3) + (x >= z) on 8 bits, with x = -9 and z = 77. *)
Definition iexp_demo : iexp :=
  IAdd (ISub (IShr (IAdd (IVar 0) (IBig 200)) 2) (IShl (INeg (IVar 1)) 3)) (ITrunc 4 (ICmp CLargerOrEq (IVar 0) (IVar 1))).
Example C45_example : BuildEval.fresh blank1 0 /\ iwf 2 8 iexp_demo /\ ival 8 [-9; 77]%Z iexp_demo = 599%Z /\
  try_program (int_program Debug 0 8 2 iexp_demo) 200 (zbits 8 (-9) ++ zbits 8 77) = Some (zbits 8 599).
Proof.
  split; [apply fresh_blank1|]. split; [cbn [iwf iexp_demo]; repeat split; try lia; exists 1%nat; cbn; lia|]. split; vm_compute; reflexivity.
Qed.

(** * C43 *)
Lemma C45_closed md h l n e : (1 <= n)%nat -> BuildEval.fresh h l -> iwf 0 n e -> exists h', int_program md l n 0 e h = (Ok tt, h') /\
  forall md', exists depth, forall fuel, (depth <= fuel)%nat -> eval_output md' h' fuel l [] = Ok (zbits n (ival n [] e)).
Proof.
  intros Hn Hf Hw. destruct (C45_expressions md h l n 0 e Hn Hf Hw) as (h' & E & _ & _ & Ev). exists h'. split; [done|]. intros md'.
  destruct (Ev md') as [d Hd]. exists d. intros fuel Hfu. by apply (Hd fuel []).
Qed.
(** [v] has at most [n / 8] bytes. *)
Definition fits (v : N) (n : nat) : Prop := exists k, (1 <= k)%nat /\ (8 * k <= n)%nat /\ (v < 256 ^ N.of_nat k)%N.
(** [from_biguint] succeeds exactly when the bytes of [v] fit, and panics otherwise. *)
Theorem C43_from_biguint md h l n v : (1 <= n)%nat -> BuildEval.fresh h l -> exists cfg h1, int_config_new md l n h = (Ok cfg, h1) /\
  (fits v n -> exists z h', int_from_biguint v cfg n h1 = (Ok z, h')) /\ (~ fits v n -> int_from_biguint v cfg n h1 = (Panic PAssert, h1)).
Proof.
  intros Hn Hf. destruct (int_config_new_ok md h l n Hn (fresh_base _ _ Hf)) as (cfg & h1 & E1 & T1 & C1).
  pose proof (bs_built _ _ _ _ _ T1 (fresh_bs _ _ Hf)) as B1. exists cfg, h1. split; [done|]. split.
  - intros Hw%iwf_big. destruct (int_biguint_ok l h1 l 0 [] cfg n Hn B1 C1 v Hw) as (z & h' & E & _). eauto.
  - intros Hw. unfold int_from_biguint. rewrite decide_False; [done|]. rewrite bytes2bits_le_length. intros H. by apply Hw, iwf_big.
Qed.
(** The circuit that outputs it then has the value [v], which is below [2^n]. *)
Theorem C43_from_biguint_value md h l n v : (1 <= n)%nat -> BuildEval.fresh h l -> fits v n -> (Z.of_N v < 2 ^ Z.of_nat n)%Z /\
  exists h', int_program md l n 0 (IBig v) h = (Ok tt, h') /\
  forall md', exists depth, forall fuel, (depth <= fuel)%nat -> eval_output md' h' fuel l [] = Ok (zbits n (Z.of_N v)).
Proof.
  intros Hn Hf Hw. split; [|by apply C45_closed]. destruct Hw as (k & H1 & H2 & H3).
  apply Z.lt_le_trans with (2 ^ (8 * Z.of_nat k))%Z; [|apply Z.pow_le_mono_r; lia]. rewrite Z.pow_mul_r by lia. change (2 ^ 8)%Z with (Z.of_N 256).
  rewrite <- nat_N_Z, <- N2Z.inj_pow. lia.
Qed.
(** With fewer than eight bits every value is refused, zero and one included. *)
Theorem C43_narrow cfg n v h : (n < 8)%nat -> int_from_biguint v cfg n h = (Panic PAssert, h).
Proof.
  intros Hn. unfold int_from_biguint. rewrite decide_False; [done|]. rewrite bytes2bits_le_length. intros H. apply iwf_big in H as (k & H1 & H2 & _). lia.
Qed.
Theorem C43_zero_one md h l n : (1 <= n)%nat -> BuildEval.fresh h l ->
  (exists h', int_program md l n 0 IZero h = (Ok tt, h') /\
   forall md', exists depth, forall fuel, (depth <= fuel)%nat -> eval_output md' h' fuel l [] = Ok (replicate n false)) /\
  (exists h', int_program md l n 0 IOne h = (Ok tt, h') /\
   forall md', exists depth, forall fuel, (depth <= fuel)%nat -> eval_output md' h' fuel l [] = Ok (true :: replicate (n - 1) false)).
Proof.
  intros Hn Hf. split.
  - destruct (C45_closed md h l n IZero Hn Hf) as (h' & E & Ev); [done|]. exists h'. split; [done|]. intros md'. destruct (Ev md') as [d Hd]. exists d.
    intros fuel Hfu. rewrite Hd by done. cbn [ival]. f_equal. rewrite <- (zval_replicate_false n). apply zbits_zval, replicate_length.
  - destruct (C45_closed md h l n IOne Hn Hf) as (h' & E & Ev); [done|]. exists h'. split; [done|]. intros md'. destruct (Ev md') as [d Hd]. exists d.
    intros fuel Hfu. rewrite Hd by done. cbn [ival]. f_equal. change 1%Z with (zval [true]). rewrite zbits_pad by done. done.
Qed.
(** [from_gate_ids] of the first [k] gates of a value keeps its low [k] bits and sets the others to zero; it panics exactly if given more than [n] ids. *)
Theorem C43_from_gate_ids md h l n k : (1 <= n)%nat -> BuildEval.fresh h l -> (k <= n)%nat -> exists h', int_program md l n 1 (ITrunc k (IVar 0)) h = (Ok tt, h') /\
  forall md', exists depth, forall fuel bits, (depth <= fuel)%nat -> length bits = n ->
    eval_output md' h' fuel l bits = Ok (take k bits ++ replicate (n - k) false).
Proof.
  intros Hn Hf Hk. destruct (C45_expressions md h l n 1 (ITrunc k (IVar 0)) Hn Hf) as (h' & E & _ & _ & Ev); [cbn; lia|]. exists h'. split; [done|]. intros md'.
  destruct (Ev md') as [d Hd]. exists d. intros fuel bits Hfu Hl. specialize (Hd fuel [zval bits] Hfu eq_refl). cbn [map concat] in Hd.
  rewrite app_nil_r, zbits_zval in Hd by done. rewrite Hd. f_equal. cbn [ival nth]. fold (two_p k). rewrite <- zval_take, zbits_pad by (rewrite take_length; lia).
  do 2 f_equal. rewrite take_length. lia.
Qed.
Theorem C43_from_gate_ids_panic gs cfg n h : (exists h', int_from_gate_ids gs cfg n h = (Panic PAssert, h')) <-> (n < length gs)%nat.
Proof.
  rewrite <- (C37_from_gate_ids gs (BitsConfig (ic_ref cfg) 0 0 0 0 0 0) n h). unfold int_from_gate_ids, bits_from_gate_ids. cbn [bc_ref].
  case_decide; [|split; intros _; by eexists]. unfold st_bind, st_ret. destruct (b_consts _ _ _ _) as [ [?|?|q|] ?]; split; intros [h' E]; by simplify_eq/=; eexists.
Qed.
Example C43_example : fits 200 8 /\ ~ fits 256 15 /\ ~ fits 0 7 /\ try_program (int_program Debug 0 8 0 (IBig 200)) 50 [] = Some (zbits 8 200) /\
  try_program (int_program Debug 0 15 0 (IBig 256)) 50 [] = None.
Proof.
  split; [exists 1%nat; cbn; lia|]. split; [|split; [|split; vm_compute; reflexivity]]; intros Hw%iwf_big; revert Hw; vm_compute; lia.
Qed.

(** * C44 *)
Theorem C44_shift_left md h l n k : (1 <= n)%nat -> BuildEval.fresh h l -> (k <= n)%nat -> exists h', int_program md l n 1 (IShl (IVar 0) k) h = (Ok tt, h') /\
  forall md', exists depth, forall fuel a, (depth <= fuel)%nat -> eval_output md' h' fuel l (zbits n a) = Ok (zbits n (a * 2 ^ Z.of_nat k)).
Proof.
  intros Hn Hf Hk. destruct (C45_expressions md h l n 1 (IShl (IVar 0) k) Hn Hf) as (h' & E & _ & _ & Ev); [cbn; lia|]. exists h'. split; [done|]. intros md'.
  destruct (Ev md') as [d Hd]. exists d. intros fuel a Hfu. specialize (Hd fuel [a] Hfu eq_refl). cbn [map concat] in Hd. by rewrite app_nil_r in Hd.
Qed.
(** An arithmetic shift: division of the signed value, rounded down. *)
Theorem C44_shift_right md h l n k : (1 <= n)%nat -> BuildEval.fresh h l -> (k <= n)%nat -> exists h', int_program md l n 1 (IShr (IVar 0) k) h = (Ok tt, h') /\
  forall md', exists depth, forall fuel a, (depth <= fuel)%nat -> (- 2 ^ (Z.of_nat n - 1) <= a < 2 ^ (Z.of_nat n - 1))%Z ->
    eval_output md' h' fuel l (zbits n a) = Ok (zbits n (a / 2 ^ Z.of_nat k)).
Proof.
  intros Hn Hf Hk. destruct (C45_expressions md h l n 1 (IShr (IVar 0) k) Hn Hf) as (h' & E & _ & _ & Ev); [cbn; lia|]. exists h'. split; [done|]. intros md'.
  destruct (Ev md') as [d Hd]. exists d. intros fuel a Hfu Ha. specialize (Hd fuel [a] Hfu eq_refl). cbn [map concat] in Hd. rewrite app_nil_r in Hd. rewrite Hd.
  cbn [ival nth]. rewrite signed_id; [done|done|]. by replace (2 ^ (Z.of_nat n - 1))%Z with (two_p (n - 1)) in Ha by (unfold two_p; f_equal; lia).
Qed.
(** Shifting left by more than the width gives an integer that is too long: [k] zero bits. *)
Theorem C44_shift_left_long h l i os cfg n x k : bs l h l i os -> ai_cfg x = cfg -> ic_ref cfg = l -> (n < k)%nat ->
  exists z h', int_shift_left x k n h = (Ok z, h') /\ length (ai_val z) = k /\ gfs h' l (ai_val z) (fun _ => replicate k false).
Proof.
  intros B Hc Hr Hk. destruct (t_consts l h l i os false k B) as (zeros & h1 & E1 & L1 & B1 & M1 & F1). exists (AInt zeros cfg), h1. split; [|done].
  unfold int_shift_left. rewrite Hc, Hr, (st_bind_ok _ _ _ _ _ E1). replace (range k n) with (@nil nat) by (unfold range; by replace (n - k)%nat with 0%nat by lia).
  cbn [st_mapM]. unfold st_bind, st_ret. by rewrite app_nil_r.
Qed.
(** Shifting right by more than the width panics: [N - n] overflows in a debug build, and wraps around to an index out of range in a release build. *)
Theorem C44_shift_right_long md x k n h : (1 <= n)%nat -> length (ai_val x) = n -> (n < k)%nat -> (N.of_nat k < usize_modulus)%N ->
  int_shift_right md x k n h = (Panic (match md with Debug => PArith | Release => PIndex end), h).
Proof.
  intros Hn Hl Hk Hu. unfold int_shift_right. rewrite (st_bind_ok _ _ _ _ _ (usize_sub_n_ok md n 1 h ltac:(lia))).
  destruct (lookup_lt_is_Some_2 (ai_val x) (n - 1)) as [top Ht]; [lia|]. rewrite (st_bind_ok _ _ _ _ _ (st_nth_ok _ _ _ _ Ht)). destruct md.
  - unfold st_bind at 1. by rewrite usize_sub_n_panic.
  - rewrite (st_bind_ok _ _ _ _ _ (usize_sub_n_wrap n k h Hk)).
    set (m := N.to_nat (usize_modulus + N.of_nat n - N.of_nat k)). assert (Hm : (0 < m)%nat) by lia.
    unfold range. rewrite Nat.sub_0_r. destruct m as [|m]; [lia|]. cbn [seq st_mapM plus].
    assert (Hnone : ai_val x !! k = None) by (apply lookup_ge_None_2; lia). unfold st_bind, st_nth. rewrite Hnone. done.
Qed.
Example C44_example : try_program (int_program Debug 0 4 1 (IShr (IVar 0) 2)) 50 (zbits 4 (-6)) = Some (zbits 4 (-2)) /\
  try_program (int_program Debug 0 4 1 (IShl (IVar 0) 3)) 50 (zbits 4 5) = Some (zbits 4 8) /\
  int_shift_right Debug (AInt [0; 1; 2] (IntConfig 0 0 0 0 0 0 0 0 0 0)) 4 3 blank1 = (Panic PArith, blank1).
Proof. split; [|split]; vm_compute; reflexivity. Qed.
