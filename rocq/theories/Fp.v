(** Model of the prime field circuits (/repo/src/circuits/finite_field/mod.rs). *)
From Verif Require Export Int.
Open Scope list_scope.

(** [int_config.c_ref = sub_ref.clone()]. *)
Definition with_ref (cfg : int_config) (s : nat) : int_config :=
  IntConfig s (ic_add cfg) (ic_sub cfg) (ic_mul cfg) (ic_eq cfg) (ic_neq cfg) (ic_less cfg) (ic_less_or_eq cfg) (ic_larger cfg) (ic_larger_or_eq cfg).
(** [build_add_circuit] (211-238). *)
Definition fp_build_add (md : mode) (l : nat) (cfg : int_config) (n : nat) (p : N) : M N :=
  '(mid, s) <- r_sub_circuit l ;;
  let cfg := with_ref cfg s in
  x <- int_new cfg n ;;
  y <- int_new cfg n ;;
  p_int <- int_from_biguint p cfg n ;;
  sum <- int_add md x y ;;
  is_plus_larger <- int_larger md sum p_int n ;;
  is_plus_larger_int <- int_from_gate_ids [is_plus_larger] cfg n ;;
  zero <- int_zero cfg n ;;
  minus_zero <- int_neg md zero n ;;
  is_minus_less <- int_less md sum minus_zero n ;;
  is_minus_less_int <- int_from_gate_ids [is_minus_less] cfg n ;;
  or_bit <- r_or s is_plus_larger is_minus_less ;;
  else_bit <- r_not s or_bit ;;
  else_int <- int_from_gate_ids [else_bit] cfg n ;;
  d <- int_sub md sum p_int ;;
  a <- int_mul md is_plus_larger_int d ;;
  e <- int_add md sum p_int ;;
  b <- int_mul md is_minus_less_int e ;;
  ab <- int_add md a b ;;
  c <- int_mul md else_int sum ;;
  out <- int_add md ab c ;;
  int_output out n ;;
  st_ret mid.
(** [build_sub_circuit] (240-256). *)
Definition fp_build_sub (md : mode) (l : nat) (cfg : int_config) (n : nat) (add_mid : N) : M N :=
  '(mid, s) <- r_sub_circuit l ;;
  let cfg := with_ref cfg s in
  x <- int_new cfg n ;;
  y <- int_new cfg n ;;
  y <- int_neg md y n ;;
  outs <- r_module md s add_mid (ai_val x ++ ai_val y) ;;
  out <- int_from_gate_ids outs cfg n ;;
  int_output out n ;;
  st_ret mid.
(** [build_mul_circuit] (258-280). *)
Definition fp_build_mul (md : mode) (l : nat) (cfg : int_config) (n : nat) (r2 : N) (mont_red_mid : N) : M N :=
  '(mid, s) <- r_sub_circuit l ;;
  let cfg := with_ref cfg s in
  x <- int_new cfg n ;;
  y <- int_new cfg n ;;
  lr <- int_mul md x y ;;
  outs <- r_module md s mont_red_mid (ai_val lr) ;;
  lr_mod <- int_from_gate_ids outs cfg n ;;
  r2_int <- int_from_biguint r2 cfg n ;;
  lr_mod_r2 <- int_mul md lr_mod r2_int ;;
  outs <- r_module md s mont_red_mid (ai_val lr_mod_r2) ;;
  out <- int_from_gate_ids outs cfg n ;;
  int_output out n ;;
  st_ret mid.
(** [build_mont_red] (282-315); [clear_bits] is its loop (298-300), which replaces the entries [r_exp..N] of the vector. *)
Definition clear_bits (s : nat) (false_bit : N) (r_exp n : nat) (v : list N) : M (list N) :=
  st_foldM (fun v i => g <- st_nth v i ;; g' <- r_and s g false_bit ;; st_ret (<[i := g']> v)) v (range r_exp n).
Definition fp_build_mont_red (md : mode) (l : nat) (cfg : int_config) (n : nat) (p p_minus_inv : N) (r_exp : nat) : M N :=
  '(mid, s) <- r_sub_circuit l ;;
  let cfg := with_ref cfg s in
  val <- int_new cfg n ;;
  p_int <- int_from_biguint p cfg n ;;
  p_minus_inv_int <- int_from_biguint p_minus_inv cfg n ;;
  val_pi <- int_mul md val p_minus_inv_int ;;
  false_bit <- r_constant s false ;;
  v <- clear_bits s false_bit r_exp n (ai_val val_pi) ;;
  let val_pi := AInt v (ai_cfg val_pi) in
  val_pi_p <- int_mul md val_pi p_int ;;
  val_val_pi_p <- int_add md val val_pi_p ;;
  t <- int_shift_right md val_val_pi_p r_exp n ;;
  is_larger_or_eq <- int_larger_or_eq md t p_int n ;;
  is_larger_or_eq_int <- int_from_gate_ids [is_larger_or_eq] cfg n ;;
  one <- int_one cfg n ;;
  else_int <- int_sub md one is_larger_or_eq_int ;;
  p_subed_t <- int_sub md t p_int ;;
  a <- int_mul md is_larger_or_eq_int p_subed_t ;;
  b <- int_mul md else_int t ;;
  out <- int_sub md a b ;;
  int_output out n ;;
  st_ret mid.

(** [AllocFpConfig] (167-179) and [AllocFpConfig::new] (181-209). The subtraction of [BigUint]s panics when it would be negative. *)
Record fp_config := FpConfig { fc_ref : nat; fc_int : int_config; fc_p : N; fc_p_minus_inv : N; fc_r_exp : nat; fc_r2 : N; fc_add : N; fc_sub : N; fc_mul : N;
  fc_mont_red : N }.
Definition big_sub (a b : N) : M N := if b <=? a then st_ret (a - b) else st_panic PArith.
Definition fp_r (r_exp : nat) : N := N.shiftl 1 (N.of_nat r_exp).
Definition fp_r2 (r_exp : nat) : N := (fp_r r_exp * fp_r r_exp) mod (fp_r r_exp).
Definition fp_config_new (md : mode) (l : nat) (icfg : int_config) (n : nat) (p : N) (r_exp : nat) : M fp_config :=
  let r := fp_r r_exp in
  let r2 := fp_r2 r_exp in
  p_inv <- st_lift (mod_inv (Z.of_N p) (Z.of_N r)) ;;
  p_minus_inv <- big_sub r (Z.to_N p_inv) ;;
  add_mid <- fp_build_add md l icfg n p ;;
  sub_mid <- fp_build_sub md l icfg n add_mid ;;
  mont_red_mid <- fp_build_mont_red md l icfg n p p_minus_inv r_exp ;;
  mul_mid <- fp_build_mul md l icfg n r2 mont_red_mid ;;
  st_ret (FpConfig l icfg p p_minus_inv r_exp r2 add_mid sub_mid mul_mid mont_red_mid).

(** [AllocFp] (8-12). *)
Record afp := AFp { af_val : aint; af_cfg : fp_config }.
(** [new] (15-19), [from_gate_ids_unchecked] (21-28), [from_biguint_unchecked] (30-37), [output] (39-41), [zero] (47-53), [one] (55-61), [eq] (63-65), [neq] (67-69). *)
Definition fp_new (cfg : fp_config) (n : nat) : M afp := v <- int_new (fc_int cfg) n ;; st_ret (AFp v cfg).
Definition fp_from_gate_ids (v : list N) (cfg : fp_config) (n : nat) : M afp := v <- st_expect (int_from_gate_ids v (fc_int cfg) n) ;; st_ret (AFp v cfg).
Definition fp_from_biguint (v : N) (cfg : fp_config) (n : nat) : M afp := v <- st_expect (int_from_biguint v (fc_int cfg) n) ;; st_ret (AFp v cfg).
Definition fp_output (x : afp) (n : nat) : M unit := int_output (af_val x) n.
Definition fp_zero (cfg : fp_config) (n : nat) : M afp := v <- int_zero (fc_int cfg) n ;; st_ret (AFp v cfg).
Definition fp_one (cfg : fp_config) (n : nat) : M afp := v <- int_one (fc_int cfg) n ;; st_ret (AFp v cfg).
Definition fp_eq (md : mode) (x y : afp) (n : nat) : M N := int_eq md (af_val x) (af_val y) n.
Definition fp_neq (md : mode) (x y : afp) (n : nat) : M N := int_neq md (af_val x) (af_val y) n.
(** [+] (80-93), [-] (95-108), [*] (110-123) and their assigning forms (125-165). *)
Definition fp_call (f : fp_config -> N) (md : mode) (x y : afp) (n : nat) : M afp :=
  outs <- st_expect (r_module md (fc_ref (af_cfg x)) (f (af_cfg x)) (ai_val (af_val x) ++ ai_val (af_val y))) ;; fp_from_gate_ids outs (af_cfg x) n.
Definition fp_add := fp_call fc_add.
Definition fp_sub := fp_call fc_sub.
Definition fp_mul := fp_call fc_mul.
(** unary [-] (72-78). *)
Definition fp_neg (md : mode) (x : afp) (n : nat) : M afp := zero <- st_expect (fp_zero (af_cfg x) n) ;; fp_sub md zero x n.
