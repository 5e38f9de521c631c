(** Model of the integer circuits (/repo/src/circuits/arithmetic/int.rs). *)
From Verif Require Export Logic Utils.
Open Scope list_scope.

(** The constant parameter [N] is the argument [n : nat] of the functions; [usize] subtractions that can underflow are [usize_sub]. *)
Definition usize_sub_n (md : mode) (a b : nat) : M nat := r <- st_lift (usize_sub md (N.of_nat a) (N.of_nat b)) ;; st_ret (N.to_nat r).
(** [a..b] for nat bounds: empty when [b <= a]. *)
Definition range (a b : nat) : list nat := seq a (b - a).
(** [v[0..n]]. *)
Definition st_slice (v : list N) (n : nat) : M (list N) := if decide (n <= length v)%nat then st_ret (take n v) else st_panic PIndex.

(** [build_add_circuit] (307-345). The vectors [gs] and [ps] are the components of one list of pairs. *)
Definition build_add (l : nat) (n : nat) : M N :=
  '(sub_mid, s) <- r_sub_circuit l ;;
  a_inputs <- b_inputs s n ;;
  b_inputs <- b_inputs s n ;;
  gps <- st_mapM (fun i => a <- st_nth a_inputs i ;; b <- st_nth b_inputs i ;; g <- r_and s a b ;; p <- r_or s a b ;; st_ret (g, p)) (range 0 n) ;;
  let gs := map fst gps in let ps := map snd gps in
  g0 <- st_nth gs 0 ;;
  cs <- st_foldM (fun cs i => p <- st_nth ps i ;; c_pre <- st_nth cs (i - 1)%nat ;; pc_pre <- r_and s p c_pre ;; g <- st_nth gs i ;;
      c <- r_or s g pc_pre ;; st_ret (cs ++ [c])) [g0] (range 1 n) ;;
  a0 <- st_nth a_inputs 0 ;; b0 <- st_nth b_inputs 0 ;;
  first_s <- r_xor s a0 b0 ;;
  b_output s first_s ;;
  st_iterM (fun i => a <- st_nth a_inputs i ;; b <- st_nth b_inputs i ;; a_xor_b <- r_xor s a b ;; c <- st_nth cs (i - 1)%nat ;;
      x <- r_xor s a_xor_b c ;; b_output s x) (range 1 n) ;;
  st_ret sub_mid.
(** [build_sub_circuit] (347-378). *)
Definition build_sub (md : mode) (l : nat) (n : nat) (add_mid : N) : M N :=
  '(sub_mid, s) <- r_sub_circuit l ;;
  a_inputs <- b_inputs s n ;;
  b_inputs <- b_inputs s n ;;
  b_fliped <- st_mapM (fun i => b <- st_nth b_inputs i ;; r_not s b) (range 0 n) ;;
  one <- r_constant s true ;;
  zeros <- st_mapM (fun _ => r_constant s false) (range 1 n) ;;
  comp_b <- r_module md s add_mid (b_fliped ++ [one] ++ zeros) ;;
  results <- r_module md s add_mid (a_inputs ++ comp_b) ;;
  st_iterM (b_output s) results ;;
  st_ret sub_mid.
(** [build_mul_circuit] (380-420). *)
Definition build_mul (md : mode) (l : nat) (n : nat) (add_mid : N) : M N :=
  '(sub_mid, s) <- r_sub_circuit l ;;
  a_inputs <- b_inputs s n ;;
  b_inputs <- b_inputs s n ;;
  sum <- b_consts s false n ;;
  sum <- st_foldM (fun sum i =>
      zeros <- b_consts s false i ;;
      ands <- st_mapM (fun j => a <- st_nth a_inputs j ;; b <- st_nth b_inputs i ;; r_and s a b) (range 0 (n - i)) ;;
      r_module md s add_mid (sum ++ zeros ++ ands)) sum (range 0 n) ;;
  st_iterM (fun i => x <- st_nth sum i ;; b_output s x) (range 0 n) ;;
  st_ret sub_mid.
(** [build_mul_extend_circuit] (422-466). *)
Definition build_mul_extend (md : mode) (l : nat) (n : nat) (add_mid : N) : M N :=
  '(sub_mid, s) <- r_sub_circuit l ;;
  a_inputs <- b_inputs s n ;;
  b_inputs <- b_inputs s n ;;
  sum <- b_consts s false (2 * n) ;;
  sum <- st_foldM (fun sum i =>
      zeros <- b_consts s false i ;;
      ands <- st_mapM (fun j => a <- st_nth a_inputs j ;; b <- st_nth b_inputs i ;; r_and s a b) (range 0 n) ;;
      zeros' <- b_consts s false (n - i) ;;
      r_module md s add_mid (sum ++ zeros ++ ands ++ zeros')) sum (range 0 n) ;;
  st_iterM (fun i => x <- st_nth sum i ;; b_output s x) (range 0 (2 * n)) ;;
  st_ret sub_mid.
(** [build_less_circuit] (468-490). *)
Definition build_less (md : mode) (l : nat) (n : nat) (suber_mid : N) : M N :=
  '(sub_mid, s) <- r_sub_circuit l ;;
  a_inputs <- b_inputs s n ;;
  b_inputs <- b_inputs s n ;;
  sub <- r_module md s suber_mid (a_inputs ++ b_inputs) ;;
  one <- r_constant s true ;;
  k <- usize_sub_n md n 1 ;;
  top <- st_nth sub k ;;
  is_less <- r_equivalent s top one ;;
  b_output s is_less ;;
  st_ret sub_mid.
(** [build_less_or_eq_circuit] (492-515). *)
Definition build_less_or_eq (md : mode) (l : nat) (n : nat) (less_mid eq_mid : N) : M N :=
  '(sub_mid, s) <- r_sub_circuit l ;;
  a_inputs <- b_inputs s n ;;
  b_inputs <- b_inputs s n ;;
  is_less <- call_bit md s less_mid (a_inputs ++ b_inputs) ;;
  is_eq <- call_bit md s eq_mid (a_inputs ++ b_inputs) ;;
  is_less_or_eq <- r_or s is_less is_eq ;;
  b_output s is_less_or_eq ;;
  st_ret sub_mid.
(** [build_larger_circuit] (517-538) and [build_larger_or_eq_circuit] (540-561) negate the bit of the module they are given. *)
Definition build_negated (md : mode) (l : nat) (n : nat) (mid : N) : M N :=
  '(sub_mid, s) <- r_sub_circuit l ;;
  a_inputs <- b_inputs s n ;;
  b_inputs <- b_inputs s n ;;
  bit <- call_bit md s mid (a_inputs ++ b_inputs) ;;
  not_bit <- r_not s bit ;;
  b_output s not_bit ;;
  st_ret sub_mid.
Definition build_larger (md : mode) (l : nat) (n : nat) (less_or_eq_mid : N) : M N := build_negated md l n less_or_eq_mid.
Definition build_larger_or_eq (md : mode) (l : nat) (n : nat) (less_mid : N) : M N := build_negated md l n less_mid.

(** [AllocIntConfig] (266-278) and [AllocIntConfig::new] (280-305). *)
Record int_config := IntConfig { ic_ref : nat; ic_add : N; ic_sub : N; ic_mul : N; ic_eq : N; ic_neq : N; ic_less : N; ic_less_or_eq : N;
  ic_larger : N; ic_larger_or_eq : N }.
Definition int_config_new (md : mode) (l : nat) (n : nat) : M int_config :=
  add_mid <- build_add l n ;;
  sub_mid <- build_sub md l n add_mid ;;
  mul_mid <- build_mul md l n add_mid ;;
  eq_mid <- build_eq l n ;;
  neq_mid <- build_neq md l n eq_mid ;;
  less_mid <- build_less md l n sub_mid ;;
  less_or_eq_mid <- build_less_or_eq md l n less_mid eq_mid ;;
  larger_mid <- build_larger md l n less_or_eq_mid ;;
  larger_or_eq_mid <- build_larger_or_eq md l n less_mid ;;
  st_ret (IntConfig l add_mid sub_mid mul_mid eq_mid neq_mid less_mid less_or_eq_mid larger_mid larger_or_eq_mid).

(** [AllocInt] (7-12). *)
Record aint := AInt { ai_val : list N; ai_cfg : int_config }.
(** [new] (15-23). *)
Definition int_new (cfg : int_config) (n : nat) : M aint := v <- b_inputs (ic_ref cfg) n ;; st_ret (AInt v cfg).
(** [from_gate_ids] (25-38). *)
Definition int_from_gate_ids (v : list N) (cfg : int_config) (n : nat) : M aint :=
  if decide (length v <= n)%nat then
    pad <- b_consts (ic_ref cfg) false (n - length v) ;; st_ret (AInt (v ++ pad) cfg)
  else st_panic PAssert.
(** [BigUint::to_bytes_le] (num-bigint): the base 256 digits without leading zeros, [vec![0]] for zero. *)
Fixpoint bytes_loop (fuel : nat) (v : N) : list N :=
  match fuel with
  | O => []
  | S fuel => if v =? 0 then [] else v mod 256 :: bytes_loop fuel (v / 256)
  end.
Definition to_bytes_le (v : N) : list N := if v =? 0 then [0] else bytes_loop (N.size_nat v) v.
(** [from_biguint] (40-61). *)
Definition int_from_biguint (v : N) (cfg : int_config) (n : nat) : M aint :=
  let bits := bytes2bits_le (to_bytes_le v) in
  if decide (length bits <= n)%nat then
    val <- st_mapM (fun i => b <- st_nth bits i ;; r_constant (ic_ref cfg) b) (range 0 (length bits)) ;;
    pad <- b_consts (ic_ref cfg) false (n - length bits) ;;
    st_ret (AInt (val ++ pad) cfg)
  else st_panic PAssert.
(** [output] (63-69). *)
Definition int_output (x : aint) (n : nat) : M unit :=
  st_iterM (fun i => g <- st_nth (ai_val x) i ;; b_output (ic_ref (ai_cfg x)) g) (range 0 n).
(** [zero] (71-73), [one] (75-80). *)
Definition int_zero (cfg : int_config) (n : nat) : M aint := int_from_gate_ids [] cfg n.
Definition int_one (cfg : int_config) (n : nat) : M aint := t <- r_constant (ic_ref cfg) true ;; int_from_gate_ids [t] cfg n.
(** [eq] (82-88), [neq] (90-96), [less] (98-104), [less_or_eq] (106-112), [larger] (114-120), [larger_or_eq] (122-128). *)
Definition int_cmp (f : int_config -> N) (md : mode) (x y : aint) (n : nat) : M N :=
  a <- st_slice (ai_val x) n ;; b <- st_slice (ai_val y) n ;; call_bit md (ic_ref (ai_cfg x)) (f (ai_cfg x)) (a ++ b).
Definition int_eq := int_cmp ic_eq.
Definition int_neq := int_cmp ic_neq.
Definition int_less := int_cmp ic_less.
Definition int_less_or_eq := int_cmp ic_less_or_eq.
Definition int_larger := int_cmp ic_larger.
Definition int_larger_or_eq := int_cmp ic_larger_or_eq.
(** [shift_left] (130-145). *)
Definition int_shift_left (x : aint) (k : nat) (n : nat) : M aint :=
  zeros <- b_consts (ic_ref (ai_cfg x)) false k ;;
  rest <- st_mapM (fun i => st_nth (ai_val x) (i - k)) (range k n) ;;
  st_ret (AInt (zeros ++ rest) (ai_cfg x)).
(** [shift_right] (147-162). *)
Definition int_shift_right (md : mode) (x : aint) (k : nat) (n : nat) : M aint :=
  top <- usize_sub_n md n 1 ;;
  sign_bit <- st_nth (ai_val x) top ;;
  m <- usize_sub_n md n k ;;
  low <- st_mapM (fun i => st_nth (ai_val x) (i + k)) (range 0 m) ;;
  m' <- usize_sub_n md n k ;;
  high <- st_mapM (fun _ => st_ret sign_bit) (range m' n) ;;
  st_ret (AInt (low ++ high) (ai_cfg x)).
(** [+] (173-189), [-] (191-207), [*] (209-225) and their assigning forms (227-264); an error of [module] becomes a panic. *)
Definition int_call (f : int_config -> N) (md : mode) (x y : aint) : M aint :=
  outs <- st_expect (r_module md (ic_ref (ai_cfg x)) (f (ai_cfg x)) (ai_val x ++ ai_val y)) ;; st_ret (AInt outs (ai_cfg x)).
Definition int_add := int_call ic_add.
Definition int_sub := int_call ic_sub.
Definition int_mul := int_call ic_mul.
(** unary [-] (165-171). *)
Definition int_neg (md : mode) (x : aint) (n : nat) : M aint := zero <- st_expect (int_zero (ai_cfg x) n) ;; int_sub md zero x.
