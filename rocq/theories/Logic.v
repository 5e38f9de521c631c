(** Model of the bit-vector circuits (/repo/src/circuits/logic/mod.rs). *)
From Verif Require Export Circuit.
Open Scope list_scope.

(** A [BoolCircuitRef] is a location [l]; widths are [nat]. [md] is the build mode, which matters to [module] only. *)

(** [for _ in 0..n { v.push(sub_ref.input()?) }], the loop at the beginning of every builder (e.g. 228-231, 245-250). *)
Definition b_inputs (l : nat) (n : nat) : M (list N) := st_mapM (fun _ => r_input l) (seq 0 n).
(** [for _ in 0..n { v.push(c_ref.constant(b)?) }] *)
Definition b_consts (l : nat) (b : bool) (n : nat) : M (list N) := st_mapM (fun _ => r_constant l b) (seq 0 n).
(** [let out = f(i)?; sub_ref.output(out)?;] *)
Definition b_output (l : nat) (g : N) : M unit := r_output l g ;; st_ret tt.

(** [build_not_circuit] (223-237). *)
Definition build_not (l : nat) (n : nat) : M N :=
  '(mid, s) <- r_sub_circuit l ;;
  inputs <- b_inputs s n ;;
  st_iterM (fun i => a <- st_nth inputs i ;; out <- r_not s a ;; b_output s out) (seq 0 n) ;;
  st_ret mid.
(** [build_and_circuit] (239-257), [build_or_circuit] (259-277), [build_xor_circuit] (279-297) differ in the gate [f] only. *)
Definition build_binary (f : nat -> N -> N -> M N) (l : nat) (n : nat) : M N :=
  '(mid, s) <- r_sub_circuit l ;;
  a_inputs <- b_inputs s n ;;
  b_inputs <- b_inputs s n ;;
  st_iterM (fun i => a <- st_nth a_inputs i ;; b <- st_nth b_inputs i ;; out <- f s a b ;; b_output s out) (seq 0 n) ;;
  st_ret mid.
Definition build_and := build_binary r_and.
Definition build_or := build_binary r_or.
Definition build_xor := build_binary r_xor.
(** [build_eq_circuit] (299-320). *)
Definition build_eq (l : nat) (n : nat) : M N :=
  '(mid, s) <- r_sub_circuit l ;;
  a_inputs <- b_inputs s n ;;
  b_inputs <- b_inputs s n ;;
  eq_bit <- r_constant s true ;;
  eq_bit <- st_foldM (fun eq_bit i => a <- st_nth a_inputs i ;; b <- st_nth b_inputs i ;; is_eq <- r_equivalent s a b ;; r_and s eq_bit is_eq)
    eq_bit (seq 0 n) ;;
  b_output s eq_bit ;;
  st_ret mid.
(** [build_neq_circuit] (322-343). *)
Definition build_neq (md : mode) (l : nat) (n : nat) (eq_mid : N) : M N :=
  '(mid, s) <- r_sub_circuit l ;;
  a_inputs <- b_inputs s n ;;
  b_inputs <- b_inputs s n ;;
  outs <- r_module md s eq_mid (a_inputs ++ b_inputs) ;;
  eq_bit <- st_nth outs 0 ;;
  neq_bit <- r_not s eq_bit ;;
  b_output s neq_bit ;;
  st_ret mid.

(** [AllocBitsConfig] (191-200) and [AllocBitsConfig::new] (202-221). *)
Record bits_config := BitsConfig { bc_ref : nat; bc_not : N; bc_and : N; bc_or : N; bc_xor : N; bc_eq : N; bc_neq : N }.
Definition bits_config_new (md : mode) (l : nat) (n : nat) : M bits_config :=
  not_mid <- build_not l n ;;
  and_mid <- build_and l n ;;
  or_mid <- build_or l n ;;
  xor_mid <- build_xor l n ;;
  eq_mid <- build_eq l n ;;
  neq_mid <- build_neq md l n eq_mid ;;
  st_ret (BitsConfig l not_mid and_mid or_mid xor_mid eq_mid neq_mid).

(** [AllocBits] (6-10). The constant parameter [N] is the argument [n] of the functions. *)
Record abits := ABits { ab_bits : list N; ab_cfg : bits_config }.
(** [AllocBits::new] (13-24). *)
Definition bits_new (cfg : bits_config) (n : nat) : M abits := v <- b_inputs (bc_ref cfg) n ;; st_ret (ABits v cfg).
(** [from_gate_ids] (26-39). *)
Definition bits_from_gate_ids (bits : list N) (cfg : bits_config) (n : nat) : M abits :=
  if decide (length bits <= n)%nat then
    pad <- b_consts (bc_ref cfg) false (n - length bits) ;; st_ret (ABits (bits ++ pad) cfg)
  else st_panic PAssert.
(** [output] (41-47). *)
Definition bits_output (x : abits) (n : nat) : M unit :=
  st_iterM (fun i => g <- st_nth (ab_bits x) i ;; b_output (bc_ref (ab_cfg x)) g) (seq 0 n).
(** The call [new_ref.module(&mid, &inputs)?[0]] of [eq] (49-55) and [neq] (57-63). *)
Definition call_bit (md : mode) (l : nat) (mid : N) (inputs : list N) : M N := outs <- r_module md l mid inputs ;; st_nth outs 0.
Definition bits_eq (md : mode) (x y : abits) : M N := call_bit md (bc_ref (ab_cfg x)) (bc_eq (ab_cfg x)) (ab_bits x ++ ab_bits y).
Definition bits_neq (md : mode) (x y : abits) : M N := call_bit md (bc_ref (ab_cfg x)) (bc_neq (ab_cfg x)) (ab_bits x ++ ab_bits y).
(** [mux] (65-79). *)
Definition bits_mux (x true_bits : abits) (select_bit : N) (n : nat) : M abits :=
  let l := bc_ref (ab_cfg x) in
  not_s <- r_not l select_bit ;;
  sel <- st_mapM (fun i =>
    a <- st_nth (ab_bits x) i ;; false_bit <- r_and l a not_s ;;
    b <- st_nth (ab_bits true_bits) i ;; true_bit <- r_and l b select_bit ;;
    r_xor l false_bit true_bit) (seq 0 n) ;;
  st_ret (ABits sel (ab_cfg x)).
(** [!x] (82-96), [x & y] (98-114), [x | y] (116-132), [x ^ y] (134-150); the assigning forms (152-189) make the same call and store the
    result in [x]. An error of [module] becomes a panic ([expect]). *)
Definition call_bits (md : mode) (mid : N) (inputs : list N) (cfg : bits_config) : M abits :=
  outs <- st_expect (r_module md (bc_ref cfg) mid inputs) ;; st_ret (ABits outs cfg).
Definition bits_not (md : mode) (x : abits) : M abits := call_bits md (bc_not (ab_cfg x)) (ab_bits x) (ab_cfg x).
Definition bits_and (md : mode) (x y : abits) : M abits := call_bits md (bc_and (ab_cfg x)) (ab_bits x ++ ab_bits y) (ab_cfg x).
Definition bits_or (md : mode) (x y : abits) : M abits := call_bits md (bc_or (ab_cfg x)) (ab_bits x ++ ab_bits y) (ab_cfg x).
Definition bits_xor (md : mode) (x y : abits) : M abits := call_bits md (bc_xor (ab_cfg x)) (ab_bits x ++ ab_bits y) (ab_cfg x).
