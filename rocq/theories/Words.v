(** The size counters as machine words. [Circuit.v] keeps [num_wire], [num_gate] and [num_const] as unbounded numbers. Calling modules from
    modules lets them grow exponentially, so here the API of /repo/src/bool_circuit.rs is modelled once more with these three counters as usize
    values, and with every addition and subtraction checked or wrapped as the build mode says. [num_wire] is stored as a non-negative [Z].
    [input_len], [output_len], [gate_index] and [num_module] stay unbounded: each unit of them is an entry of a map or one call. *)
From Verif Require Export Writer.
Open Scope N_scope.
Open Scope list_scope.

(** [self.num_wire += k] *)
Definition m_wires (md : mode) (k : N) : ST circuit unit := fun c =>
  match usize_add md (Z.to_N (num_wire c)) k with
  | Ok w => (Ok tt, Circuit (input_map c) (output_map c) (gate_map c) (c_storage c) (dep_map c) (const_gates c)
                      (input_len c) (output_len c) (Z.of_N w) (num_gate c) (num_const c) (gate_index c))
  | _ => (Panic PArith, c)
  end.
(** [self.num_gate += k] *)
Definition m_gates (md : mode) (k : N) : ST circuit unit := fun c =>
  match usize_add md (num_gate c) k with
  | Ok w => (Ok tt, Circuit (input_map c) (output_map c) (gate_map c) (c_storage c) (dep_map c) (const_gates c)
                      (input_len c) (output_len c) (num_wire c) w (num_const c) (gate_index c))
  | _ => (Panic PArith, c)
  end.
(** [self.num_const += k] *)
Definition m_consts (md : mode) (k : N) : ST circuit unit := fun c =>
  match usize_add md (num_const c) k with
  | Ok w => (Ok tt, Circuit (input_map c) (output_map c) (gate_map c) (c_storage c) (dep_map c) (const_gates c)
                      (input_len c) (output_len c) (num_wire c) (num_gate c) w (gate_index c))
  | _ => (Panic PArith, c)
  end.
(** [add_gate] (682-688): the gate is in the map before [num_wire] is incremented. *)
Definition m_add_gate (md : mode) (g : gate) : ST circuit N := fun c =>
  (m_wires md 1 ;; st_ret (gate_index c))
    (Circuit (input_map c) (output_map c) (<[gate_index c := g]> (gate_map c)) (c_storage c) (dep_map c) (const_gates c)
       (input_len c) (output_len c) (num_wire c) (num_gate c) (num_const c) (gate_index c + 1)).
(** [add_dependence] (690-706) *)
Definition m_dep (a g : N) : ST circuit unit := fun c => (Ok tt, add_dependence c a g).
(** [input] (487-496) *)
Definition m_input (md : mode) : ST circuit N := fun c =>
  let w := input_len c in
  (g <- m_add_gate md (GInput w) ;;
   fun c => (Ok g, Circuit (<[w := Some g]> (input_map c)) (output_map c) (gate_map c) (c_storage c) (dep_map c) (const_gates c)
                     (input_len c) (output_len c) (num_wire c) (num_gate c) (num_const c) (gate_index c)))
    (Circuit (input_map c) (output_map c) (gate_map c) (c_storage c) (dep_map c) (const_gates c)
       (input_len c + 1) (output_len c) (num_wire c) (num_gate c) (num_const c) (gate_index c)).
(** [constant] (508-514) *)
Definition m_constant (md : mode) (b : bool) : ST circuit N :=
  g <- m_add_gate md (GConst b) ;;
  (fun c => (Ok tt, Circuit (input_map c) (output_map c) (gate_map c) (c_storage c) (dep_map c) (const_gates c ++ [g])
                      (input_len c) (output_len c) (num_wire c) (num_gate c) (num_const c) (gate_index c))) ;;
  m_consts md 1 ;;
  st_ret g.
(** [not] (516-522) *)
Definition m_not (md : mode) (a : N) : ST circuit N :=
  g <- m_add_gate md (GNot a) ;; m_dep a g ;; m_gates md 1 ;; st_ret g.
(** [xor] (524-534), [and] (536-546), [or] (548-558) *)
Definition m_binary (md : mode) (gt : gate) (a b : N) : ST circuit N :=
  g <- m_add_gate md gt ;; m_dep a g ;; m_dep b g ;; m_gates md 1 ;; st_ret g.
(** [equivalent] (560-567) *)
Definition m_equivalent (md : mode) (a b : N) : ST circuit N := x <- m_binary md (GXor a b) a b ;; m_not md x.
(** [identity] (569-572) *)
Definition m_identity (md : mode) (a : N) : ST circuit N := x <- m_not md a ;; m_not md x.
(** The gates of [module] (599-611). *)
Fixpoint m_module_gates (md : mode) (in_len out_len : N) (ids : list N) (mid : N) (i : N) (k : nat) : ST circuit (list N) :=
  match k with
  | O => st_ret []
  | S k => g <- m_add_gate md (GModule in_len out_len ids i mid) ;; gs <- m_module_gates md in_len out_len ids mid (i + 1) k ;; st_ret (g :: gs)
  end.
(** [module] (585-618) once the module circuit [m] is known. *)
Definition m_module (md : mode) (m : circuit) (mid : N) (ids : list N) : ST circuit (list N) :=
  d1 <- st_lift (usize_sub md (Z.to_N (num_wire m)) (input_len m)) ;;
  d <- st_lift (usize_sub md d1 (output_len m)) ;;
  m_wires md d ;;
  m_gates md (num_gate m) ;;
  m_consts md (num_const m) ;;
  outs <- m_module_gates md (input_len m) (output_len m) ids mid 0 (N.to_nat (output_len m)) ;;
  (fun c => (Ok tt, add_module_deps c ids outs)) ;;
  st_ret outs.

(** The API on handles, as in [Circuit.v]. A panicking call leaves what it has done so far. *)
Definition m_on (l : nat) {A} (m : ST circuit A) : M A := c <- get_circ l ;; let (r, c') := m c in put_circ l c' ;; st_lift r.
Definition m_call (md : mode) (l : nat) (mid : N) (ids : list N) : M (list N) :=
  l' <- r_get_module l mid ;;
  if decide (l' = l) then st_panic PBorrow else
  m <- get_circ l' ;;
  m_on l (m_module md m mid ids).
Definition m_run_op (md : mode) (o : op) : M ret :=
  match o with
  | OpInput l => as_ret RGate (m_on l (m_input md))
  | OpConst l b => as_ret RGate (m_on l (m_constant md b))
  | OpNot l a => as_ret RGate (m_on l (m_not md a))
  | OpXor l a b => as_ret RGate (m_on l (m_binary md (GXor a b) a b))
  | OpAnd l a b => as_ret RGate (m_on l (m_binary md (GAnd a b) a b))
  | OpOr l a b => as_ret RGate (m_on l (m_binary md (GOr a b) a b))
  | OpEquivalent l a b => as_ret RGate (m_on l (m_equivalent md a b))
  | OpIdentity l a => as_ret RGate (m_on l (m_identity md a))
  | OpModule l mid ids => as_ret RGates (m_call md l mid ids)
  | _ => run_op md o
  end.
Definition m_step (md : mode) (h : heap) (o : op) : heap := snd (m_run_op md o h).
Definition m_run (md : mode) (ops : list op) : heap := fold_left (m_step md) ops heap_empty.

Open Scope string_scope.
(** [write] (192-245) with the sums of the header (202, 205) and of the first free wire (240) on words. *)
Definition m_write (md : mode) (h : heap) (fuel : nat) (num_first_input : N) (given : wmap) : WM (list bool * wmap) :=
  c <- w_circ h ;;
  wires <- st_lift (usize_add md (Z.to_N (num_wire c)) (num_const c)) ;;
  w_write (show_N (num_gate c) ++ " " ++ show_N wires ++ nl) ;;
  num_all_input <- st_lift (usize_add md (input_len c) (num_const c)) ;;
  (if (num_first_input <=? num_all_input)%N then st_ret tt else st_panic PAssert) ;;
  w_write ("2 " ++ show_N num_first_input ++ " " ++ show_N (num_all_input - num_first_input) ++ nl) ;;
  w_write ("1 " ++ show_N (output_len c) ++ nl) ;;
  w_write nl ;;
  w_set_cow ∅ ;;
  wog <- write_inputs h (N.to_nat (input_len c) + size (input_map c) + 1) (write_single h fuel) (N.to_nat (input_len c)) 0 given ;;
  w_set_const (input_len c) ;;
  st <- w_get ;;
  num <- st_lift (usize_add md (w_num st) (num_const c)) ;;
  w_set_num num ;;
  wog <- write_all h (write_single h fuel) wog ;;
  st <- w_get ;;
  vals <- st_mapM (w_key (w_cow st)) (map (fun i => input_len c + i)%N (nrange (w_const st - input_len c))) ;;
  st_ret (vals, wog).
Close Scope string_scope.
