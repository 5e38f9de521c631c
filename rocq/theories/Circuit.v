(** Model of /repo/src/gates.rs and /repo/src/bool_circuit.rs. *)
From Verif Require Export Base.

(** [NXAOBoolGate] (/repo/src/gates.rs 89-98) and its payload structs (136-260). Ids are [u64] newtypes, here [N]. *)
Inductive gate :=
| GInput (w : N)
| GConst (b : bool)
| GNot (a : N)
| GXor (a b : N)
| GAnd (a b : N)
| GOr (a b : N)
| GModule (in_len out_len : N) (ids : list N) (out_index : N) (mid : N).

Global Instance gate_eq_dec : EqDecision gate.
Proof. solve_decision. Defined.

(** [Gate::input_len] (/repo/src/gates.rs 101-111 and impls). *)
Definition gate_input_len (g : gate) : N :=
  match g with
  | GInput _ | GConst _ => 0 | GNot _ => 1 | GXor _ _ | GAnd _ _ | GOr _ _ => 2
  | GModule n _ _ _ _ => n
  end.
(** [Gate::output_len] (/repo/src/gates.rs 112-122 and impls). *)
Definition gate_output_len (g : gate) : N :=
  match g with GModule _ m _ _ _ => m | _ => 1 end.
(** [Gate::to_str] (/repo/src/gates.rs 123-133 and impls). *)
Definition gate_to_str (g : gate) : string :=
  match g with
  | GInput _ => "INPUT" | GConst _ => "CONST" | GNot _ => "INV" | GXor _ _ => "XOR"
  | GAnd _ _ => "AND" | GOr _ _ => "OR" | GModule _ _ _ _ _ => "MODULE"
  end.

(** [NXAOBoolCircuit] (/repo/src/bool_circuit.rs 404-420). [module_storage : ModuleStorageRef] is a location of the storage heap.
    [num_wire] is kept as the mathematical integer ([Z]) because [module] subtracts from it: in a Debug build a negative
    intermediate value is a panic, in a Release build the stored usize is this integer modulo 2^64. The other counters are
    unbounded; [Words.v] models all three size counters as usize values. *)
Record circuit := Circuit {
  input_map : gmap N (option N);
  output_map : gmap N N;
  gate_map : gmap N gate;
  c_storage : nat;
  dep_map : gmap N (list N);
  const_gates : list N;
  input_len : N;
  output_len : N;
  num_wire : Z;
  num_gate : N;
  num_const : N;
  gate_index : N;
}.

(** [NXAOBoolCircuit::new] (665-680). *)
Definition circuit_new (s : nat) : circuit :=
  Circuit ∅ ∅ ∅ s ∅ [] 0 0 0%Z 0 0 0.

(** [ModuleStorage] (361-367); [fix_input_map] is never used by live code and omitted. *)
Record storage := Storage { module_map : gmap N nat; num_module : N }.
(** [ModuleStorage::new] (370-380). *)
Definition storage_new : storage := Storage ∅ 0.

(** The heap behind the [Rc<RefCell<_>>] handles: [BoolCircuitRef] (73-80) is an index into [h_circ], [ModuleStorageRef]
    (321-327) an index into [h_stor]; cloning a handle (82-84, 329-331) copies the index. An owned [NXAOBoolCircuit] is a heap
    cell with one handle. *)
Record heap := Heap { h_circ : list circuit; h_stor : list storage }.
Definition heap_empty : heap := Heap [] [].
Definition M A := ST heap A.

Definition get_circ (l : nat) : M circuit := fun h =>
  match h_circ h !! l with Some c => (Ok c, h) | None => (Panic PDangling, h) end.
Definition put_circ (l : nat) (c : circuit) : M unit := fun h =>
  (Ok tt, Heap (<[l := c]> (h_circ h)) (h_stor h)).
Definition get_stor (s : nat) : M storage := fun h =>
  match h_stor h !! s with Some c => (Ok c, h) | None => (Panic PDangling, h) end.
Definition put_stor (s : nat) (x : storage) : M unit := fun h =>
  (Ok tt, Heap (h_circ h) (<[s := x]> (h_stor h))).
Definition alloc_circ (c : circuit) : M nat := fun h =>
  (Ok (length (h_circ h)), Heap (h_circ h ++ [c]) (h_stor h)).
Definition alloc_stor (x : storage) : M nat := fun h =>
  (Ok (length (h_stor h)), Heap (h_circ h) (h_stor h ++ [x])).

(** [add_gate] (682-688). *)
Definition add_gate (c : circuit) (g : gate) : N * circuit :=
  (gate_index c,
   Circuit (input_map c) (output_map c) (<[gate_index c := g]> (gate_map c)) (c_storage c) (dep_map c) (const_gates c)
     (input_len c) (output_len c) (num_wire c + 1)%Z (num_gate c) (num_const c) (gate_index c + 1)).

(** [add_dependence] (690-706): the [get_mut] after [is_none] cannot fail, so the function is total. *)
Definition add_dependence (c : circuit) (input_id self_id : N) : circuit :=
  Circuit (input_map c) (output_map c) (gate_map c) (c_storage c)
    (<[input_id := default [] (dep_map c !! input_id) ++ [self_id]]> (dep_map c)) (const_gates c)
    (input_len c) (output_len c) (num_wire c) (num_gate c) (num_const c) (gate_index c).

(** [self.num_gate += k] *)
Definition bump_num_gate (c : circuit) (k : N) : circuit :=
  Circuit (input_map c) (output_map c) (gate_map c) (c_storage c) (dep_map c) (const_gates c)
    (input_len c) (output_len c) (num_wire c) (num_gate c + k) (num_const c) (gate_index c).

(** [input] (487-496). *)
Definition c_input (c : circuit) : N * circuit :=
  let w := input_len c in
  let c1 := Circuit (input_map c) (output_map c) (gate_map c) (c_storage c) (dep_map c) (const_gates c)
              (input_len c + 1) (output_len c) (num_wire c) (num_gate c) (num_const c) (gate_index c) in
  let (g, c2) := add_gate c1 (GInput w) in
  (g, Circuit (<[w := Some g]> (input_map c2)) (output_map c2) (gate_map c2) (c_storage c2) (dep_map c2) (const_gates c2)
        (input_len c2) (output_len c2) (num_wire c2) (num_gate c2) (num_const c2) (gate_index c2)).

(** [output] (498-506). *)
Definition c_output (c : circuit) (g : N) : res N * circuit :=
  match gate_map c !! g with
  | None => (Err (EUnknownGate g), c)
  | Some _ =>
    let w := output_len c in
    (Ok w, Circuit (input_map c) (<[w := g]> (output_map c)) (gate_map c) (c_storage c) (dep_map c) (const_gates c)
             (input_len c) (output_len c + 1) (num_wire c) (num_gate c) (num_const c) (gate_index c))
  end.

(** [constant] (508-514). *)
Definition c_constant (c : circuit) (b : bool) : N * circuit :=
  let (g, c1) := add_gate c (GConst b) in
  (g, Circuit (input_map c1) (output_map c1) (gate_map c1) (c_storage c1) (dep_map c1) (const_gates c1 ++ [g])
        (input_len c1) (output_len c1) (num_wire c1) (num_gate c1) (num_const c1 + 1) (gate_index c1)).

(** [not] (516-522). Operands are not checked to exist, here and in [xor], [and], [or]. *)
Definition c_not (c : circuit) (a : N) : N * circuit :=
  let (g, c1) := add_gate c (GNot a) in
  (g, bump_num_gate (add_dependence c1 a g) 1).

(** [xor] (524-534), [and] (536-546), [or] (548-558): same shape. *)
Definition c_binary (c : circuit) (gt : gate) (a b : N) : N * circuit :=
  let (g, c1) := add_gate c gt in
  (g, bump_num_gate (add_dependence (add_dependence c1 a g) b g) 1).
Definition c_xor (c : circuit) (a b : N) := c_binary c (GXor a b) a b.
Definition c_and (c : circuit) (a b : N) := c_binary c (GAnd a b) a b.
Definition c_or (c : circuit) (a b : N) := c_binary c (GOr a b) a b.

(** [equivalent] (560-567). *)
Definition c_equivalent (c : circuit) (a b : N) : N * circuit :=
  let (x, c1) := c_xor c a b in c_not c1 x.
(** [identity] (569-572). *)
Definition c_identity (c : circuit) (a : N) : N * circuit :=
  let (x, c1) := c_not c a in c_not c1 x.

(** The [(0..output_len).map(|i| add_gate(Module ..))] of [module] (599-611). *)
Fixpoint add_module_gates (c : circuit) (in_len out_len : N) (ids : list N) (mid : N) (i : N) (k : nat) : list N * circuit :=
  match k with
  | O => ([], c)
  | S k =>
    let (g, c1) := add_gate c (GModule in_len out_len ids i mid) in
    let (gs, c2) := add_module_gates c1 in_len out_len ids mid (i + 1) k in
    (g :: gs, c2)
  end.

(** The nested loops of [module] (612-616). *)
Definition add_module_deps (c : circuit) (ids outs : list N) : circuit :=
  fold_left (fun c i => fold_left (fun c o => add_dependence c i o) outs c) ids c.

(** [module] (585-618) once the module circuit [m] is known. [None]: usize underflow in
    [num_wire - input_len - output_len] (596), before any update. *)
Definition c_module (md : mode) (c m : circuit) (mid : N) (ids : list N) : option (list N * circuit) :=
  let d := (num_wire m - Z.of_N (input_len m) - Z.of_N (output_len m))%Z in
  match md, (d <? 0)%Z with
  | Debug, true => None
  | _, _ =>
    let c1 := Circuit (input_map c) (output_map c) (gate_map c) (c_storage c) (dep_map c) (const_gates c)
                (input_len c) (output_len c) (num_wire c + d)%Z (num_gate c + num_gate m) (num_const c + num_const m)
                (gate_index c) in
    let (outs, c2) := add_module_gates c1 (input_len m) (output_len m) ids mid 0 (N.to_nat (output_len m)) in
    Some (outs, add_module_deps c2 ids outs)
  end.

(** * The API on handles ([BoolCircuitRef], 76-222) *)
Definition on_circ {A} (l : nat) (f : circuit -> A * circuit) : M A :=
  c <- get_circ l ;; let (a, c') := f c in put_circ l c' ;; st_ret a.

Definition r_input (l : nat) : M N := on_circ l c_input.
Definition r_output (l : nat) (g : N) : M N := r <- on_circ l (fun c => c_output c g) ;; st_lift r.
Definition r_constant (l : nat) (b : bool) : M N := on_circ l (fun c => c_constant c b).
Definition r_not (l : nat) (a : N) : M N := on_circ l (fun c => c_not c a).
Definition r_xor (l : nat) (a b : N) : M N := on_circ l (fun c => c_xor c a b).
Definition r_and (l : nat) (a b : N) : M N := on_circ l (fun c => c_and c a b).
Definition r_or (l : nat) (a b : N) : M N := on_circ l (fun c => c_or c a b).
Definition r_equivalent (l : nat) (a b : N) : M N := on_circ l (fun c => c_equivalent c a b).
Definition r_identity (l : nat) (a : N) : M N := on_circ l (fun c => c_identity c a).

(** [ModuleStorage::register_module] (392-397). *)
Definition s_register (s : nat) (l' : nat) : M N :=
  x <- get_stor s ;;
  put_stor s (Storage (<[num_module x := l']> (module_map x)) (num_module x + 1)) ;;
  st_ret (num_module x).
(** [NXAOBoolCircuit::register_module] (574-576). The argument is a valid handle ([get_circ l']); it is only cloned, never borrowed. *)
Definition r_register (l l' : nat) : M N :=
  c <- get_circ l ;; get_circ l' ;; s_register (c_storage c) l'.
(** [sub_circuit] (578-583). The storage handle is valid ([get_stor]). *)
Definition r_sub_circuit (l : nat) : M (N * nat) :=
  c <- get_circ l ;;
  get_stor (c_storage c) ;;
  l' <- alloc_circ (circuit_new (c_storage c)) ;;
  mid <- s_register (c_storage c) l' ;;
  st_ret (mid, l').
(** [get_module] (468-473 via [ModuleStorage::get_module] 382-390). *)
Definition r_get_module (l : nat) (mid : N) : M nat :=
  c <- get_circ l ;; x <- get_stor (c_storage c) ;;
  match module_map x !! mid with Some l' => st_ret l' | None => st_err (EUnknownModule mid) end.
(** [ModuleStorageRef::get_module] (341-346) and [num_module] (352-354), called directly on a storage. *)
Definition s_get_module (s : nat) (mid : N) : M nat :=
  x <- get_stor s ;;
  match module_map x !! mid with Some l' => st_ret l' | None => st_err (EUnknownModule mid) end.
Definition s_num_module (s : nat) : M N := x <- get_stor s ;; st_ret (num_module x).
(** [BoolCircuitRef::module] (198-204): [self] stays mutably borrowed, so asking the module circuit for its sizes (591-595)
    panics when it is the same cell. *)
Definition r_module (md : mode) (l : nat) (mid : N) (ids : list N) : M (list N) :=
  l' <- r_get_module l mid ;;
  if decide (l' = l) then st_panic PBorrow else
  m <- get_circ l' ;;
  c <- get_circ l ;;
  match c_module md c m mid ids with
  | None => st_panic PArith
  | Some (outs, c') => put_circ l c' ;; st_ret outs
  end.

(** Read-only API (427-485). *)
Definition c_input_to_gate_id (c : circuit) (w : N) : res (option N) :=
  match input_map c !! w with Some o => Ok o | None => Err (EUnknownInput w) end.
Definition c_output_to_gate_id (c : circuit) (w : N) : res N :=
  match output_map c !! w with Some o => Ok o | None => Err (EUnknownOutput w) end.
Definition c_get_gate (c : circuit) (g : N) : res gate :=
  match gate_map c !! g with Some o => Ok o | None => Err (EUnknownGate g) end.
Definition c_get_depended_gates (c : circuit) (g : N) : list N := default [] (dep_map c !! g).
Definition c_get_const_gates (c : circuit) : list N := const_gates c.

(** [impl PartialEq for NXAOBoolCircuit] (647-660). *)
Definition circuit_eqb (c d : circuit) : bool :=
  bool_decide (input_map c = input_map d) && bool_decide (output_map c = output_map d)
  && bool_decide (gate_map c = gate_map d) && bool_decide (dep_map c = dep_map d)
  && bool_decide (const_gates c = const_gates d) && bool_decide (input_len c = input_len d)
  && bool_decide (output_len c = output_len d) && bool_decide (num_wire c = num_wire d)
  && bool_decide (num_gate c = num_gate d) && bool_decide (gate_index c = gate_index d).

(** * Histories of API calls *)
Inductive op :=
| OpNewStorage                          (* ModuleStorageRef::new (325-327) *)
| OpNewCircuit (s : nat)                (* NXAOBoolCircuit::new(..).to_ref() (665-680, 423-425) *)
| OpClone (l : nat)                     (* deep copy of a circuit: #[derive(Clone)] on NXAOBoolCircuit (404) *)
| OpInput (l : nat)
| OpOutput (l : nat) (g : N)
| OpConst (l : nat) (b : bool)
| OpNot (l : nat) (a : N)
| OpXor (l : nat) (a b : N)
| OpAnd (l : nat) (a b : N)
| OpOr (l : nat) (a b : N)
| OpEquivalent (l : nat) (a b : N)
| OpIdentity (l : nat) (a : N)
| OpRegister (l l' : nat)
| OpSub (l : nat)
| OpModule (l : nat) (mid : N) (ids : list N)
| OpPut (s l' : nat).                   (* ModuleStorageRef::register_module on the storage itself (348-350) *)

(** What a call returns to the caller. *)
Inductive ret :=
| RStorage (s : nat) | RCircuit (l : nat) | RGate (g : N) | RWire (w : N) | RModule (m : N) | RSub (m : N) (l : nat)
| RGates (gs : list N).

Definition as_ret {A} (f : A -> ret) (m : M A) : M ret := a <- m ;; st_ret (f a).

Definition run_op (md : mode) (o : op) : M ret :=
  match o with
  | OpNewStorage => as_ret RStorage (alloc_stor storage_new)
  | OpNewCircuit s => as_ret RCircuit (get_stor s ;; alloc_circ (circuit_new s))
  | OpClone l => as_ret RCircuit (c <- get_circ l ;; alloc_circ c)
  | OpInput l => as_ret RGate (r_input l)
  | OpOutput l g => as_ret RWire (r_output l g)
  | OpConst l b => as_ret RGate (r_constant l b)
  | OpNot l a => as_ret RGate (r_not l a)
  | OpXor l a b => as_ret RGate (r_xor l a b)
  | OpAnd l a b => as_ret RGate (r_and l a b)
  | OpOr l a b => as_ret RGate (r_or l a b)
  | OpEquivalent l a b => as_ret RGate (r_equivalent l a b)
  | OpIdentity l a => as_ret RGate (r_identity l a)
  | OpRegister l l' => as_ret RModule (r_register l l')
  | OpSub l => as_ret (fun p => RSub p.1 p.2) (r_sub_circuit l)
  | OpModule l mid ids => as_ret RGates (r_module md l mid ids)
  | OpPut s l' => as_ret RModule (get_circ l' ;; s_register s l')
  end.

(** One step and a whole history; the state survives a failing or panicking (caught) call. *)
Definition step (md : mode) (h : heap) (o : op) : heap := snd (run_op md o h).
Definition run (md : mode) (ops : list op) : heap := fold_left (step md) ops heap_empty.
