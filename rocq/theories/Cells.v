(** The API of /repo/src/bool_circuit.rs once more, with the borrow flags of the [RefCell]s, and with the guards that [borrow] and
    [borrow_mut] (86-92, 333-339) hand out to the caller. [Circuit.v] has no flags: there the one conflict the code itself can cause, a
    circuit calling itself, is written as an explicit panic. *)
From Verif Require Export Eval.
Open Scope Z_scope.

(** [RefCell]'s borrow flag: 0 when not borrowed, the number of readers when positive, -1 when there is a writer. (The overflow of this
    counter by 2^63 guards is left out.) [ce_c] has one flag per circuit, [ce_s] one per module storage. *)
Record cells := Cells { ce_heap : heap; ce_c : list Z; ce_s : list Z }.
Definition cells_empty : cells := Cells heap_empty [] [].
Definition BM A := ST cells A.
Definition set_c (s : cells) (l : nat) (f : Z) : cells := Cells (ce_heap s) (<[l := f]> (ce_c s)) (ce_s s).
Definition set_s (s : cells) (l : nat) (f : Z) : cells := Cells (ce_heap s) (ce_c s) (<[l := f]> (ce_s s)).
(** Dropping a guard. *)
Definition drop_c (s : cells) (l : nat) (d : Z) : cells := match ce_c s !! l with Some f => set_c s l (f + d) | None => s end.
Definition drop_s (s : cells) (l : nat) (d : Z) : cells := match ce_s s !! l with Some f => set_s s l (f + d) | None => s end.

(** [self.borrow()] and [self.borrow_mut()] of [RefCell]: the guard, or a panic. *)
Definition hold_c (w : bool) (l : nat) : BM unit := fun s =>
  match ce_c s !! l with
  | None => (Panic PDangling, s)
  | Some f => if w then if f =? 0 then (Ok tt, set_c s l (-1)) else (Panic PBorrow, s)
              else if f <? 0 then (Panic PBorrow, s) else (Ok tt, set_c s l (f + 1))
  end.
Definition hold_s (w : bool) (l : nat) : BM unit := fun s =>
  match ce_s s !! l with
  | None => (Panic PDangling, s)
  | Some f => if w then if f =? 0 then (Ok tt, set_s s l (-1)) else (Panic PBorrow, s)
              else if f <? 0 then (Panic PBorrow, s) else (Ok tt, set_s s l (f + 1))
  end.
Definition back (w : bool) : Z := if w then 1 else -1.
(** A call on a temporary guard, [self.borrow_mut().f(..)]: the guard is dropped when [f] has returned or panicked. *)
Definition with_c {A} (w : bool) (l : nat) (m : BM A) : BM A := fun s =>
  match hold_c w l s with
  | (Ok _, s1) => let (r, s2) := m s1 in (r, drop_c s2 l (back w))
  | (Panic p, s1) => (Panic p, s1)
  | (_, s1) => (Panic PBorrow, s1)
  end.
Definition with_s {A} (w : bool) (l : nat) (m : BM A) : BM A := fun s =>
  match hold_s w l s with
  | (Ok _, s1) => let (r, s2) := m s1 in (r, drop_s s2 l (back w))
  | (Panic p, s1) => (Panic p, s1)
  | (_, s1) => (Panic PBorrow, s1)
  end.
(** Work on the contents of the cells. *)
Definition on_heap {A} (m : M A) : BM A := fun s => let (r, h) := m (ce_heap s) in (r, Cells h (ce_c s) (ce_s s)).
(** [Rc::new(RefCell::new(..))] *)
Definition new_c (c : circuit) : BM nat := fun s =>
  (Ok (length (h_circ (ce_heap s))), Cells (Heap (h_circ (ce_heap s) ++ [c]) (h_stor (ce_heap s))) (ce_c s ++ [0]) (ce_s s)).
Definition new_s (x : storage) : BM nat := fun s =>
  (Ok (length (h_stor (ce_heap s))), Cells (Heap (h_circ (ce_heap s)) (h_stor (ce_heap s) ++ [x])) (ce_c s) (ce_s s ++ [0])).

(** [ModuleStorageRef::get_module] (341-346). *)
Definition b_lookup (s : nat) (mid : N) : BM nat :=
  with_s false s (on_heap (x <- get_stor s ;; match module_map x !! mid with Some l' => st_ret l' | None => st_err (EUnknownModule mid) end)).
(** [ModuleStorageRef::register_module] (348-350). *)
Definition b_register (s l' : nat) : BM N := with_s true s (on_heap (s_register s l')).
(** [sub_circuit] (578-583). The new circuit is made before the storage is borrowed; if that panics the circuit is dropped again, so here it is
    made under the guard. *)
Definition b_sub (s : nat) : BM (N * nat) :=
  with_s true s (l' <- new_c (circuit_new s) ;; mid <- on_heap (s_register s l') ;; st_ret (mid, l')).
(** A question to a circuit: [input_len], [output_len], [num_wire], [num_gate], [num_const], [input_to_gate_id], [output_to_gate_id], [get_gate],
    [get_depended_gates], [get_const_gates] (94-120, 126-132); lines 591-595 of [module] ask five of them. *)
Definition b_ask {A} (l' : nat) (f : circuit -> A) : BM A := with_c false l' (on_heap (m <- get_circ l' ;; st_ret (f m))).
(** [get_module] (122-124, 468-473). *)
Definition b_get_module (l : nat) (mid : N) : BM nat := with_c false l (c <- on_heap (get_circ l) ;; b_lookup (c_storage c) mid).
(** [module] (585-618) after the five questions. *)
Definition b_module_body (md : mode) (l : nat) (mid : N) (ids : list N) (il ol : N) (nw : Z) (ng nc : N) : M (list N) :=
  c <- get_circ l ;;
  match c_module md c (Circuit ∅ ∅ ∅ 0%nat ∅ [] il ol nw ng nc 0%N) mid ids with
  | None => st_panic PArith
  | Some (outs, c') => put_circ l c' ;; st_ret outs
  end.
Definition b_module (md : mode) (l : nat) (mid : N) (ids : list N) : BM (list N) :=
  c <- on_heap (get_circ l) ;;
  l' <- b_lookup (c_storage c) mid ;;
  il <- b_ask l' input_len ;; ol <- b_ask l' output_len ;; nw <- b_ask l' num_wire ;; ng <- b_ask l' num_gate ;; nc <- b_ask l' num_const ;;
  on_heap (b_module_body md l mid ids il ol nw ng nc).

Definition b_as_ret {A} (f : A -> ret) (m : BM A) : BM ret := a <- m ;; st_ret (f a).
(** The methods of [NXAOBoolCircuit] that change it (487-618), on a circuit that is already borrowed mutably. [None]: not such a method. *)
Definition b_inner (md : mode) (o : op) : option (nat * BM ret) :=
  match o with
  | OpInput l => Some (l, b_as_ret RGate (on_heap (r_input l)))
  | OpOutput l g => Some (l, b_as_ret RWire (on_heap (r_output l g)))
  | OpConst l b => Some (l, b_as_ret RGate (on_heap (r_constant l b)))
  | OpNot l a => Some (l, b_as_ret RGate (on_heap (r_not l a)))
  | OpXor l a b => Some (l, b_as_ret RGate (on_heap (r_xor l a b)))
  | OpAnd l a b => Some (l, b_as_ret RGate (on_heap (r_and l a b)))
  | OpOr l a b => Some (l, b_as_ret RGate (on_heap (r_or l a b)))
  | OpEquivalent l a b => Some (l, b_as_ret RGate (on_heap (r_equivalent l a b)))
  | OpIdentity l a => Some (l, b_as_ret RGate (on_heap (r_identity l a)))
  | OpRegister l l' => Some (l, b_as_ret RModule (c <- on_heap (get_circ l) ;; on_heap (get_circ l') ;; b_register (c_storage c) l'))
  | OpSub l => Some (l, b_as_ret (fun p => RSub p.1 p.2) (c <- on_heap (get_circ l) ;; b_sub (c_storage c)))
  | OpModule l mid ids => Some (l, b_as_ret RGates (b_module md l mid ids))
  | OpNewStorage | OpNewCircuit _ | OpClone _ | OpPut _ _ => None
  end.
(** The methods of [BoolCircuitRef] (94-204), the constructors and [ModuleStorageRef::register_module] (348-350). *)
Definition b_op (md : mode) (o : op) : BM ret :=
  match o with
  | OpNewStorage => b_as_ret RStorage (new_s storage_new)
  | OpNewCircuit s => b_as_ret RCircuit (on_heap (get_stor s) ;; new_c (circuit_new s))
  | OpClone l => b_as_ret RCircuit (c <- with_c false l (on_heap (get_circ l)) ;; new_c c)
  | OpPut s l' => b_as_ret RModule (on_heap (get_circ l') ;; b_register s l')
  | _ => match b_inner md o with Some (l, m) => with_c true l m | None => st_panic PDangling end
  end.

(** What a caller can do: call a method on a handle, take a guard and drop it, call a method through a guard on a mutably borrowed circuit. *)
Inductive event :=
| EvCall (o : op)
| EvHoldC (w : bool) (l : nat) | EvDropC (w : bool) (l : nat)
| EvHoldS (w : bool) (s : nat) | EvDropS (w : bool) (s : nat)
| EvGuard (o : op).
(** Dropping, or using, a guard needs one: Rust's types see to that, here nothing happens otherwise. *)
Definition b_event (md : mode) (e : event) : BM (option ret) :=
  match e with
  | EvCall o => r <- b_op md o ;; st_ret (Some r)
  | EvHoldC w l => hold_c w l ;; st_ret None
  | EvHoldS w l => hold_s w l ;; st_ret None
  | EvDropC w l => fun s => match ce_c s !! l with
      | Some f => if (if w then f =? -1 else 0 <? f) then (Ok None, drop_c s l (back w)) else (Ok None, s)
      | None => (Ok None, s) end
  | EvDropS w l => fun s => match ce_s s !! l with
      | Some f => if (if w then f =? -1 else 0 <? f) then (Ok None, drop_s s l (back w)) else (Ok None, s)
      | None => (Ok None, s) end
  | EvGuard o => match b_inner md o with
      | Some (l, m) => fun s => if bool_decide (ce_c s !! l = Some (-1)) then (r <- m ;; st_ret (Some r)) s else (Ok None, s)
      | None => st_ret None end
  end.
Definition b_step (md : mode) (s : cells) (e : event) : cells := snd (b_event md e s).
Definition b_run (md : mode) (es : list event) : cells := fold_left (b_step md) es cells_empty.

(** * The evaluator (/repo/src/evaluator.rs)
    It changes no cell and holds no guard across calls, so the flags are constant while it runs; it borrows a circuit (and the storage, when a
    module is looked up) for reading whenever it looks at it. [lc], [ls]: the flags are negative. *)
Section eval.
Context (lc ls : nat -> bool).
(** As [eval_output_with] (Eval.v), lines 33-61. *)
Definition be_output_with (h : heap) (eg : nat -> N -> ST estate unit) (l : nat) (inputs : list bool) : res (list bool) :=
  if lc l then Panic PBorrow else eval_output_with h eg l inputs.
(** As [eval_gate] (Eval.v), lines 110-268. *)
Fixpoint be_gate (md : mode) (h : heap) (fuel : nat) (l : nat) (g : N) : ST estate unit :=
  match fuel with
  | O => fun s => (NoFuel, s)
  | S fuel =>
    if lc l then st_panic PBorrow else
    match h_circ h !! l with
    | None => st_panic PDangling
    | Some c =>
      match gate_map c !! g with
      | None => st_err (EUnknownGate g)
      | Some (GInput _) => st_ret tt
      | Some (GConst b) => e_insert c g b
      | Some (GNot a) =>
        e_need (be_gate md h fuel l) a ;;
        x <- e_get a ;; e_decr md a ;; e_insert c g (negb x)
      | Some (GXor a b) => e_binary md c (be_gate md h fuel l) xorb g a b
      | Some (GAnd a b) => e_binary md c (be_gate md h fuel l) andb g a b
      | Some (GOr a b) => e_binary md c (be_gate md h fuel l) orb g a b
      | Some (GModule il ol ids oi mid) =>
        bits <- st_mapM (fun id => e_need (be_gate md h fuel l) id ;; e_get id) ids ;;
        if ls (c_storage c) then st_panic PBorrow else
        match h_stor h !! c_storage c with
        | None => st_panic PDangling
        | Some x =>
          match module_map x !! mid with
          | None => st_err (EUnknownModule mid)
          | Some l' =>
            outs <- st_lift (be_output_with h (be_gate md h fuel) l' bits) ;;
            st_iterM (e_decr md) ids ;;
            first <- st_lift (usize_sub md g oi) ;;
            e_insert_outputs c first outs 0 (N.to_nat ol)
          end
        end
      end
    end
  end.
End eval.
(** Is the cell borrowed mutably? *)
Definition writing (fs : list Z) (l : nat) : bool := match fs !! l with Some f => f <? 0 | None => false end.
(** As [eval_output] (Eval.v). *)
Definition be_output (md : mode) (s : cells) (fuel : nat) (l : nat) (inputs : list bool) : res (list bool) :=
  be_output_with (writing (ce_c s)) (ce_heap s) (be_gate (writing (ce_c s)) (writing (ce_s s)) md (ce_heap s) fuel) l inputs.
