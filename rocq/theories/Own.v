(** Ownership: who keeps circuits and storages alive.

    A circuit ([NXAOBoolCircuit] behind [BoolCircuitRef] = [Rc<RefCell<_>>], bool_circuit.rs 73-110) owns one handle of its
    storage (404-409), a storage owns one handle of every registered module (361-367). Cells are freed by [Rc]'s reference
    counts only: there is no [Weak] in the crate. The heap of Circuit.v keeps every cell for ever; here the strong counts and
    the handles in the hands of the caller are added to it. *)
From Verif Require Export OpFacts.

Local Open Scope nat_scope.

(** A reference counted cell: a circuit or a storage, by its location. *)
Notation obj := (nat + nat)%type.

(** The handles inside a cell: [NXAOBoolCircuit::module_storage] (bool_circuit.rs 408) and the values of
    [ModuleStorage::module_map] (363). *)
Definition children (h : heap) (x : obj) : list obj :=
  match x with
  | inl l => match h_circ h !! l with Some c => [inr (c_storage c)] | None => [] end
  | inr s => match h_stor h !! s with Some y => (fun p => inl p.2) <$> map_to_list (module_map y) | None => [] end
  end.

(** Strong counts of the live cells: a cell is freed when its entry goes. *)
Notation counts := (gmap obj nat).

(** A new cell, or [Rc::clone] (82-84, 329-331). *)
Definition inc (x : obj) (n : counts) : counts := <[x := S (default 0 (n !! x))]> n.

(** The drop of handles: the [Drop] of [Rc] decrements the count; at the last handle the cell is freed and the drop glue of its
    content drops the handles in it. The order in which the handles are dropped is that of a work list. [None]: a handle of a
    freed cell, or no fuel. *)
Fixpoint drain (fuel : nat) (h : heap) (todo : list obj) (n : counts) : option counts :=
  match todo with
  | [] => Some n
  | x :: r =>
    match fuel with
    | O => None
    | S f =>
      match n !! x with
      | None | Some 0 => None
      | Some 1 => drain f h (children h x ++ r) (delete x n)
      | Some (S k) => drain f h r (<[x := k]> n)
      end
    end
  end.

(** The total of the counts: each drop takes one away. *)
Definition total (n : counts) : nat := map_fold (fun _ k a => k + a) 0 n.

(** The heap, the counts and the handles of the caller. [Evaluator], [BristolWriter], [AllocInt], … own handles by value: these
    are handles of the caller. *)
Record owner := Owner { o_heap : heap; o_cnt : counts; o_held : list obj }.
Definition owner_empty : owner := Owner heap_empty ∅ [].

(** What the caller may do with handles. *)
Inductive action :=
| ACall (o : op)               (* a call of the API *)
| ADup (x : obj)               (* [BoolCircuitRef::clone] (82-84), [ModuleStorageRef::clone] (329-331) *)
| AGet (l : nat) (mid : N)     (* [get_module] (126-128) *)
| AField (l : nat)             (* [circuit.borrow().module_storage.clone()] *)
| ADrop (x : obj).             (* the end of a handle's life *)

(** The handles an action uses: borrow rules of Rust, the caller can only name what they hold. *)
Definition uses (a : action) : list obj :=
  match a with
  | ACall o =>
    match o with
    | OpNewStorage => []
    | OpNewCircuit s => [inr s]
    | OpClone l | OpInput l | OpOutput l _ | OpConst l _ | OpNot l _ | OpXor l _ _ | OpAnd l _ _ | OpOr l _ _
    | OpEquivalent l _ _ | OpIdentity l _ | OpSub l | OpModule l _ _ => [inl l]
    | OpRegister l l' => [inl l; inl l']
    | OpPut s l' => [inr s; inl l']
    end
  | ADup x | ADrop x => [x]
  | AGet l _ | AField l => [inl l]
  end.

(** One handle less. *)
Fixpoint take_out (x : obj) (xs : list obj) : list obj :=
  match xs with [] => [] | y :: r => if decide (x = y) then r else y :: take_out x r end.

(** A call of the API.
    - [ModuleStorageRef::new] (325-327) returns a handle.
    - [NXAOBoolCircuit::new] (665) takes the handle of the storage by value; [to_ref] returns a handle.
    - [clone] of a circuit (derived, 404) clones the storage handle.
    - [register_module] (395-400) stores a clone of the module's handle.
    - [sub_circuit] (578-583): the new circuit holds a clone of the storage handle, the storage a clone of the new handle, which
      is also returned.
    - [module] (585-618) clones the module's handle and drops the clone on return; the other calls touch no handle, and neither
      does a call that fails. *)
Definition call (md : mode) (o : op) (σ : owner) : owner :=
  let h := o_heap σ in
  let '(r, h') := run_op md o h in
  match o, r with
  | OpNewStorage, Ok (RStorage s) => Owner h' (inc (inr s) (o_cnt σ)) (inr s :: o_held σ)
  | OpNewCircuit s, Ok (RCircuit l) => Owner h' (inc (inl l) (o_cnt σ)) (inl l :: take_out (inr s) (o_held σ))
  | OpClone l, Ok (RCircuit l') => Owner h' (foldr inc (o_cnt σ) (inl l' :: children h (inl l))) (inl l' :: o_held σ)
  | OpRegister _ l', Ok _ | OpPut _ l', Ok _ => Owner h' (inc (inl l') (o_cnt σ)) (o_held σ)
  | OpSub l, Ok (RSub _ l') => Owner h' (foldr inc (o_cnt σ) (inl l' :: inl l' :: children h (inl l))) (inl l' :: o_held σ)
  | _, _ => Owner h' (o_cnt σ) (o_held σ)
  end.

(** [BoolCircuitRef::get_module] (126-128, through 468-473, 341-346 and 382-390): the handle found, if any. *)
Definition got (h : heap) (l : nat) (mid : N) : list obj :=
  match h_circ h !! l with
  | Some c => match h_stor h !! c_storage c with
              | Some y => match module_map y !! mid with Some l' => [inl l'] | None => [] end
              | None => []
              end
  | None => []
  end.

(** One action; [None] only if a drop goes wrong. *)
Definition act (md : mode) (a : action) (σ : owner) : option owner :=
  let '(Owner h n held) := σ in
  match a with
  | ACall o => Some (call md o σ)
  | ADup x => Some (Owner h (inc x n) (x :: held))
  | AGet l mid => Some (Owner h (foldr inc n (got h l mid)) (got h l mid ++ held))
  | AField l => Some (Owner h (foldr inc n (children h (inl l))) (children h (inl l) ++ held))
  | ADrop x => n' ← drain (total n) h [x] n; Some (Owner h n' (take_out x held))
  end.

(** Histories of a caller who uses only handles they hold. *)
Inductive owned (md : mode) : owner -> Prop :=
| owned_start : owned md owner_empty
| owned_act a σ σ' : owned md σ -> Forall (fun x => x ∈ o_held σ) (uses a) -> act md a σ = Some σ' -> owned md σ'.
(** … from a given state on. *)
Inductive onwards (md : mode) (σ : owner) : owner -> Prop :=
| onwards_refl : onwards md σ σ
| onwards_act a σ' σ'' : onwards md σ σ' -> Forall (fun x => x ∈ o_held σ') (uses a) -> act md a σ' = Some σ'' -> onwards md σ σ''.

(** A cell that has not been freed. *)
Definition live (σ : owner) (x : obj) : Prop := is_Some (o_cnt σ !! x).

(** The derived [Debug] of circuits and storages (bool_circuit.rs 73, 321, 361, 404): it formats the handles inside a cell by
    formatting the cells behind them ([Rc] and [RefCell] do), with no mark on the cells being formatted. [false]: not finished
    at a nesting of [fuel] cells. The other fields are plain data and always finish. *)
Fixpoint formats (fuel : nat) (h : heap) (x : obj) : bool :=
  match fuel with O => false | S f => forallb (formats f h) (children h x) end.
