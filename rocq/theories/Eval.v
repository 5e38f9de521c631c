(** Model of /repo/src/evaluator.rs. *)
From Verif Require Export Circuit.

(** The two maps threaded through the evaluation of one circuit ([evaled_map], [num_depend_map], lines 37-38). *)
Record estate := EState { evaled : gmap N bool; ndep : gmap N N }.

Definition num_deps (c : circuit) (g : N) : N := N.of_nat (length (c_get_depended_gates c g)).

(** [evaled_map.insert(id, b); num_depend_map.insert(id, get_depended_gates(id).len())] (e.g. 139-141). *)
Definition e_insert (c : circuit) (id : N) (b : bool) : ST estate unit := fun s =>
  (Ok tt, EState (<[id := b]> (evaled s)) (<[id := num_deps c id]> (ndep s))).

(** [evaled_map.get(&id).ok_or(UnknownEvaledBit(id))?] (e.g. 129-131). *)
Definition e_get (id : N) : ST estate bool := fun s =>
  match evaled s !! id with Some b => (Ok b, s) | None => (Err (EUnknownEvaledBit id), s) end.

(** Decrement the number of pending uses and evict at zero (e.g. 133-137). *)
Definition e_decr (md : mode) (id : N) : ST estate unit := fun s =>
  match ndep s !! id with
  | None => (Panic PKey, s)
  | Some n =>
    match usize_sub md n 1 with
    | Ok n' =>
      if n' =? 0 then (Ok tt, EState (delete id (evaled s)) (delete id (ndep s)))
      else (Ok tt, EState (evaled s) (<[id := n']> (ndep s)))
    | _ => (Panic PArith, s)
    end
  end.

(** [if evaled_map.get(&id).is_none() { self.eval_single_gate(&id, ..)?; }] (e.g. 126-128). *)
Definition e_need (eg : N -> ST estate unit) (id : N) : ST estate unit := fun s =>
  match evaled s !! id with Some _ => (Ok tt, s) | None => eg id s end.

(** The binary gates (144-233). *)
Definition e_binary (md : mode) (c : circuit) (eg : N -> ST estate unit) (f : bool -> bool -> bool) (g a b : N) : ST estate unit :=
  e_need eg a ;; e_need eg b ;;
  x <- e_get a ;; y <- e_get b ;;
  e_decr md a ;; e_decr md b ;;
  e_insert c g (f x y).

(** [for i in 0..output_len { insert(first + i, output_bits[i]) }] (259-264). *)
Fixpoint e_insert_outputs (c : circuit) (first : N) (bits : list bool) (i : N) (k : nat) : ST estate unit :=
  match k with
  | O => st_ret tt
  | S k =>
    b <- st_nth bits (N.to_nat i) ;;
    e_insert c (first + i) b ;;
    e_insert_outputs c first bits (i + 1) k
  end.

(** The [while] loop that loads the inputs (42-53). [k] bounds the number of wires visited: every visited wire is a key of
    [input_map] except the last one, so [length inputs + size of input_map + 1] iterations always suffice. *)
Fixpoint e_load (c : circuit) (k : nat) (w : N) (inputs : list bool) : ST estate unit :=
  match inputs with
  | [] => st_ret tt
  | b :: inputs' =>
    match k with
    | O => fun s => (NoFuel, s)
    | S k =>
      match input_map c !! w with
      | None => st_err (EUnknownInput w)
      | Some (Some id) => e_insert c id b ;; e_load c k (w + 1) inputs'
      | Some None => e_load c k (w + 1) inputs
      end
    end
  end.

(** [eval_single_output] (69-108) called with both maps, as [eval_output] does. *)
Definition e_single_output (c : circuit) (eg : N -> ST estate unit) (inputs : list bool) (w : N) : ST estate bool :=
  if negb (N.of_nat (length inputs) =? input_len c) then st_err (EInvalidInputLen (N.of_nat (length inputs)) (input_len c)) else
  if output_len c <=? w then st_err (EUnknownOutput w) else
  match output_map c !! w with
  | None => st_err (EUnknownOutput w)
  | Some o => fun s =>
    match evaled s !! o with
    | Some b => (Ok b, s)
    | None => (eg o ;; e_get o) s
    end
  end.

(** [eval_output] (33-61), given the gate evaluator of the circuit. *)
Definition eval_output_with (h : heap) (eg : nat -> N -> ST estate unit) (l : nat) (inputs : list bool) : res (list bool) :=
  match h_circ h !! l with
  | None => Panic PDangling
  | Some c =>
    if negb (N.of_nat (length inputs) =? input_len c) then Panic PAssert else
    fst ((e_load c (length inputs + size (input_map c) + 1) 0 inputs ;;
          st_mapM (e_single_output c (eg l) inputs) (nrange (output_len c))) (EState ∅ ∅))
  end.

(** [eval_single_gate] (110-268). Recursion is over gates and module circuits; [fuel] bounds the call depth. *)
Fixpoint eval_gate (md : mode) (h : heap) (fuel : nat) (l : nat) (g : N) : ST estate unit :=
  match fuel with
  | O => fun s => (NoFuel, s)
  | S fuel =>
    match h_circ h !! l with
    | None => st_panic PDangling
    | Some c =>
      match gate_map c !! g with
      | None => st_err (EUnknownGate g)
      | Some (GInput _) => st_ret tt
      | Some (GConst b) => e_insert c g b
      | Some (GNot a) =>
        e_need (eval_gate md h fuel l) a ;;
        x <- e_get a ;; e_decr md a ;; e_insert c g (negb x)
      | Some (GXor a b) => e_binary md c (eval_gate md h fuel l) xorb g a b
      | Some (GAnd a b) => e_binary md c (eval_gate md h fuel l) andb g a b
      | Some (GOr a b) => e_binary md c (eval_gate md h fuel l) orb g a b
      | Some (GModule il ol ids oi mid) =>
        bits <- st_mapM (fun id => e_need (eval_gate md h fuel l) id ;; e_get id) ids ;;
        match h_stor h !! c_storage c with
        | None => st_panic PDangling
        | Some x =>
          match module_map x !! mid with
          | None => st_err (EUnknownModule mid)
          | Some l' =>
            outs <- st_lift (eval_output_with h (eval_gate md h fuel) l' bits) ;;
            st_iterM (e_decr md) ids ;;
            first <- st_lift (usize_sub md g oi) ;;
            e_insert_outputs c first outs 0 (N.to_nat ol)
          end
        end
      end
    end
  end.

(** [NXAOBoolEvaluator::new(circuit).eval_output(inputs)] (65-67, 33-61). *)
Definition eval_output (md : mode) (h : heap) (fuel : nat) (l : nat) (inputs : list bool) : res (list bool) :=
  eval_output_with h (eval_gate md h fuel) l inputs.
