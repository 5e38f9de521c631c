(** Model of [BristolNXAOWriter] (/repo/src/bristol_converter.rs 174-554). *)
From Verif Require Export Text Circuit.
Open Scope N_scope.
Open Scope list_scope.

(** The fields of the writer (175-180), and the map [const_of_wire] (224) that [write] lends to every function it calls. [w_out] is the
    list of the byte strings handed to [writer.write_all], oldest first; writing to the underlying [BufWriter] is taken to succeed (Io.v drops that).
    A circuit handle is a location of the heap, which the writer never changes. *)
Record wstate := WState {
  w_c : nat;                 (* c_ref *)
  w_num : N;                 (* num_wire *)
  w_const : N;               (* last_const_wire *)
  w_out : list string;       (* writer *)
  w_cow : gmap N bool;       (* const_of_wire *)
}.
(** [BristolNXAOWriter::new] (183-190). *)
Definition writer_new (l : nat) : wstate := WState l 0 0 [] ∅.
(** A computation on the writer. The map [wire_of_gate : &mut HashMap<GateId, usize>] is an argument and a result; what it holds after an
    error is modelled in WriterMap.v. *)
Definition WM A := ST wstate A.
Notation wmap := (gmap N N).

(** [self.writer.write_all(s)?] *)
Definition w_write (s : string) : WM unit := fun st => (Ok tt, WState (w_c st) (w_num st) (w_const st) (w_out st ++ [s]) (w_cow st)).
(** [self.c_ref = l] *)
Definition w_set_c (l : nat) : WM unit := fun st => (Ok tt, WState l (w_num st) (w_const st) (w_out st) (w_cow st)).
Definition w_set_num (n : N) : WM unit := fun st => (Ok tt, WState (w_c st) n (w_const st) (w_out st) (w_cow st)).
Definition w_set_const (n : N) : WM unit := fun st => (Ok tt, WState (w_c st) (w_num st) n (w_out st) (w_cow st)).
Definition w_set_cow (m : gmap N bool) : WM unit := fun st => (Ok tt, WState (w_c st) (w_num st) (w_const st) (w_out st) m).
Definition w_get : WM wstate := fun st => (Ok st, st).

(** HashMap index [m[&k]] *)
Definition w_key {A} (m : gmap N A) (k : N) : WM A := fun st => match m !! k with Some v => (Ok v, st) | None => (Panic PKey, st) end.

Open Scope string_scope.
(** The loop 543-545: [for i in 0..num_input { write_str += format!("{} ", wires[i]) }]. *)
Definition wires_str (wires : list N) : string := foldr (fun w s => show_N w ++ " " ++ s) "" wires.
Definition nl : string := String cLF "".
(** [update_wire] (531-553). [num_input] always is the length of [input_wires]. *)
Definition update_wire (gid : N) (input_wires : option (list N)) (gate_str : string) (wog : wmap) : WM wmap :=
  st <- w_get ;;
  match input_wires with
  | Some wires => w_write (show_N (N.of_nat (length wires)) ++ " 1 " ++ wires_str wires ++ show_N (w_num st) ++ " " ++ gate_str ++ nl)
  | None => st_ret tt
  end ;;
  w_set_num (w_num st + 1) ;;
  st_ret (<[gid := w_num st]> wog).
Close Scope string_scope.

Section heap.
Context (h : heap).

(** The circuit behind [self.c_ref]. *)
Definition w_circ : WM circuit := fun st => match h_circ h !! w_c st with Some c => (Ok c, st) | None => (Panic PDangling, st) end.
(** [self.c_ref.get_gate(&id)?] *)
Definition w_gate (id : N) : WM gate := c <- w_circ ;; st_lift (c_get_gate c id).

(** The recursive call is a parameter, tied by [write_single] below. *)
Section rec.
Context (single : N -> gate -> wmap -> WM wmap).

(** The pattern [if wire_of_gate.get(id).is_none() { let g = self.c_ref.get_gate(id)?; self.write_single_gate(id, g, ..)? }]
    (e.g. 279-282, 377-381, 485-488). *)
Definition ensure (wog : wmap) (id : N) : WM wmap :=
  match wog !! id with Some _ => st_ret wog | None => g <- w_gate id ;; single id g wog end.
(** The same for several operands, left to right. *)
Definition ensure_all (wog : wmap) (ids : list N) : WM wmap := st_foldM ensure wog ids.

(** [write_all_gates] 253-261: constants of the circuit itself. *)
Definition write_const (wog : wmap) (id : N) : WM wmap :=
  g <- w_gate id ;;
  match g with
  | GConst b => st <- w_get ;; w_set_cow (<[w_const st := b]> (w_cow st)) ;; w_set_const (w_const st + 1) ;; st_ret (<[id := w_const st]> wog)
  | _ => st_ret wog
  end.
(** 267-350: one round of the first output loop; the ids and gates seen are collected. *)
Definition write_pass1 (acc : wmap * list (N * gate)) (i : N) : WM (wmap * list (N * gate)) :=
  c <- w_circ ;;
  id <- st_lift (c_output_to_gate_id c i) ;;
  g <- st_lift (c_get_gate c id) ;;
  let acc' := acc.2 ++ [(id, g)] in
  match g with
  | GInput _ | GConst _ => st_ret (acc.1, acc')
  | GNot a => wog <- ensure_all acc.1 [a] ;; st_ret (wog, acc')
  | GXor a b | GAnd a b | GOr a b => wog <- ensure_all acc.1 [a; b] ;; st_ret (wog, acc')
  | GModule _ _ ids _ _ => wog <- ensure_all acc.1 ids ;; st_ret (wog, acc')
  end.
(** 354-360: one round of the second output loop. *)
Definition write_pass2 (wog : wmap) (p : N * gate) : WM wmap :=
  match wog !! p.1 with Some _ => st_ret wog | None => single p.1 p.2 wog end.
(** [write_all_gates] (247-362). *)
Definition write_all (wog : wmap) : WM wmap :=
  c <- w_circ ;;
  wog <- st_foldM write_const wog (c_get_const_gates c) ;;
  '(wog, outs) <- st_foldM write_pass1 (wog, []) (nrange (output_len c)) ;;
  st_foldM write_pass2 wog outs.

(** Lines 491-504: [while i < input_ids.len()], wires of the module's inputs. An iteration that finds [None] moves to the next wire. Every
    iteration uses another key of [input_map], so the fuel given below is never exhausted. *)
Fixpoint bind_args (fuel : nat) (m : circuit) (wog : wmap) (ids : list N) (w : N) (new : wmap) : WM wmap :=
  match ids with
  | [] => st_ret new
  | id :: r =>
    match fuel with
    | O => fun st => (NoFuel, st)
    | S f =>
      o <- st_lift (c_input_to_gate_id m w) ;;
      match o with
      | Some g => x <- w_key wog id ;; bind_args f m wog r (w + 1) (<[g := x]> new)
      | None => bind_args f m wog ids (w + 1) new
      end
    end
  end.
(** Lines 510-516: the wires of the module's outputs. *)
Definition copy_out (m : circuit) (new : wmap) (first : N) (wog : wmap) (i : N) : WM wmap :=
  o <- st_lift (c_output_to_gate_id m i) ;;
  x <- w_key new o ;;
  st_ret (<[first + i := x]> wog).

(** [write_single_gate] (364-529) with its recursive calls. [gate_id - out_index] (509) cannot underflow on gates made by [module]. *)
Definition single_body (id : N) (g : gate) (wog : wmap) : WM wmap :=
  match g with
  | GInput _ => update_wire id None (gate_to_str g) wog
  | GConst _ => st_ret wog
  | GNot a =>
    wog <- ensure_all wog [a] ;;
    x <- w_key wog a ;;
    update_wire id (Some [x]) (gate_to_str g) wog
  | GXor a b | GAnd a b | GOr a b =>
    wog <- ensure_all wog [a; b] ;;
    x <- w_key wog a ;; y <- w_key wog b ;;
    update_wire id (Some [x; y]) (gate_to_str g) wog
  | GModule _ ol ids oi mid =>
    wog <- ensure_all wog ids ;;
    c <- w_circ ;;
    l' <- (match h_stor h !! c_storage c with
           | Some x => match module_map x !! mid with Some l' => st_ret l' | None => st_err (EUnknownModule mid) end
           | None => st_panic PDangling end) ;;
    m <- (match h_circ h !! l' with Some m => st_ret m | None => st_panic PDangling end) ;;
    new <- bind_args (length ids + size (input_map m) + 1) m wog ids 0 ∅ ;;
    st <- w_get ;;
    w_set_c l' ;;
    new <- write_all new ;;
    w_set_c (w_c st) ;;
    st_foldM (copy_out m new (id - oi)) wog (nrange ol)
  end.
End rec.

Fixpoint write_single (fuel : nat) (id : N) (g : gate) (wog : wmap) : WM wmap :=
  match fuel with
  | O => fun st => (NoFuel, st)
  | S f => single_body (write_single f) id g wog
  end.

(** Lines 225-238: the input gates, in the order of their wires. *)
Fixpoint write_inputs (fuel : nat) (single : N -> gate -> wmap -> WM wmap) (k : nat) (w : N) (wog : wmap) : WM wmap :=
  match k with
  | O => st_ret wog
  | S k' =>
    match fuel with
    | O => fun st => (NoFuel, st)
    | S f =>
      c <- w_circ ;;
      o <- st_lift (c_input_to_gate_id c w) ;;
      match o with
      | Some id => g <- st_lift (c_get_gate c id) ;; wog <- single id g wog ;; write_inputs f single k' (w + 1) wog
      | None => write_inputs f single k (w + 1) wog
      end
    end
  end.

Open Scope string_scope.
(** [write] (192-245). [given] is the content of the caller's map, empty when the caller passes [None]; the result is the returned vector
    of constants and the final content of that map. The count [num_wire + num_const] of the header is exact: [num_wire] never is negative
    (wf_wires in Inv.v). *)
Definition write (fuel : nat) (num_first_input : N) (given : wmap) : WM (list bool * wmap) :=
  c <- w_circ ;;
  w_write (show_N (num_gate c) ++ " " ++ show_N (Z.to_N (num_wire c) + num_const c) ++ nl) ;;
  let num_all_input := input_len c + num_const c in
  (if (num_first_input <=? num_all_input)%N then st_ret tt else st_panic PAssert) ;;
  w_write ("2 " ++ show_N num_first_input ++ " " ++ show_N (num_all_input - num_first_input) ++ nl) ;;
  w_write ("1 " ++ show_N (output_len c) ++ nl) ;;
  w_write nl ;;
  w_set_cow ∅ ;;
  wog <- write_inputs (N.to_nat (input_len c) + size (input_map c) + 1) (write_single fuel) (N.to_nat (input_len c)) 0 given ;;
  w_set_const (input_len c) ;;
  st <- w_get ;;
  w_set_num (w_num st + num_const c) ;;
  wog <- write_all (write_single fuel) wog ;;
  st <- w_get ;;
  vals <- st_mapM (w_key (w_cow st)) (map (fun i => input_len c + i) (nrange (w_const st - input_len c))) ;;
  st_ret (vals, wog).
Close Scope string_scope.
End heap.

(** The bytes written so far. *)
Definition written (st : wstate) : string := String.concat "" (w_out st).
