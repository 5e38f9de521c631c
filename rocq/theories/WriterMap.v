(** The writer of /repo/src/bristol_converter.rs once more, with the map [wire_of_gate] as a part of the state. In Io.v a function that fails returns no
    map; here the map that the function was given by reference is what it is when the function stops, and what the caller of [write] then sees.
    Prop_Map.v relates the two. *)
From Verif Require Export Io.
From Coq Require Import Ascii String.
Open Scope N_scope.
Open Scope list_scope.

(** The writer and the map that the running function has as [wire_of_gate: &mut HashMap<GateId, usize>]. *)
Definition mstate : Type := istate * wmap.
Definition MM A := ST mstate A.
(** Steps of Io.v, which do not use the map. *)
Definition m_io {A} (x : IM A) : MM A := fun s => let (r, st) := x s.1 in (r, (st, s.2)).
(** [wire_of_gate.get(id)] *)
Definition m_get (id : N) : MM (option N) := fun s => (Ok (s.2 !! id), s).
(** [wire_of_gate[&id]] *)
Definition m_key (id : N) : MM N := fun s => match s.2 !! id with Some v => (Ok v, s) | None => (Panic PKey, s) end.
(** [wire_of_gate.insert(id, w)] *)
Definition m_insert (id w : N) : MM unit := fun s => (Ok tt, (s.1, <[id := w]> s.2)).
(** A call with another map, [&mut new_wire_of_gate] (512). The caller's own map is not touched; [new] is dropped if the call fails. *)
Definition m_frame (new : wmap) (x : MM unit) : MM wmap := fun s =>
  let (r, s') := x (s.1, new) in
  (match r with Ok _ => Ok s'.2 | Err e => Err e | Panic p => Panic p | NoFuel => NoFuel end, (s'.1, s.2)).

Open Scope string_scope.
(** [update_wire] (530-552): the entry is made (538) before the line is written (546), and the counter is increased last (550). *)
Definition m_update_wire (gid : N) (input_wires : option (list N)) (gate_str : string) : MM unit :=
  st <- m_io i_get ;;
  m_insert gid (i_num st) ;;
  match input_wires with
  | Some wires => m_io (i_put (show_N (N.of_nat (List.length wires)) ++ " 1 " ++ wires_str wires ++ show_N (i_num st) ++ " " ++ gate_str ++ nl))
  | None => st_ret tt
  end ;;
  m_io (i_set_num (i_num st + 1)).
Close Scope string_scope.

Section heap.
Context (h : heap).
Section rec.
Context (single : N -> gate -> MM unit).

(** As [ensure] of Writer.v (e.g. 279-282, 377-381, 485-488). *)
Definition m_ensure (id : N) : MM unit :=
  o <- m_get id ;;
  match o with Some _ => st_ret tt | None => g <- m_io (i_gate h id) ;; single id g end.
Definition m_ensure_all (ids : list N) : MM unit := st_iterM m_ensure ids.

(** [write_all_gates] 253-261. *)
Definition m_write_const (id : N) : MM unit :=
  g <- m_io (i_gate h id) ;;
  match g with
  | GConst b =>
    st <- m_io i_get ;;
    m_insert id (i_const st) ;;
    m_io (i_set_cow (<[i_const st := b]> (i_cow st))) ;;
    m_io (i_set_const (i_const st + 1))
  | _ => st_ret tt
  end.
(** 267-350: one round of the first output loop. *)
Definition m_write_pass1 (acc : list (N * gate)) (i : N) : MM (list (N * gate)) :=
  c <- m_io (i_circ h) ;;
  id <- st_lift (c_output_to_gate_id c i) ;;
  g <- st_lift (c_get_gate c id) ;;
  let acc' := acc ++ [(id, g)] in
  match g with
  | GInput _ | GConst _ => st_ret acc'
  | GNot a => m_ensure_all [a] ;; st_ret acc'
  | GXor a b | GAnd a b | GOr a b => m_ensure_all [a; b] ;; st_ret acc'
  | GModule _ _ ids _ _ => m_ensure_all ids ;; st_ret acc'
  end.
(** 354-360: one round of the second output loop. *)
Definition m_write_pass2 (p : N * gate) : MM unit :=
  o <- m_get p.1 ;;
  match o with Some _ => st_ret tt | None => single p.1 p.2 end.
(** [write_all_gates] (247-362). *)
Definition m_write_all : MM unit :=
  c <- m_io (i_circ h) ;;
  st_iterM m_write_const (c_get_const_gates c) ;;
  outs <- st_foldM m_write_pass1 [] (nrange (output_len c)) ;;
  st_iterM m_write_pass2 outs.

(** Lines 491-504. *)
Fixpoint m_bind_args (fuel : nat) (m : circuit) (ids : list N) (w : N) (new : wmap) : MM wmap :=
  match ids with
  | [] => st_ret new
  | id :: r =>
    match fuel with
    | O => fun st => (NoFuel, st)
    | S f =>
      o <- st_lift (c_input_to_gate_id m w) ;;
      match o with
      | Some g => x <- m_key id ;; m_bind_args f m r (w + 1) (<[g := x]> new)
      | None => m_bind_args f m ids (w + 1) new
      end
    end
  end.
(** Lines 510-516. *)
Definition m_copy_out (m : circuit) (new : wmap) (first : N) (i : N) : MM unit :=
  o <- st_lift (c_output_to_gate_id m i) ;;
  x <- m_io (i_key new o) ;;
  m_insert (first + i) x.

(** [write_single_gate] (364-529). *)
Definition m_single_body (id : N) (g : gate) : MM unit :=
  match g with
  | GInput _ => m_update_wire id None (gate_to_str g)
  | GConst _ => st_ret tt
  | GNot a =>
    m_ensure_all [a] ;;
    x <- m_key a ;;
    m_update_wire id (Some [x]) (gate_to_str g)
  | GXor a b | GAnd a b | GOr a b =>
    m_ensure_all [a; b] ;;
    x <- m_key a ;; y <- m_key b ;;
    m_update_wire id (Some [x; y]) (gate_to_str g)
  | GModule _ ol ids oi mid =>
    m_ensure_all ids ;;
    c <- m_io (i_circ h) ;;
    l' <- (match h_stor h !! c_storage c with
           | Some x => match module_map x !! mid with Some l' => st_ret l' | None => st_err (EUnknownModule mid) end
           | None => st_panic PDangling end) ;;
    m <- (match h_circ h !! l' with Some m => st_ret m | None => st_panic PDangling end) ;;
    new <- m_bind_args (List.length ids + size (input_map m) + 1) m ids 0 ∅ ;;
    st <- m_io i_get ;;
    m_io (i_set_c l') ;;
    new <- m_frame new m_write_all ;;
    m_io (i_set_c (i_c st)) ;;
    st_iterM (m_copy_out m new (id - oi)) (nrange ol)
  end.
End rec.

Fixpoint m_write_single (fuel : nat) (id : N) (g : gate) : MM unit :=
  match fuel with
  | O => fun st => (NoFuel, st)
  | S f => m_single_body (m_write_single f) id g
  end.

(** Lines 225-238. *)
Fixpoint m_write_inputs (fuel : nat) (single : N -> gate -> MM unit) (k : nat) (w : N) : MM unit :=
  match k with
  | O => st_ret tt
  | S k' =>
    match fuel with
    | O => fun st => (NoFuel, st)
    | S f =>
      c <- m_io (i_circ h) ;;
      o <- st_lift (c_input_to_gate_id c w) ;;
      match o with
      | Some id => g <- st_lift (c_get_gate c id) ;; single id g ;; m_write_inputs f single k' (w + 1)
      | None => m_write_inputs f single k (w + 1)
      end
    end
  end.

Open Scope string_scope.
(** [write] (192-245): the state holds the caller's map, or an empty one when the caller passes [None] (217-221). *)
Definition write_map (fuel : nat) (num_first_input : N) : MM (list bool) :=
  c <- m_io (i_circ h) ;;
  m_io (i_put (show_N (num_gate c) ++ " " ++ show_N (Z.to_N (num_wire c) + num_const c) ++ nl)) ;;
  let num_all_input := input_len c + num_const c in
  (if (num_first_input <=? num_all_input)%N then st_ret tt else st_panic PAssert) ;;
  m_io (i_put ("2 " ++ show_N num_first_input ++ " " ++ show_N (num_all_input - num_first_input) ++ nl)) ;;
  m_io (i_put ("1 " ++ show_N (output_len c) ++ nl)) ;;
  m_io (i_put nl) ;;
  m_io (i_set_cow ∅) ;;
  m_write_inputs (N.to_nat (input_len c) + size (input_map c) + 1) (m_write_single fuel) (N.to_nat (input_len c)) 0 ;;
  m_io (i_set_const (input_len c)) ;;
  st <- m_io i_get ;;
  m_io (i_set_num (i_num st + num_const c)) ;;
  m_write_all (m_write_single fuel) ;;
  st <- m_io i_get ;;
  m_io (st_mapM (i_key (i_cow st)) (map (fun i => input_len c + i) (nrange (i_const st - input_len c)))).
Close Scope string_scope.
End heap.
