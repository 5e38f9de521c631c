(** The reader and the writer (/repo/src/bristol_converter.rs) once more, with the borrow flags of Cells.v: what they do while the caller, or
    somebody further up the stack, holds guards of [borrow] or [borrow_mut]. *)
From Verif Require Export Cells Reader Writer.
Open Scope N_scope.
Open Scope list_scope.

(** * [BristolReader] (37-170)
    Every call of [c_ref] takes [borrow_mut] of the circuit (bool_circuit.rs 134-180) for the time of the call; between calls the reader holds
    nothing. The definitions follow those of Reader.v line by line. *)
Definition rbstate : Type := gmap N N * cells.
Definition RBM A := ST rbstate A.
Definition rb_h {A} (l : nat) (m : M A) : RBM A := fun s => let (r, c) := with_c true l (on_heap m) (snd s) in (r, (fst s, c)).
Definition rb_insert (w g : N) : RBM unit := fun s => (Ok tt, (<[w := g]> (fst s), snd s)).
Definition rb_map : RBM (gmap N N) := fun s => (Ok (fst s), s).
(** 82-84 *)
Fixpoint rb_inputs (l : nat) (k : nat) (w : N) : RBM unit :=
  match k with
  | O => st_ret tt
  | S k => g <- rb_h l (r_input l) ;; rb_insert w g ;; rb_inputs l k (w + 1)
  end.
(** 77-86 *)
Fixpoint rb_groups (l : nat) (toks : list string) (k sum : N) : RBM unit :=
  if k =? 0 then st_ret tt
  else match toks with
       | [] => st_err ELineSplit
       | t :: ts => n <- st_lift (parse_usize t) ;; rb_inputs l (N.to_nat n) sum ;; rb_groups l ts (k - 1) (sum + n)
       end.
(** 140-161 *)
Definition rb_gate (l : nat) (ty : string) (gs os : list N) : RBM unit :=
  if String.eqb ty "INV" then a <- st_nth gs 0 ;; g <- rb_h l (r_not l a) ;; o <- st_nth os 0 ;; rb_insert o g
  else if String.eqb ty "XOR" then a <- st_nth gs 0 ;; b <- st_nth gs 1 ;; g <- rb_h l (r_xor l a b) ;; o <- st_nth os 0 ;; rb_insert o g
  else if String.eqb ty "AND" then a <- st_nth gs 0 ;; b <- st_nth gs 1 ;; g <- rb_h l (r_and l a b) ;; o <- st_nth os 0 ;; rb_insert o g
  else if String.eqb ty "OR" then a <- st_nth gs 0 ;; b <- st_nth gs 1 ;; g <- rb_h l (r_or l a b) ;; o <- st_nth os 0 ;; rb_insert o g
  else if String.eqb ty "EQ" || String.eqb ty "EQW" then a <- st_nth gs 0 ;; g <- rb_h l (r_identity l a) ;; o <- st_nth os 0 ;; rb_insert o g
  else st_err (ENotSupportedGate ty).
(** 110-161 *)
Definition rb_line (l : nat) (toks : list string) : RBM unit :=
  '(n, t1) <- st_lift (next_num toks) ;;
  '(m, t2) <- st_lift (next_num t1) ;;
  gw <- rb_map ;;
  '(gs, t3) <- st_lift (rd_operands gw t2 n) ;;
  '(os, t4) <- st_lift (rd_nums t3 m) ;;
  '(ty, _) <- st_lift (next_tok t4) ;;
  rb_gate l ty gs os.
(** 105-162 *)
Fixpoint rb_lines (l : nat) (ls : list string) : RBM unit :=
  match ls with
  | [] => st_ret tt
  | x :: r => if String.eqb x "" then st_ret tt else rb_line l (tokens x) ;; rb_lines l r
  end.
(** 164-167 *)
Fixpoint rb_outputs (l : nat) (k : nat) (w : N) : RBM unit :=
  match k with
  | O => st_ret tt
  | S k => gw <- rb_map ;;
           match gw !! w with
           | None => st_panic PKey
           | Some g => rb_h l (r_output l g) ;; rb_outputs l k (w + 1)
           end
  end.
(** 53-169 *)
Definition rb_read (md : mode) (l : nat) (text : string) : RBM unit :=
  '(l1, ls) <- st_lift (next_line 1 (lines text)) ;;
  '(_, ts) <- st_lift (next_num (tokens l1)) ;;
  '(num_wire, _) <- st_lift (next_num ts) ;;
  '(l2, ls) <- st_lift (next_line 2 ls) ;;
  '(num_input, ts) <- st_lift (next_num (tokens l2)) ;;
  rb_groups l ts num_input 0 ;;
  '(l3, ls) <- st_lift (next_line 3 ls) ;;
  '(num_output, ts) <- st_lift (next_num (tokens l3)) ;;
  osum <- st_lift (rd_sum md ts num_output 0) ;;
  '(_, ls) <- st_lift (next_line 4 ls) ;;
  rb_lines l ls ;;
  lo <- st_lift (usize_sub md num_wire osum) ;;
  rb_outputs l (N.to_nat (num_wire - lo)) lo.

(** * [BristolNXAOWriter] (174-554)
    It changes no cell and holds no guard across calls, so, as for the evaluator in Cells.v, the flags are constant while it runs; every look at
    a circuit takes [borrow] of it, every look at a module storage takes [borrow] of that. [lc], [ls]: the flags are negative. *)
Section heap.
Context (lc ls : nat -> bool) (h : heap).
(** A guard of [borrow] on the circuit at [l], dropped at once. *)
Definition wb_touch (l : nat) : WM unit := if lc l then st_panic PBorrow else st_ret tt.
(** The circuit behind [self.c_ref]. *)
Definition wb_circ : WM circuit := st <- w_get ;; wb_touch (w_c st) ;; w_circ h.
Definition wb_gate (id : N) : WM gate := c <- wb_circ ;; st_lift (c_get_gate c id).
Section rec.
Context (single : N -> gate -> wmap -> WM wmap).
(** 279-282, 377-381, 485-488 *)
Definition wb_ensure (wog : wmap) (id : N) : WM wmap :=
  match wog !! id with Some _ => st_ret wog | None => g <- wb_gate id ;; single id g wog end.
Definition wb_ensure_all (wog : wmap) (ids : list N) : WM wmap := st_foldM wb_ensure wog ids.
(** 253-261 *)
Definition wb_const (wog : wmap) (id : N) : WM wmap :=
  g <- wb_gate id ;;
  match g with
  | GConst b => st <- w_get ;; w_set_cow (<[w_const st := b]> (w_cow st)) ;; w_set_const (w_const st + 1) ;; st_ret (<[id := w_const st]> wog)
  | _ => st_ret wog
  end.
(** 267-350 *)
Definition wb_pass1 (acc : wmap * list (N * gate)) (i : N) : WM (wmap * list (N * gate)) :=
  c <- wb_circ ;;
  id <- st_lift (c_output_to_gate_id c i) ;;
  g <- wb_gate id ;;
  let acc' := acc.2 ++ [(id, g)] in
  match g with
  | GInput _ | GConst _ => st_ret (acc.1, acc')
  | GNot a => wog <- wb_ensure_all acc.1 [a] ;; st_ret (wog, acc')
  | GXor a b | GAnd a b | GOr a b => wog <- wb_ensure_all acc.1 [a; b] ;; st_ret (wog, acc')
  | GModule _ _ ids _ _ => wog <- wb_ensure_all acc.1 ids ;; st_ret (wog, acc')
  end.
(** 354-360 *)
Definition wb_pass2 (wog : wmap) (p : N * gate) : WM wmap :=
  match wog !! p.1 with Some _ => st_ret wog | None => single p.1 p.2 wog end.
(** 247-362 *)
Definition wb_all (wog : wmap) : WM wmap :=
  c <- wb_circ ;;
  wog <- st_foldM wb_const wog (c_get_const_gates c) ;;
  wb_circ ;;
  '(wog, outs) <- st_foldM wb_pass1 (wog, []) (nrange (output_len c)) ;;
  st_foldM wb_pass2 wog outs.
(** 491-504, with the module [m] at [l'] *)
Fixpoint wb_args (fuel : nat) (l' : nat) (m : circuit) (wog : wmap) (ids : list N) (w : N) (new : wmap) : WM wmap :=
  match ids with
  | [] => st_ret new
  | id :: r =>
    match fuel with
    | O => fun st => (NoFuel, st)
    | S f =>
      wb_touch l' ;;
      o <- st_lift (c_input_to_gate_id m w) ;;
      match o with
      | Some g => x <- w_key wog id ;; wb_args f l' m wog r (w + 1) (<[g := x]> new)
      | None => wb_args f l' m wog ids (w + 1) new
      end
    end
  end.
(** 510-516 *)
Definition wb_copy (l' : nat) (m : circuit) (new : wmap) (first : N) (wog : wmap) (i : N) : WM wmap :=
  wb_touch l' ;;
  o <- st_lift (c_output_to_gate_id m i) ;;
  x <- w_key new o ;;
  st_ret (<[first + i := x]> wog).
(** 364-529 *)
Definition wb_body (id : N) (g : gate) (wog : wmap) : WM wmap :=
  match g with
  | GInput _ => update_wire id None (gate_to_str g) wog
  | GConst _ => st_ret wog
  | GNot a =>
    wog <- wb_ensure_all wog [a] ;;
    x <- w_key wog a ;;
    update_wire id (Some [x]) (gate_to_str g) wog
  | GXor a b | GAnd a b | GOr a b =>
    wog <- wb_ensure_all wog [a; b] ;;
    x <- w_key wog a ;; y <- w_key wog b ;;
    update_wire id (Some [x; y]) (gate_to_str g) wog
  | GModule _ ol ids oi mid =>
    wog <- wb_ensure_all wog ids ;;
    c <- wb_circ ;;
    (if ls (c_storage c) then st_panic PBorrow else st_ret tt) ;;
    l' <- (match h_stor h !! c_storage c with
           | Some x => match module_map x !! mid with Some l' => st_ret l' | None => st_err (EUnknownModule mid) end
           | None => st_panic PDangling end) ;;
    m <- (match h_circ h !! l' with Some m => st_ret m | None => st_panic PDangling end) ;;
    new <- wb_args (length ids + size (input_map m) + 1) l' m wog ids 0 ∅ ;;
    st <- w_get ;;
    w_set_c l' ;;
    new <- wb_all new ;;
    w_set_c (w_c st) ;;
    st_foldM (wb_copy l' m new (id - oi)) wog (nrange ol)
  end.
End rec.
Fixpoint wb_single (fuel : nat) (id : N) (g : gate) (wog : wmap) : WM wmap :=
  match fuel with
  | O => fun st => (NoFuel, st)
  | S f => wb_body (wb_single f) id g wog
  end.
(** 225-238 *)
Fixpoint wb_inputs (fuel : nat) (single : N -> gate -> wmap -> WM wmap) (k : nat) (w : N) (wog : wmap) : WM wmap :=
  match k with
  | O => st_ret wog
  | S k' =>
    match fuel with
    | O => fun st => (NoFuel, st)
    | S f =>
      c <- wb_circ ;;
      o <- st_lift (c_input_to_gate_id c w) ;;
      match o with
      | Some id => g <- wb_gate id ;; wog <- single id g wog ;; wb_inputs f single k' (w + 1) wog
      | None => wb_inputs f single k (w + 1) wog
      end
    end
  end.
Open Scope string_scope.
(** 192-245 *)
Definition wb_write (fuel : nat) (num_first_input : N) (given : wmap) : WM (list bool * wmap) :=
  c <- wb_circ ;;
  w_write (show_N (num_gate c) ++ " " ++ show_N (Z.to_N (num_wire c) + num_const c) ++ nl) ;;
  let num_all_input := input_len c + num_const c in
  (if (num_first_input <=? num_all_input)%N then st_ret tt else st_panic PAssert) ;;
  w_write ("2 " ++ show_N num_first_input ++ " " ++ show_N (num_all_input - num_first_input) ++ nl) ;;
  w_write ("1 " ++ show_N (output_len c) ++ nl) ;;
  w_write nl ;;
  w_set_cow ∅ ;;
  wog <- wb_inputs (N.to_nat (input_len c) + size (input_map c) + 1) (wb_single fuel) (N.to_nat (input_len c)) 0 given ;;
  w_set_const (input_len c) ;;
  st <- w_get ;;
  w_set_num (w_num st + num_const c) ;;
  wog <- wb_all (wb_single fuel) wog ;;
  st <- w_get ;;
  vals <- st_mapM (w_key (w_cow st)) (map (fun i => input_len c + i) (nrange (w_const st - input_len c))) ;;
  st_ret (vals, wog).
Close Scope string_scope.
End heap.
