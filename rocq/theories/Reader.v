(** Model of [BristolReader] (/repo/src/bristol_converter.rs 37-170). *)
From Verif Require Export Text Circuit.
Open Scope N_scope.
Open Scope list_scope.

(** The state of a reading: the reader's [gate_of_wire] map (39), which outlives a call of [read], and the heap. *)
Definition rstate : Type := gmap N N * heap.
Definition RM A := ST rstate A.
(** An operation of [c_ref]. *)
Definition rd_h {A} (m : M A) : RM A := fun s => let (r, h) := m (snd s) in (r, (fst s, h)).
(** [self.gate_of_wire.insert(w, g)]. *)
Definition rd_insert (w g : N) : RM unit := fun s => (Ok tt, (<[w := g]> (fst s), snd s)).
Definition rd_map : RM (gmap N N) := fun s => (Ok (fst s), s).

(** [iter.next().ok_or(LineSplitError)?] *)
Definition next_tok (toks : list string) : res (string * list string) :=
  match toks with [] => Err ELineSplit | t :: ts => Ok (t, ts) end.
(** [iter.next().ok_or(LineSplitError)?.parse::<usize>()?] *)
Definition next_num (toks : list string) : res (N * list string) :=
  res_bind (next_tok toks) (fun '(t, ts) => res_bind (parse_usize t) (fun n => Ok (n, ts))).

(** Lines 82-84: [for j in 0..input_bit { self.gate_of_wire.insert(input_len_sum + j, c_ref.input()?) }]. The sum is unbounded here: it
    could only exceed a usize after creating 2^64 inputs. *)
Fixpoint rd_inputs (l : nat) (k : nat) (w : N) : RM unit :=
  match k with
  | O => st_ret tt
  | S k => g <- rd_h (r_input l) ;; rd_insert w g ;; rd_inputs l k (w + 1)
  end.
(** Lines 77-86: the loop over the [k] remaining inputs. *)
Fixpoint rd_groups (l : nat) (toks : list string) (k sum : N) : RM unit :=
  if k =? 0 then st_ret tt
  else match toks with
       | [] => st_err ELineSplit
       | t :: ts => n <- st_lift (parse_usize t) ;; rd_inputs l (N.to_nat n) sum ;; rd_groups l ts (k - 1) (sum + n)
       end.
(** Lines 95-101: the sum of the [k] output lengths; [+=] overflows. *)
Fixpoint rd_sum (md : mode) (toks : list string) (k sum : N) : res N :=
  if k =? 0 then Ok sum
  else match toks with
       | [] => Err ELineSplit
       | t :: ts => res_bind (parse_usize t) (fun n => res_bind (usize_add md sum n) (fun s => rd_sum md ts (k - 1) s))
       end.
(** Lines 119-129: operands, each looked up as soon as it is parsed. *)
Fixpoint rd_operands (gw : gmap N N) (toks : list string) (k : N) : res (list N * list string) :=
  if k =? 0 then Ok ([], toks)
  else match toks with
       | [] => Err ELineSplit
       | t :: ts => res_bind (parse_usize t) (fun w =>
           match gw !! w with
           | None => Err (EUnknownWire w)
           | Some g => res_bind (rd_operands gw ts (k - 1)) (fun '(gs, r) => Ok (g :: gs, r))
           end)
       end.
(** Lines 130-137: output wire numbers. *)
Fixpoint rd_nums (toks : list string) (k : N) : res (list N * list string) :=
  if k =? 0 then Ok ([], toks)
  else match toks with
       | [] => Err ELineSplit
       | t :: ts => res_bind (parse_usize t) (fun w => res_bind (rd_nums ts (k - 1)) (fun '(ws, r) => Ok (w :: ws, r)))
       end.
(** Lines 140-161: building the gate. Indexing [input_gates] and [output_wire_ids] can panic; the gate exists already when the latter does. *)
Definition rd_gate (l : nat) (ty : string) (gs os : list N) : RM unit :=
  if String.eqb ty "INV" then a <- st_nth gs 0 ;; g <- rd_h (r_not l a) ;; o <- st_nth os 0 ;; rd_insert o g
  else if String.eqb ty "XOR" then a <- st_nth gs 0 ;; b <- st_nth gs 1 ;; g <- rd_h (r_xor l a b) ;; o <- st_nth os 0 ;; rd_insert o g
  else if String.eqb ty "AND" then a <- st_nth gs 0 ;; b <- st_nth gs 1 ;; g <- rd_h (r_and l a b) ;; o <- st_nth os 0 ;; rd_insert o g
  else if String.eqb ty "OR" then a <- st_nth gs 0 ;; b <- st_nth gs 1 ;; g <- rd_h (r_or l a b) ;; o <- st_nth os 0 ;; rd_insert o g
  else if String.eqb ty "EQ" || String.eqb ty "EQW" then a <- st_nth gs 0 ;; g <- rd_h (r_identity l a) ;; o <- st_nth os 0 ;; rd_insert o g
  else st_err (ENotSupportedGate ty).
(** Lines 110-161: one gate line. *)
Definition rd_line (l : nat) (toks : list string) : RM unit :=
  '(n, t1) <- st_lift (next_num toks) ;;
  '(m, t2) <- st_lift (next_num t1) ;;
  gw <- rd_map ;;
  '(gs, t3) <- st_lift (rd_operands gw t2 n) ;;
  '(os, t4) <- st_lift (rd_nums t3 m) ;;
  '(ty, _) <- st_lift (next_tok t4) ;;
  rd_gate l ty gs os.
(** Lines 105-162: gate lines up to the first empty one. *)
Fixpoint rd_lines (l : nat) (ls : list string) : RM unit :=
  match ls with
  | [] => st_ret tt
  | x :: r => if String.eqb x "" then st_ret tt else rd_line l (tokens x) ;; rd_lines l r
  end.
(** Lines 164-167: [for i in lo..num_wire { c_ref.output(self.gate_of_wire[&i])? }], [k] wires from [w]. *)
Fixpoint rd_outputs (l : nat) (k : nat) (w : N) : RM unit :=
  match k with
  | O => st_ret tt
  | S k => gw <- rd_map ;;
           match gw !! w with
           | None => st_panic PKey
           | Some g => rd_h (r_output l g) ;; rd_outputs l k (w + 1)
           end
  end.
(** [lines_iter.next().ok_or(NotFoundLine(n))?] *)
Definition next_line (n : N) (ls : list string) : res (string * list string) :=
  match ls with [] => Err (ENotFoundLine n) | x :: r => Ok (x, r) end.
(** [BristolReader::read] (53-169). *)
Definition read (md : mode) (l : nat) (text : string) : RM unit :=
  '(l1, ls) <- st_lift (next_line 1 (lines text)) ;;
  '(_, ts) <- st_lift (next_num (tokens l1)) ;;
  '(num_wire, _) <- st_lift (next_num ts) ;;
  '(l2, ls) <- st_lift (next_line 2 ls) ;;
  '(num_input, ts) <- st_lift (next_num (tokens l2)) ;;
  rd_groups l ts num_input 0 ;;
  '(l3, ls) <- st_lift (next_line 3 ls) ;;
  '(num_output, ts) <- st_lift (next_num (tokens l3)) ;;
  osum <- st_lift (rd_sum md ts num_output 0) ;;
  '(_, ls) <- st_lift (next_line 4 ls) ;;
  rd_lines l ls ;;
  lo <- st_lift (usize_sub md num_wire osum) ;;
  rd_outputs l (N.to_nat (num_wire - lo)) lo.
(** [BristolReader::new] (45-51) followed by one [read]. *)
Definition read_fresh (md : mode) (l : nat) (text : string) (h : heap) : res unit * heap :=
  let (r, s) := read md l text (∅, h) in (r, snd s).
