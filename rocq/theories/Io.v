(** Input and output that can fail.
    First the writer of /repo/src/bristol_converter.rs on top of a [BufWriter] whose sink may take bytes in pieces, be interrupted or fail: the
    code of Writer.v once more, with [write_all] as the standard library implements it. Then the reader on arbitrary bytes and with a
    source that may fail. Prop_Io.v relates both to Writer.v and Reader.v. *)
From Verif Require Export Writer Reader.
From Coq Require Import Ascii String.
Open Scope N_scope.
Open Scope list_scope.

(** * The sink *)
(** What the next call of the sink's [write] does with a non-empty buffer: take up to [n] bytes, report an interruption, fail. *)
Inductive answer := Take (n : nat) | Interrupt | Fail (k : N).
Fixpoint stake (n : nat) (s : string) : string := match n, s with S n, String c t => String c (stake n t) | _, _ => EmptyString end.
Fixpoint sdrop (n : nat) (s : string) : string := match n, s with S n, String c t => sdrop n t | _, _ => s end.
(** A [BufWriter]: capacity and content of its buffer, the bytes the sink has taken, the sink's future answers. When the list is used up the
    sink takes everything; a finite execution asks finitely often, so every terminating execution is covered. *)
Record bufw := BufW { b_cap : nat; b_buf : string; b_sink : string; b_script : list answer }.
(** The loop of [Write::write_all] and of [BufWriter::flush_buf] (standard library): offer what remains until it is empty. The result, what
    was not taken, the sink and its remaining answers. *)
Fixpoint push_all (script : list answer) (data sink : string) : res unit * string * string * list answer :=
  if String.eqb data "" then (Ok tt, data, sink, script)
  else match script with
       | [] => (Ok tt, "", (sink ++ data)%string, [])
       | Take O :: r => (Err (EIo IoWriteZero), data, sink, r)
       | Take n :: r => push_all r (sdrop n data) (sink ++ stake n data)%string
       | Interrupt :: r => push_all r data sink
       | Fail k :: r => (Err (EIo (IoOther k)), data, sink, r)
       end%string.
(** [BufWriter::flush_buf] (standard library): what was not taken stays in the buffer. *)
Definition flush_buf (b : bufw) : res unit * bufw :=
  let '(r, rest, sink, script) := push_all (b_script b) (b_buf b) (b_sink b) in (r, BufW (b_cap b) rest sink script).
(** [BufWriter::write_all] (standard library): into the buffer when there is room, else flush first; data as long as the buffer go to the
    sink directly. *)
Definition bw_write_all (s : string) (b : bufw) : res unit * bufw :=
  let spare := (b_cap b - String.length (b_buf b))%nat in
  if (String.length s <? spare)%nat then (Ok tt, BufW (b_cap b) (b_buf b ++ s) (b_sink b) (b_script b))
  else
    let '(r, b) := if (spare <? String.length s)%nat then flush_buf b else (Ok tt, b) in
    match r with
    | Ok _ =>
      if (b_cap b <=? String.length s)%nat then
        let '(r, rest, sink, script) := push_all (b_script b) s (b_sink b) in (r, BufW (b_cap b) (b_buf b) sink script)
      else (Ok tt, BufW (b_cap b) (b_buf b ++ s) (b_sink b) (b_script b))
    | _ => (r, b)
    end.
(** [Drop for BufWriter] (standard library): a last flush whose result is ignored. *)
Definition bw_drop (b : bufw) : bufw := snd (flush_buf b).

(** * The writer *)
Record istate := IState {
  i_c : nat;                 (* c_ref *)
  i_num : N;                 (* num_wire *)
  i_const : N;               (* last_const_wire *)
  i_bw : bufw;               (* writer *)
  i_cow : gmap N bool;       (* const_of_wire *)
}.
(** [BristolNXAOWriter::new] (183-190). *)
Definition iwriter_new (l : nat) (b : bufw) : istate := IState l 0 0 b ∅.
Definition IM A := ST istate A.

(** [self.writer.write_all(s)?] *)
Definition i_put (s : string) : IM unit := fun st => let (r, b) := bw_write_all s (i_bw st) in (r, IState (i_c st) (i_num st) (i_const st) b (i_cow st)).
(** [self.c_ref = l] *)
Definition i_set_c (l : nat) : IM unit := fun st => (Ok tt, IState l (i_num st) (i_const st) (i_bw st) (i_cow st)).
Definition i_set_num (n : N) : IM unit := fun st => (Ok tt, IState (i_c st) n (i_const st) (i_bw st) (i_cow st)).
Definition i_set_const (n : N) : IM unit := fun st => (Ok tt, IState (i_c st) (i_num st) n (i_bw st) (i_cow st)).
Definition i_set_cow (m : gmap N bool) : IM unit := fun st => (Ok tt, IState (i_c st) (i_num st) (i_const st) (i_bw st) m).
Definition i_get : IM istate := fun st => (Ok st, st).

(** HashMap index [m[&k]] *)
Definition i_key {A} (m : gmap N A) (k : N) : IM A := fun st => match m !! k with Some v => (Ok v, st) | None => (Panic PKey, st) end.

Open Scope string_scope.
(** [update_wire] (531-553). [num_input] always is the length of [input_wires]. *)
Definition i_update_wire (gid : N) (input_wires : option (list N)) (gate_str : string) (wog : wmap) : IM wmap :=
  st <- i_get ;;
  match input_wires with
  | Some wires => i_put (show_N (N.of_nat (List.length wires)) ++ " 1 " ++ wires_str wires ++ show_N (i_num st) ++ " " ++ gate_str ++ nl)
  | None => st_ret tt
  end ;;
  i_set_num (i_num st + 1) ;;
  st_ret (<[gid := i_num st]> wog).
Close Scope string_scope.

Section heap.
Context (h : heap).

(** The circuit behind [self.c_ref]. *)
Definition i_circ : IM circuit := fun st => match h_circ h !! i_c st with Some c => (Ok c, st) | None => (Panic PDangling, st) end.
(** [self.c_ref.get_gate(&id)?] *)
Definition i_gate (id : N) : IM gate := c <- i_circ ;; st_lift (c_get_gate c id).

(** The recursive call is a parameter, tied by [write_single] below. *)
Section rec.
Context (single : N -> gate -> wmap -> IM wmap).

(** The pattern [if wire_of_gate.get(id).is_none() { let g = self.c_ref.get_gate(id)?; self.write_single_gate(id, g, ..)? }]
    (e.g. 279-282, 377-381, 485-488). *)
Definition i_ensure (wog : wmap) (id : N) : IM wmap :=
  match wog !! id with Some _ => st_ret wog | None => g <- i_gate id ;; single id g wog end.
(** The same for several operands, left to right. *)
Definition i_ensure_all (wog : wmap) (ids : list N) : IM wmap := st_foldM i_ensure wog ids.

(** [write_all_gates] 253-261: constants of the circuit itself. *)
Definition i_write_const (wog : wmap) (id : N) : IM wmap :=
  g <- i_gate id ;;
  match g with
  | GConst b => st <- i_get ;; i_set_cow (<[i_const st := b]> (i_cow st)) ;; i_set_const (i_const st + 1) ;; st_ret (<[id := i_const st]> wog)
  | _ => st_ret wog
  end.
(** 267-350: one round of the first output loop; the ids and gates seen are collected. *)
Definition i_write_pass1 (acc : wmap * list (N * gate)) (i : N) : IM (wmap * list (N * gate)) :=
  c <- i_circ ;;
  id <- st_lift (c_output_to_gate_id c i) ;;
  g <- st_lift (c_get_gate c id) ;;
  let acc' := acc.2 ++ [(id, g)] in
  match g with
  | GInput _ | GConst _ => st_ret (acc.1, acc')
  | GNot a => wog <- i_ensure_all acc.1 [a] ;; st_ret (wog, acc')
  | GXor a b | GAnd a b | GOr a b => wog <- i_ensure_all acc.1 [a; b] ;; st_ret (wog, acc')
  | GModule _ _ ids _ _ => wog <- i_ensure_all acc.1 ids ;; st_ret (wog, acc')
  end.
(** 354-360: one round of the second output loop. *)
Definition i_write_pass2 (wog : wmap) (p : N * gate) : IM wmap :=
  match wog !! p.1 with Some _ => st_ret wog | None => single p.1 p.2 wog end.
(** [write_all_gates] (247-362). *)
Definition i_write_all (wog : wmap) : IM wmap :=
  c <- i_circ ;;
  wog <- st_foldM i_write_const wog (c_get_const_gates c) ;;
  '(wog, outs) <- st_foldM i_write_pass1 (wog, []) (nrange (output_len c)) ;;
  st_foldM i_write_pass2 wog outs.

(** Lines 491-504: [while i < input_ids.len()], wires of the module's inputs. An iteration that finds [None] moves to the next wire. Every
    iteration uses another key of [input_map], so the fuel given below is never exhausted. *)
Fixpoint i_bind_args (fuel : nat) (m : circuit) (wog : wmap) (ids : list N) (w : N) (new : wmap) : IM wmap :=
  match ids with
  | [] => st_ret new
  | id :: r =>
    match fuel with
    | O => fun st => (NoFuel, st)
    | S f =>
      o <- st_lift (c_input_to_gate_id m w) ;;
      match o with
      | Some g => x <- i_key wog id ;; i_bind_args f m wog r (w + 1) (<[g := x]> new)
      | None => i_bind_args f m wog ids (w + 1) new
      end
    end
  end.
(** Lines 510-516: the wires of the module's outputs. *)
Definition i_copy_out (m : circuit) (new : wmap) (first : N) (wog : wmap) (i : N) : IM wmap :=
  o <- st_lift (c_output_to_gate_id m i) ;;
  x <- i_key new o ;;
  st_ret (<[first + i := x]> wog).

(** [write_single_gate] (364-529) with its recursive calls. [gate_id - out_index] (509) cannot underflow on gates made by [module]. *)
Definition i_single_body (id : N) (g : gate) (wog : wmap) : IM wmap :=
  match g with
  | GInput _ => i_update_wire id None (gate_to_str g) wog
  | GConst _ => st_ret wog
  | GNot a =>
    wog <- i_ensure_all wog [a] ;;
    x <- i_key wog a ;;
    i_update_wire id (Some [x]) (gate_to_str g) wog
  | GXor a b | GAnd a b | GOr a b =>
    wog <- i_ensure_all wog [a; b] ;;
    x <- i_key wog a ;; y <- i_key wog b ;;
    i_update_wire id (Some [x; y]) (gate_to_str g) wog
  | GModule _ ol ids oi mid =>
    wog <- i_ensure_all wog ids ;;
    c <- i_circ ;;
    l' <- (match h_stor h !! c_storage c with
           | Some x => match module_map x !! mid with Some l' => st_ret l' | None => st_err (EUnknownModule mid) end
           | None => st_panic PDangling end) ;;
    m <- (match h_circ h !! l' with Some m => st_ret m | None => st_panic PDangling end) ;;
    new <- i_bind_args (List.length ids + size (input_map m) + 1) m wog ids 0 ∅ ;;
    st <- i_get ;;
    i_set_c l' ;;
    new <- i_write_all new ;;
    i_set_c (i_c st) ;;
    st_foldM (i_copy_out m new (id - oi)) wog (nrange ol)
  end.
End rec.

Fixpoint i_write_single (fuel : nat) (id : N) (g : gate) (wog : wmap) : IM wmap :=
  match fuel with
  | O => fun st => (NoFuel, st)
  | S f => i_single_body (i_write_single f) id g wog
  end.

(** Lines 225-238: the input gates, in the order of their wires. *)
Fixpoint i_write_inputs (fuel : nat) (single : N -> gate -> wmap -> IM wmap) (k : nat) (w : N) (wog : wmap) : IM wmap :=
  match k with
  | O => st_ret wog
  | S k' =>
    match fuel with
    | O => fun st => (NoFuel, st)
    | S f =>
      c <- i_circ ;;
      o <- st_lift (c_input_to_gate_id c w) ;;
      match o with
      | Some id => g <- st_lift (c_get_gate c id) ;; wog <- single id g wog ;; i_write_inputs f single k' (w + 1) wog
      | None => i_write_inputs f single k (w + 1) wog
      end
    end
  end.

Open Scope string_scope.
(** [write] (192-245). [given] is the content of the caller's map, empty when the caller passes [None]; the result is the returned vector
    of constants and the final content of that map. The count [num_wire + num_const] of the header is exact: [num_wire] never is negative
    (wf_wires in Inv.v). *)
Definition write_io (fuel : nat) (num_first_input : N) (given : wmap) : IM (list bool * wmap) :=
  c <- i_circ ;;
  i_put (show_N (num_gate c) ++ " " ++ show_N (Z.to_N (num_wire c) + num_const c) ++ nl) ;;
  let num_all_input := input_len c + num_const c in
  (if (num_first_input <=? num_all_input)%N then st_ret tt else st_panic PAssert) ;;
  i_put ("2 " ++ show_N num_first_input ++ " " ++ show_N (num_all_input - num_first_input) ++ nl) ;;
  i_put ("1 " ++ show_N (output_len c) ++ nl) ;;
  i_put nl ;;
  i_set_cow ∅ ;;
  wog <- i_write_inputs (N.to_nat (input_len c) + size (input_map c) + 1) (i_write_single fuel) (N.to_nat (input_len c)) 0 given ;;
  i_set_const (input_len c) ;;
  st <- i_get ;;
  i_set_num (i_num st + num_const c) ;;
  wog <- i_write_all (i_write_single fuel) wog ;;
  st <- i_get ;;
  vals <- st_mapM (i_key (i_cow st)) (map (fun i => input_len c + i) (nrange (i_const st - input_len c))) ;;
  st_ret (vals, wog).
Close Scope string_scope.
End heap.


(** * The reader *)
(** What the [Lines] iterator yields next: a line, or the error of the source. *)
Inductive src_line := SLine (s : string) | SFail (k : io_error).
(** [lines_iter.next().ok_or(NotFoundLine(n))??] (59, 69, 88) *)
Definition next_src (n : N) (ls : list src_line) : res (string * list src_line) :=
  match ls with [] => Err (ENotFoundLine n) | SLine x :: r => Ok (x, r) | SFail k :: _ => Err (EIo k) end.
(** [lines_iter.next().ok_or(NotFoundLine(4))?] (104): one question mark only, so an error of the source is dropped. *)
Definition skip_src (n : N) (ls : list src_line) : res (list src_line) :=
  match ls with [] => Err (ENotFoundLine n) | _ :: r => Ok r end.

(** Bytes 128 to 191 continue a character in UTF-8. *)
Definition in_range (lo hi : N) (c : ascii) : bool := let n := N_of_ascii c in (lo <=? n) && (n <=? hi).
Definition cont (c : ascii) : bool := in_range 128 191 c.
Definition lead2 (c d : ascii) : bool := in_range 194 223 c && cont d.
Definition lead3 (c d e : ascii) : bool :=
  (in_range 224 224 c && in_range 160 191 d || in_range 225 236 c && cont d || in_range 237 237 c && in_range 128 159 d || in_range 238 239 c && cont d) && cont e.
Definition lead4 (c d e f : ascii) : bool :=
  (in_range 240 240 c && in_range 144 191 d || in_range 241 243 c && cont d || in_range 244 244 c && in_range 128 143 d) && cont e && cont f.
(** [str::from_utf8] (standard library): the characters of a byte string, each as its own bytes; none if it is not UTF-8. *)
Fixpoint uchars (s : string) : option (list string) :=
  match s with
  | EmptyString => Some []
  | String c t =>
    if in_range 0 127 c then cons (String c "") <$> uchars t
    else match t with
    | EmptyString => None
    | String d u =>
      if lead2 c d then cons (String c (String d "")) <$> uchars u
      else match u with
      | EmptyString => None
      | String e v =>
        if lead3 c d e then cons (String c (String d (String e ""))) <$> uchars v
        else match v with
        | EmptyString => None
        | String f w => if lead4 c d e f then cons (String c (String d (String e (String f "")))) <$> uchars w else None
        end
      end
    end
  end.
(** [char::is_whitespace] (standard library, property White_Space of Unicode) on an encoded character: U+0009 to U+000D, U+0020, U+0085, U+00A0,
    U+1680, U+2000 to U+200A, U+2028, U+2029, U+202F, U+205F, U+3000. *)
Definition is_uws (s : string) : bool :=
  match map N_of_ascii (list_ascii_of_string s) with
  | [a] => ((9 <=? a) && (a <=? 13)) || (a =? 32)
  | [a; b] => (a =? 194) && ((b =? 133) || (b =? 160))
  | [a; b; c] => (a =? 225) && (b =? 154) && (c =? 128)
      || (a =? 226) && (b =? 128) && ((128 <=? c) && (c <=? 138) || (c =? 168) || (c =? 169) || (c =? 175))
      || (a =? 226) && (b =? 129) && (c =? 159)
      || (a =? 227) && (b =? 128) && (c =? 128)
  | _ => false
  end.
(** [str::split_whitespace] (standard library) on a list of characters. *)
Fixpoint utokens (cs : list string) : list string :=
  match cs with
  | [] => []
  | c :: r => if is_uws c then utokens r
              else match r with
                   | [] => [c]
                   | d :: _ => if is_uws d then c :: utokens r
                               else match utokens r with [] => [c] | x :: ts => (c ++ x)%string :: ts end
                   end
  end.
(** The tokens of a line, which is valid UTF-8. *)
Definition line_tokens (s : string) : list string := match uchars s with Some cs => utokens cs | None => [] end.
(** Lines 105-162: [for result in lines_iter { let l = result?; if l.len() == 0 { break; } .. }]. *)
Fixpoint rd_src (l : nat) (ls : list src_line) : RM unit :=
  match ls with
  | [] => st_ret tt
  | SFail k :: _ => st_err (EIo k)
  | SLine x :: r => if String.eqb x "" then st_ret tt else rd_line l (line_tokens x) ;; rd_src l r
  end.
(** [BristolReader::read] (53-169) on whatever the lines of the source are. *)
Definition read_src (md : mode) (l : nat) (src : list src_line) : RM unit :=
  '(l1, ls) <- st_lift (next_src 1 src) ;;
  '(_, ts) <- st_lift (next_num (line_tokens l1)) ;;
  '(num_wire, _) <- st_lift (next_num ts) ;;
  '(l2, ls) <- st_lift (next_src 2 ls) ;;
  '(num_input, ts) <- st_lift (next_num (line_tokens l2)) ;;
  rd_groups l ts num_input 0 ;;
  '(l3, ls) <- st_lift (next_src 3 ls) ;;
  '(num_output, ts) <- st_lift (next_num (line_tokens l3)) ;;
  osum <- st_lift (rd_sum md ts num_output 0) ;;
  ls <- st_lift (skip_src 4 ls) ;;
  rd_src l ls ;;
  lo <- st_lift (usize_sub md num_wire osum) ;;
  rd_outputs l (N.to_nat (num_wire - lo)) lo.
(** [BufRead::lines] (58) on bytes that can all be read: a line that is not UTF-8 is an error, reading goes on after it. *)
Definition src_of (line : string) : src_line := match uchars line with Some _ => SLine line | None => SFail IoInvalidData end.
Definition read_bytes (md : mode) (l : nat) (bytes : string) : RM unit := read_src md l (map src_of (lines bytes)).
