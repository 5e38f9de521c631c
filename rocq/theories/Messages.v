(** Model of the ids of /repo/src/gates.rs 5-73 and of the messages of the three error enums (derive(Error) with [#[error(..)]]). *)
From Verif Require Export Text Circuit.
Open Scope N_scope.
Open Scope string_scope.

(** [WireId + WireId], [+=] (14-25) and [GateId + GateId], [+=] (45-56): addition of u64 values, here the addition of 64-bit numbers. *)
Definition id_add (md : mode) (a b : N) : res N := usize_add md a b.
(** [Zero for WireId] (27-35), [Zero for GateId] (58-66). *)
Definition id_zero : N := 0.
Definition id_is_zero (a : N) : bool := (a =? 0)%N.
(** [Display for WireId], [GateId], [ModuleId] (8-12, 39-43, 70-74). *)
Definition id_show (a : N) : string := show_N a.

(** [BoolCircuitError] (/repo/src/bool_circuit.rs 8-30), all variants. *)
Inductive circuit_error :=
| CUnknownGate (g : N) | CUnknownModule (m : N) | CUnknownInput (w : N) | CUnknownOutput (w : N) | CUnknownDependence (g : N)
| CFixedInput (w : N) | CNotConstGate (g : N) | CNotModuleGate (g : N) | CUnknownInputOfModule (g m : N) | CInvalidModuleInputGate.
(** Its messages: the [#[error("..")]] attributes of the variants. *)
Definition circuit_message (e : circuit_error) : string :=
  match e with
  | CUnknownGate g => "The gate of id " ++ id_show g ++ " is unknown."
  | CUnknownModule m => "The module of id " ++ id_show m ++ " is unknown."
  | CUnknownInput w => "The input of the wire id " ++ id_show w ++ " is unknown."
  | CUnknownOutput w => "The output of the wire id " ++ id_show w ++ " is unknown."
  | CUnknownDependence g => "The depended gate ids for the gate id " ++ id_show g ++ " is unknown."
  | CFixedInput w => "The input of wire id " ++ id_show w ++ " is fixed."
  | CNotConstGate g => "The gate of id " ++ id_show g ++ " is not constant gate"
  | CNotModuleGate g => "The gate of id " ++ id_show g ++ " is not module gate"
  | CUnknownInputOfModule g m => "The input gate of id " ++ id_show g ++ " is not found in the module of id " ++ id_show m
  | CInvalidModuleInputGate => "There is no valid gate in input gates of the module."
  end.
(** [Display for ParseIntError] (core::num), for the kinds that [usize::from_str] returns. *)
Definition parse_int_message (k : int_error) : string :=
  match k with
  | IntEmpty => "cannot parse integer from empty string"
  | IntInvalidDigit => "invalid digit found in string"
  | IntPosOverflow => "number too large to fit in target type"
  end.
(** [BristolError] (/repo/src/bristol_converter.rs 11-35), all variants. The message of an I/O error is whatever the caller's reader or sink
    makes it. *)
Inductive bristol_error :=
| BNotFoundLine (n : N) | BLineSplit | BUnknownWire (w : N) | BUnknownGate (g : N) | BInvalidOutputGate (w : N) | BNotSupportedGate (s : string)
| BConstGateInWriter (g : N) | BCircuit (e : circuit_error) | BIo (msg : string) | BFmt | BParseInt (k : int_error).
Definition bristol_message (e : bristol_error) : string :=
  match e with
  | BNotFoundLine n => "The " ++ show_N n ++ "-th line is not found."
  | BLineSplit => "Fail to split a line."
  | BUnknownWire w => "Unknown wire " ++ show_N w ++ " exists in the bristol file."
  | BUnknownGate g => "Unknown gate of id " ++ id_show g ++ " exists in the circuit."
  | BInvalidOutputGate w => "The " ++ id_show w ++ "-th output gate should be either NOT, XOR, AND, OR gate."
  | BNotSupportedGate s => "The gate " ++ s ++ " is not supported."
  | BConstGateInWriter g => "The constant gate of id " ++ id_show g ++ " cannot be written to a bristol file."
  | BCircuit e => circuit_message e
  | BIo m => m
  | BFmt => "an error occurred when formatting an argument"
  | BParseInt k => parse_int_message k
  end.
(** [EvaluatorError] (/repo/src/evaluator.rs 6-16), all variants. *)
Inductive evaluator_error := VUnknownEvaledBit (g : N) | VInvalidInputLen (given want : N) | VNotSupportedGate (g : N) | VCircuit (e : circuit_error).
Definition evaluator_message (e : evaluator_error) : string :=
  match e with
  | VUnknownEvaledBit g => "The evaled bit of the gate id " ++ id_show g ++ " is unknown."
  | VInvalidInputLen n m => "The number of given inputs is " ++ show_N n ++ ", but the input length is " ++ show_N m ++ "."
  | VNotSupportedGate g => "The gate of the gate id " ++ id_show g ++ " is not supported."
  | VCircuit e => circuit_message e
  end.

(** The errors of the model ([Base.v]) as values of the enums; [BIo] is left out, see above. *)
Definition as_circuit (e : error) : option circuit_error :=
  match e with
  | EUnknownGate g => Some (CUnknownGate g) | EUnknownModule m => Some (CUnknownModule m)
  | EUnknownInput w => Some (CUnknownInput w) | EUnknownOutput w => Some (CUnknownOutput w)
  | _ => None
  end.
Definition as_bristol (e : error) : option bristol_error :=
  match e with
  | ENotFoundLine n => Some (BNotFoundLine n) | ELineSplit => Some BLineSplit | EUnknownWire w => Some (BUnknownWire w)
  | ENotSupportedGate s => Some (BNotSupportedGate s) | EParseInt k => Some (BParseInt k)
  | _ => BCircuit <$> as_circuit e
  end.
Definition as_evaluator (e : error) : option evaluator_error :=
  match e with
  | EUnknownEvaledBit g => Some (VUnknownEvaledBit g) | EInvalidInputLen n m => Some (VInvalidInputLen n m)
  | _ => VCircuit <$> as_circuit e
  end.
