(** Outcomes, errors, usize arithmetic and the state monad used by the whole model. *)
From stdpp Require Export base list gmap numbers list_numbers strings.
From Coq Require Export ZArith NArith Lia.
Export ListNotations.
Global Open Scope N_scope.

(** Error values. Models the enums
    [BoolCircuitError] (/repo/src/bool_circuit.rs 8-30),
    [BristolError]     (/repo/src/bristol_converter.rs 11-35) and
    [EvaluatorError]   (/repo/src/evaluator.rs 6-16).
    One Coq type replaces the three enums and the [#[from]] wrappers; variants the code never builds are kept only where
    a property mentions them. *)
Inductive int_error := IntEmpty | IntInvalidDigit | IntPosOverflow.
(** Kinds of [std::io::Error]: the one that [write_all] and [flush_buf] report when a sink takes no bytes, the one for a line that is not
    UTF-8, and whatever kinds the caller's reader or sink reports. *)
Inductive io_error := IoWriteZero | IoInvalidData | IoOther (k : N).
Inductive error :=
| EUnknownGate (g : N)              (* BoolCircuitError::UnknownGate *)
| EUnknownModule (m : N)            (* BoolCircuitError::UnknownModule *)
| EUnknownInput (w : N)             (* BoolCircuitError::UnknownInput *)
| EUnknownOutput (w : N)            (* BoolCircuitError::UnknownOutput *)
| EUnknownEvaledBit (g : N)         (* EvaluatorError::UnknownEvaledBit *)
| EInvalidInputLen (given want : N) (* EvaluatorError::InvalidInputLen *)
| ENotFoundLine (n : N)             (* BristolError::NotFoundLine *)
| ELineSplit                        (* BristolError::LineSplitError *)
| EUnknownWire (w : N)              (* BristolError::UnknownWire *)
| ENotSupportedGate (s : string)    (* BristolError::NotSupportedGate *)
| EParseInt (k : int_error)         (* BristolError::ParseIntError *)
| EIo (k : io_error).               (* BristolError::IOError *)

(** Panic causes (explicit error values for the panicking paths of the Rust code). *)
Inductive panic :=
| PArith     (* usize overflow or underflow in a build with overflow checks *)
| PIndex     (* slice or Vec index out of bounds *)
| PKey       (* HashMap index with a missing key *)
| PBorrow    (* RefCell already (mutably) borrowed *)
| PAssert    (* assert! / assert_eq! *)
| PExpect    (* .expect(..) on an Err *)
| PDangling. (* a location that is no circuit or storage: cannot happen in Rust, [Rc] handles are always valid *)

Inductive res (A : Type) :=
| Ok (a : A) | Err (e : error) | Panic (p : panic)
| NoFuel.    (* the fuel of a recursive function is exhausted: models non-termination / stack overflow *)
Arguments Ok {A} a. Arguments Err {A} e. Arguments Panic {A} p. Arguments NoFuel {A}.

Definition is_ok {A} (r : res A) : bool := match r with Ok _ => true | _ => false end.

(** The two arithmetic modes of a Rust build: overflow checks on (dev and test profiles, hence this crate's tests) or off. *)
Inductive mode := Debug | Release.
Definition usize_modulus : N := 2 ^ 64.

(** [a - b] on usize. *)
Definition usize_sub (md : mode) (a b : N) : res N :=
  if b <=? a then Ok (a - b)
  else match md with Debug => Panic PArith | Release => Ok (usize_modulus + a - b) end.
(** [a + b] on usize. *)
Definition usize_add (md : mode) (a b : N) : res N :=
  if a + b <? usize_modulus then Ok (a + b)
  else match md with Debug => Panic PArith | Release => Ok ((a + b) mod usize_modulus) end.

(** State monad with outcomes: a function that takes [&mut S] and returns [Result<A, _>]. The state survives errors. *)
Definition ST (S A : Type) := S -> res A * S.
Definition st_ret {S A} (a : A) : ST S A := fun s => (Ok a, s).
Definition st_err {S A} (e : error) : ST S A := fun s => (Err e, s).
Definition st_panic {S A} (p : panic) : ST S A := fun s => (Panic p, s).
Definition st_bind {S A B} (m : ST S A) (k : A -> ST S B) : ST S B := fun s =>
  match m s with
  | (Ok a, s') => k a s'
  | (Err e, s') => (Err e, s')
  | (Panic p, s') => (Panic p, s')
  | (NoFuel, s') => (NoFuel, s')
  end.
(** Lifting a pure outcome. *)
Definition st_lift {S A} (r : res A) : ST S A := fun s => (r, s).
(** [.expect(..)]: an error becomes a panic. *)
Definition st_expect {S A} (m : ST S A) : ST S A := fun s =>
  match m s with (Err _, s') => (Panic PExpect, s') | r => r end.

Declare Scope st_scope.
Delimit Scope st_scope with st.
Notation "x <- m ;; k" := (st_bind m (fun x => k)) (at level 100, m at next level, k at level 200, right associativity) : st_scope.
Notation "' p <- m ;; k" := (st_bind m (fun p => k)) (at level 100, p pattern, m at next level, k at level 200, right associativity) : st_scope.
Notation "m ;; k" := (st_bind m (fun _ => k)) (at level 100, k at level 200, right associativity) : st_scope.
Global Open Scope st_scope.

Definition res_bind {A B} (m : res A) (k : A -> res B) : res B :=
  match m with Ok a => k a | Err e => Err e | Panic p => Panic p | NoFuel => NoFuel end.

Lemma st_bind_ok {S A B} (m : ST S A) (k : A -> ST S B) s a s' :
  m s = (Ok a, s') -> st_bind m k s = k a s'.
Proof. unfold st_bind. intros ->. reflexivity. Qed.

(** [for x in xs { out.push(f(x)?) }] *)
Fixpoint st_mapM {S A B} (f : A -> ST S B) (xs : list A) : ST S (list B) :=
  match xs with
  | [] => st_ret []
  | x :: xs => y <- f x ;; ys <- st_mapM f xs ;; st_ret (y :: ys)
  end.
(** [for x in xs { f(x)?; }] *)
Fixpoint st_iterM {S A} (f : A -> ST S unit) (xs : list A) : ST S unit :=
  match xs with
  | [] => st_ret tt
  | x :: xs => f x ;; st_iterM f xs
  end.
(** [for x in xs { acc = f(acc, x)?; }] *)
Fixpoint st_foldM {S A B} (f : B -> A -> ST S B) (acc : B) (xs : list A) : ST S B :=
  match xs with
  | [] => st_ret acc
  | x :: xs => acc' <- f acc x ;; st_foldM f acc' xs
  end.
(** Vec index [v[i]]: panics out of bounds. *)
Definition st_nth {S A} (v : list A) (i : nat) : ST S A := fun s =>
  match v !! i with Some a => (Ok a, s) | None => (Panic PIndex, s) end.

(** [0, 1, .., n-1]. *)
Definition nrange (n : N) : list N := map N.of_nat (seq 0 (N.to_nat n)).

Lemma nrange_length n : length (nrange n) = N.to_nat n.
Proof. unfold nrange. rewrite map_length, seq_length. reflexivity. Qed.
Lemma nrange_succ n : nrange (n + 1) = nrange n ++ [n].
Proof.
  unfold nrange. replace (N.to_nat (n + 1)) with (S (N.to_nat n)) by lia.
  rewrite seq_S, map_app. simpl. rewrite N2Nat.id. reflexivity.
Qed.
Lemma nrange_0 : nrange 0 = [].
Proof. reflexivity. Qed.
Lemma elem_of_nrange n x : x ∈ nrange n <-> x < n.
Proof.
  unfold nrange. rewrite elem_of_list_fmap. setoid_rewrite elem_of_seq. split.
  - intros (y & -> & ?). lia.
  - intros. exists (N.to_nat x). lia.
Qed.
Lemma nrange_lookup n k : nrange n !! k = if decide (N.of_nat k < n) then Some (N.of_nat k) else None.
Proof.
  unfold nrange. rewrite list_lookup_fmap. destruct decide.
  - rewrite lookup_seq_lt by lia. reflexivity.
  - rewrite lookup_seq_ge by lia. reflexivity.
Qed.
Lemma nrange_S_l k : nrange (N.of_nat (S k)) = 0 :: map (fun x => x + 1) (nrange (N.of_nat k)).
Proof.
  unfold nrange. rewrite !Nat2N.id. simpl. f_equal. rewrite <- seq_shift, !map_map.
  apply map_ext. intros. lia.
Qed.
Lemma NoDup_nrange n : NoDup (nrange n).
Proof. unfold nrange. apply NoDup_fmap_2; [intros ???; lia | apply NoDup_seq]. Qed.
