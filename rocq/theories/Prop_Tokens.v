(** What of a text matters to the reader: C97. *)
From Verif Require Export Prop_Reader.
Open Scope N_scope.
Open Scope list_scope.

(** * Specification *)
(** Two lists of lines, from line number [k] (counted from 0) on, with corresponding lines related by [R k]. Of the fourth line, and of what follows the first
    empty line after it, nothing is said. *)
Inductive alike_lines (R : nat -> string -> string -> Prop) : nat -> list string -> list string -> Prop :=
| al_end k : alike_lines R k [] []
| al_head k x y r r' : (k < 3)%nat -> R k x y -> alike_lines R (S k) r r' -> alike_lines R k (x :: r) (y :: r')
| al_fourth x y r r' : alike_lines R 4 r r' -> alike_lines R 3 (x :: r) (y :: r')
| al_gate x y r r' : x <> EmptyString -> y <> EmptyString -> R 4%nat x y -> alike_lines R 4 r r' -> alike_lines R 4 (x :: r) (y :: r')
| al_stop r r' : alike_lines R 4 (EmptyString :: r) (EmptyString :: r').
(** The same tokens; in the first line the first token, the number of gates, may be another number. *)
Definition same_tokens (k : nat) (x y : string) : Prop :=
  tokens x = tokens y \/ k = 0%nat /\ exists a b n m ts, tokens x = a :: ts /\ tokens y = b :: ts /\ parse_usize a = Ok n /\ parse_usize b = Ok m.
(** The same tokens in this sense, and further ones at the end of the second line. *)
Definition more_tokens (k : nat) (x y : string) : Prop :=
  exists more, tokens y = tokens x ++ more \/
    k = 0%nat /\ exists a b n m ts, tokens x = a :: ts /\ tokens y = b :: ts ++ more /\ parse_usize a = Ok n /\ parse_usize b = Ok m.

(** * Proofs *)
Lemma next_num_more ts more : next_num ts <> Err ELineSplit ->
  next_num (ts ++ more) = match next_num ts with Ok (n, r) => Ok (n, r ++ more) | Err e => Err e | Panic p => Panic p | NoFuel => NoFuel end.
Proof. destruct ts as [|t ts]; [done|]. intros _. unfold next_num. cbn. by destruct (parse_usize t). Qed.
Lemma groups_more l more : forall ts k sum s, fst (rd_groups l ts k sum s) <> Err ELineSplit -> rd_groups l (ts ++ more) k sum s = rd_groups l ts k sum s.
Proof.
  induction ts as [|t ts IH]; intros k sum s; cbn [rd_groups app].
  - destruct (k =? 0) eqn:E; [|done]. intros _. destruct more; cbn [rd_groups]; by rewrite E.
  - destruct (k =? 0); [done|]. unfold st_bind, st_lift. destruct (parse_usize t) as [n| | |]; try done.
    destruct (rd_inputs l (N.to_nat n) sum s) as [[[]| | |] s']; try done. apply IH.
Qed.
Lemma sum_more md more : forall ts k sum, rd_sum md ts k sum <> Err ELineSplit -> rd_sum md (ts ++ more) k sum = rd_sum md ts k sum.
Proof.
  induction ts as [|t ts IH]; intros k sum; cbn [rd_sum app].
  - destruct (k =? 0) eqn:E; [|done]. intros _. destruct more; cbn [rd_sum]; by rewrite E.
  - destruct (k =? 0); [done|]. destruct (parse_usize t) as [n| | |]; cbn; try done. destruct (usize_add md sum n); cbn; try done. apply IH.
Qed.
Definition with_more {A} (more : list string) (r : res (A * list string)) : res (A * list string) :=
  match r with Ok (a, r) => Ok (a, r ++ more) | Err e => Err e | Panic p => Panic p | NoFuel => NoFuel end.
Lemma operands_more gw more : forall ts k, rd_operands gw ts k <> Err ELineSplit -> rd_operands gw (ts ++ more) k = with_more more (rd_operands gw ts k).
Proof.
  induction ts as [|t ts IH]; intros k; cbn [rd_operands app].
  - destruct (k =? 0) eqn:E; [|done]. intros _. destruct more; cbn [rd_operands]; by rewrite E.
  - destruct (k =? 0); [done|]. destruct (parse_usize t) as [n| | |]; cbn; try done. destruct (gw !! n); [|done]. intros H. rewrite IH.
    + by destruct (rd_operands gw ts (k - 1)) as [[]| | |].
    + intros E. by rewrite E in H.
Qed.
Lemma nums_more more : forall ts k, rd_nums ts k <> Err ELineSplit -> rd_nums (ts ++ more) k = with_more more (rd_nums ts k).
Proof.
  induction ts as [|t ts IH]; intros k; cbn [rd_nums app].
  - destruct (k =? 0) eqn:E; [|done]. intros _. destruct more; cbn [rd_nums]; by rewrite E.
  - destruct (k =? 0); [done|]. destruct (parse_usize t) as [n| | |]; cbn; try done. intros H. rewrite IH.
    + by destruct (rd_nums ts (k - 1)) as [[]| | |].
    + intros E. by rewrite E in H.
Qed.
Lemma bind_lift {A B} (r : res A) (k : A -> RM B) s :
  st_bind (st_lift r) k s = match r with Ok a => k a s | Err e => (Err e, s) | Panic p => (Panic p, s) | NoFuel => (NoFuel, s) end.
Proof. by destruct r. Qed.
Lemma bind_map {B} (k : gmap N N -> RM B) s : st_bind rd_map k s = k s.1 s.
Proof. done. Qed.
Lemma line_more l ts more s : fst (rd_line l ts s) <> Err ELineSplit -> rd_line l (ts ++ more) s = rd_line l ts s.
Proof.
  unfold rd_line. rewrite !bind_lift. intros H.
  assert (H1 : next_num ts <> Err ELineSplit) by (intros E; by rewrite E in H). rewrite (next_num_more ts more H1).
  destruct (next_num ts) as [[n t1]| | |]; try done. rewrite !bind_lift in *.
  assert (H2 : next_num t1 <> Err ELineSplit) by (intros E; by rewrite E in H). rewrite (next_num_more t1 more H2).
  destruct (next_num t1) as [[m t2]| | |]; try done. rewrite !bind_map, !bind_lift in *.
  assert (H3 : rd_operands s.1 t2 n <> Err ELineSplit) by (intros E; by rewrite E in H). rewrite (operands_more s.1 more t2 n H3).
  destruct (rd_operands s.1 t2 n) as [[gs t3]| | |]; try done. cbn [with_more]. rewrite !bind_lift in *.
  assert (H4 : rd_nums t3 m <> Err ELineSplit) by (intros E; by rewrite E in H). rewrite (nums_more more t3 m H4).
  destruct (rd_nums t3 m) as [[os t4]| | |]; try done. cbn [with_more]. rewrite !bind_lift in *. by destruct t4.
Qed.
Lemma bind_rm {A B} (m : RM A) (k : A -> RM B) s :
  st_bind m k s = match m s with (Ok a, s') => k a s' | (Err e, s') => (Err e, s') | (Panic p, s') => (Panic p, s') | (NoFuel, s') => (NoFuel, s') end.
Proof. unfold st_bind. by destruct (m s) as [[]]. Qed.
Lemma lines_more l ls ls' : alike_lines more_tokens 4 ls ls' -> forall s, fst (rd_lines l ls s) <> Err ELineSplit -> rd_lines l ls' s = rd_lines l ls s.
Proof.
  remember 4%nat as k eqn:Ek. induction 1 as [k|k x y r r' Hk Hx _ _|x y r r' _ _|x y r r' Hx Hy Hxy _ IH|r r']; intros s; [done|lia|done| |done].
  cbn [rd_lines]. destruct (String.eqb_spec x ""); [done|]. destruct (String.eqb_spec y ""); [done|]. rewrite !bind_rm. intros H.
  destruct Hxy as (more & [->|[? _]]); [|done]. rewrite line_more; [|intros E; destruct (rd_line l (tokens x) s) as [[]]; cbn in E; by simplify_eq].
  destruct (rd_line l (tokens x) s) as [[[]| | |] s']; try done. by apply IH.
Qed.
Lemma lines_same l ls ls' : alike_lines same_tokens 4 ls ls' -> forall s, rd_lines l ls' s = rd_lines l ls s.
Proof.
  remember 4%nat as k eqn:Ek. induction 1 as [k|k x y r r' Hk Hx _ _|x y r r' _ _|x y r r' Hx Hy Hxy _ IH|r r']; intros s; [done|lia|done| |done].
  cbn [rd_lines]. destruct (String.eqb_spec x ""); [done|]. destruct (String.eqb_spec y ""); [done|]. destruct Hxy as [->|[? _]]; [|done]. rewrite !bind_rm.
  destruct (rd_line l (tokens y) s) as [[[]| | |] s']; try done. by apply IH.
Qed.
(** The number of wires in the first line. *)
Definition wires_of (ts : list string) : res N := res_bind (next_num ts) (fun '(_, ts) => res_bind (next_num ts) (fun '(n, _) => Ok n)).
Lemma bind_wires {B} ts (k : N -> RM B) s :
  ('(_, ts) <- st_lift (next_num ts) ;; '(n, _) <- st_lift (next_num ts) ;; k n) s = (n <- st_lift (wires_of ts) ;; k n) s.
Proof. unfold wires_of. rewrite bind_lift. destruct (next_num ts) as [[a r]| | |]; try done. unfold st_bind, st_lift. cbn. by destruct (next_num r) as [[]| | |]. Qed.
Lemma wires_same x y : same_tokens 0 x y -> wires_of (tokens y) = wires_of (tokens x).
Proof.
  intros [->|[_ (a & b & n & m & ts & -> & -> & Ea & Eb)]]; [done|]. unfold wires_of, next_num at 1 3. cbn. by rewrite Ea, Eb.
Qed.
Lemma wires_more x y : more_tokens 0 x y -> wires_of (tokens x) <> Err ELineSplit -> wires_of (tokens y) = wires_of (tokens x).
Proof.
  intros (more & [->|[_ (a & b & n & m & ts & -> & -> & Ea & Eb)]]).
  - unfold wires_of. intros H. assert (H1 : next_num (tokens x) <> Err ELineSplit) by (intros E; by rewrite E in H). rewrite (next_num_more _ more H1).
    destruct (next_num (tokens x)) as [[n t1]| | |]; try done. cbn in *. assert (H2 : next_num t1 <> Err ELineSplit) by (intros E; by rewrite E in H).
    rewrite (next_num_more _ more H2). by destruct (next_num t1) as [[]| | |].
  - unfold wires_of, next_num at 1 3 5. cbn. rewrite Ea, Eb. cbn. intros H. assert (H2 : next_num ts <> Err ELineSplit) by (intros E; by rewrite E in H).
    rewrite (next_num_more _ more H2). by destruct (next_num ts) as [[]| | |].
Qed.

Definition rest_of (md : mode) (l : nat) (ls : list string) (num_wire : N) : RM unit :=
  '(l2, ls) <- st_lift (next_line 2 ls) ;;
  '(num_input, ts) <- st_lift (next_num (tokens l2)) ;;
  rd_groups l ts num_input 0 ;;
  '(l3, ls) <- st_lift (next_line 3 ls) ;;
  '(num_output, ts) <- st_lift (next_num (tokens l3)) ;;
  osum <- st_lift (rd_sum md ts num_output 0) ;;
  '(_, ls) <- st_lift (next_line 4 ls) ;;
  rd_lines l ls ;;
  lo <- st_lift (usize_sub md num_wire osum) ;;
  rd_outputs l (N.to_nat (num_wire - lo)) lo.
Lemma read_eq md l text s : read md l text s =
  match lines text with [] => (Err (ENotFoundLine 1), s) | x :: r => (nw <- st_lift (wires_of (tokens x)) ;; rest_of md l r nw) s end.
Proof. unfold read. destruct (lines text) as [|x r]; [done|]. exact (bind_wires (tokens x) (rest_of md l r) s). Qed.

(** * C97 *)
(** Two texts with the same tokens in all lines that count (and with any number of gates): the reader does the same, in any state, also if it fails. *)
Theorem C97_tokens md l text text' s : alike_lines same_tokens 0 (lines text) (lines text') -> read md l text' s = read md l text s.
Proof.
  intros H. rewrite !read_eq. inversion H as [? E1 E2|? x y r r' _ Hxy H1 E E1 E2| | |]; subst; [done|]. clear H E1 E2. rewrite (wires_same x y Hxy), ?bind_lift.
  destruct (wires_of (tokens x)) as [nw| | |]; try done. clear x y Hxy. unfold rest_of in *.
  inversion H1 as [? E1 E2|? x y r0 r0' _ Hxy H2 E E1 E2| | |]; subst; [done|]. clear H1. cbn [next_line]. rewrite ?bind_lift. cbn iota. destruct Hxy as [->|[? _]]; [|done]. rewrite ?bind_lift.
  destruct (next_num (tokens y)) as [[ni ts]| | |]; try done. rewrite ?bind_rm. destruct (rd_groups l ts ni 0 s) as [[[]| | |] s1]; try done. clear x y.
  inversion H2 as [? E1 E2|? x y r1 r1' _ Hxy H3 E E1 E2| | |]; subst; [done|]. clear H2. cbn [next_line]. rewrite ?bind_lift. cbn iota. destruct Hxy as [->|[? _]]; [|done]. rewrite ?bind_lift.
  destruct (next_num (tokens y)) as [[no ts']| | |]; try done. rewrite ?bind_lift. destruct (rd_sum md ts' no 0) as [os| | |]; try done. clear x y.
  inversion H3 as [? E1 E2|? x y r2 r2' Hk|x y r2 r2' H4 E1 E2| |]; subst; [done|lia|]. cbn [next_line]. rewrite ?bind_lift, ?bind_rm. by rewrite (lines_same l _ _ H4).
Qed.
(** With further tokens at the ends of lines it does the same too, unless it failed for lack of tokens. *)
Theorem C97_more md l text text' s : alike_lines more_tokens 0 (lines text) (lines text') -> fst (read md l text s) <> Err ELineSplit ->
  read md l text' s = read md l text s.
Proof.
  intros H. rewrite !read_eq. inversion H as [? E1 E2|? x y r r' _ Hxy H1 E E1 E2| | |]; subst; [done|]. clear H E1 E2. rewrite ?bind_lift.
  intros H. rewrite (wires_more x y Hxy) by (intros E; by rewrite E in H).
  destruct (wires_of (tokens x)) as [nw| | |]; try done. clear x y Hxy. unfold rest_of in *.
  inversion H1 as [? E1 E2|? x y r0 r0' _ Hxy H2 E E1 E2| | |]; subst; [done|]. clear H1. cbn [next_line] in *. rewrite ?bind_lift in *. cbn iota in *. destruct Hxy as (more & [Et|[? _]]); [|done].
  rewrite ?bind_lift in *. rewrite Et, next_num_more by (intros E; by rewrite E in H).
  destruct (next_num (tokens x)) as [[ni ts]| | |]; try done. rewrite ?bind_rm in *.
  rewrite groups_more by (intros E; destruct (rd_groups l ts ni 0 s) as [[]]; cbn in E; by simplify_eq).
  destruct (rd_groups l ts ni 0 s) as [[[]| | |] s1]; try done. clear x y Et more.
  inversion H2 as [? E1 E2|? x y r1 r1' _ Hxy H3 E E1 E2| | |]; subst; [done|]. clear H2. cbn [next_line] in *. rewrite ?bind_lift in *. cbn iota in *. destruct Hxy as (more & [Et|[? _]]); [|done].
  rewrite ?bind_lift in *. rewrite Et, next_num_more by (intros E; by rewrite E in H).
  destruct (next_num (tokens x)) as [[no ts']| | |]; try done. rewrite ?bind_lift in *. rewrite sum_more by (intros E; by rewrite E in H).
  destruct (rd_sum md ts' no 0) as [os| | |]; try done. clear x y Et more.
  inversion H3 as [? E1 E2|? x y r2 r2' Hk|x y r2 r2' H4 E1 E2| |]; subst; [done|lia|]. cbn [next_line] in *. rewrite ?bind_lift, ?bind_rm in *.
  rewrite (lines_more l _ _ H4); [done|]. intros E. destruct (rd_lines l r2 s1) as [[]]; cbn in E; by simplify_eq.
Qed.

(** * Examples *)
(** The half adder with another number of gates, other white space, text in the fourth line, remarks after the gates and an epilogue. *)
Definition half_adder_stop : string := (half_adder ++ unlines [""])%string.
Definition half_adder_spaced : string := unlines ["0  6"; " 2 1   1"; "1 2 "; "any text"; "1 1 0 2 EQW"; "2 1 2 1 3  XOR"; "1 1 3 4 EQW "; "2 1 0 1 5 AND"; ""; "end"]%string.
Definition half_adder_remarks : string := unlines ["9 6 x"; "2 1 1 7"; "1 2 8"; "2 1 0 1 9 AND"; "1 1 0 2 EQW 3 4"; "2 1 2 1 3 XOR # sum"; "1 1 3 4 EQW"; "2 1 0 1 5 AND # carry"; ""; "end"]%string.
Example C97_example : forall md s, alike_lines same_tokens 0 (lines half_adder_stop) (lines half_adder_spaced) /\
  alike_lines more_tokens 0 (lines half_adder_stop) (lines half_adder_remarks) /\
  fst (read md 0 half_adder_stop (∅, blank)) = Ok tt /\
  read md 0 half_adder_spaced s = read md 0 half_adder_stop s /\ half_adder_spaced <> half_adder_stop /\ half_adder_remarks <> half_adder_stop.
Proof.
  intros md s.
  assert (A : alike_lines same_tokens 0 (lines half_adder_stop) (lines half_adder_spaced)).
  { vm_compute lines. apply al_head; [lia| |]. { right. split; [reflexivity|]. do 5 eexists. do 3 (split; [vm_compute; reflexivity|]). vm_compute; reflexivity. }
    do 2 (apply al_head; [lia|left; vm_compute; reflexivity|]). apply al_fourth. do 4 (apply al_gate; [discriminate|discriminate|left; vm_compute; reflexivity|]). apply al_stop. }
  split; [exact A|]. split.
  - vm_compute lines. apply al_head; [lia| |]. { exists ["x"%string]. right. split; [reflexivity|]. do 5 eexists. do 3 (split; [vm_compute; reflexivity|]). vm_compute; reflexivity. }
    apply al_head; [lia|exists ["7"%string]; left; vm_compute; reflexivity|]. apply al_head; [lia|exists ["8"%string]; left; vm_compute; reflexivity|]. apply al_fourth.
    apply al_gate; [discriminate|discriminate|exists ["3"%string; "4"%string]; left; vm_compute; reflexivity|].
    apply al_gate; [discriminate|discriminate|exists ["#"%string; "sum"%string]; left; vm_compute; reflexivity|].
    apply al_gate; [discriminate|discriminate|exists []; left; vm_compute; reflexivity|].
    apply al_gate; [discriminate|discriminate|exists ["#"%string; "carry"%string]; left; vm_compute; reflexivity|]. apply al_stop.
  - split; [destruct md; vm_compute; reflexivity|]. split; [by apply C97_tokens|]. split; vm_compute; discriminate.
Qed.
(** A line that lacks its type is an error, and with a further token it is not. *)
Definition no_type : string := unlines ["1 2"; "1 1"; "1 1"; ""; "1 1 0 1"]%string.
Definition with_type : string := unlines ["1 2"; "1 1"; "1 1"; ""; "1 1 0 1 INV"]%string.
Example C97_example_short : forall md, alike_lines more_tokens 0 (lines no_type) (lines with_type) /\
  fst (read md 0 no_type (∅, blank)) = Err ELineSplit /\ fst (read md 0 with_type (∅, blank)) = Ok tt.
Proof.
  intros md. split; [|split; destruct md; vm_compute; reflexivity]. vm_compute lines. do 3 (apply al_head; [lia|exists []; left; vm_compute; reflexivity|]). apply al_fourth.
  apply al_gate; [discriminate|discriminate|exists ["INV"%string]; left; vm_compute; reflexivity|]. apply al_end.
Qed.
