(** Property C86: ids, names of gates and messages of errors. *)
From Verif Require Export Messages Prop_Errors.
Open Scope N_scope.
Open Scope string_scope.

(** * Strings *)
Local Arguments String.append !_ _ / : simpl nomatch.
Lemma sapp_assoc (a b c : string) : (a ++ b) ++ c = a ++ (b ++ c).
Proof. induction a as [|x a IH]; [done|]. cbn. by rewrite IH. Qed.
Lemma sapp_nil (a : string) : a ++ "" = a.
Proof. induction a as [|x a IH]; [done|]. cbn. by rewrite IH. Qed.
Fixpoint srev (s : string) : string := match s with EmptyString => EmptyString | String c t => srev t ++ String c EmptyString end.
Lemma srev_app a b : srev (a ++ b) = srev b ++ srev a.
Proof. induction a as [|x a IH]; cbn; [by rewrite sapp_nil|]. by rewrite IH, sapp_assoc. Qed.
Lemma srev_srev a : srev (srev a) = a.
Proof. induction a as [|x a IH]; [done|]. cbn. by rewrite srev_app, IH. Qed.
Lemma sapp_inv_tail a b s : a ++ s = b ++ s -> a = b.
Proof.
  intros H. apply (f_equal srev) in H. rewrite !srev_app in H. rewrite <- (srev_srev a), <- (srev_srev b). f_equal. revert H. generalize (srev s). intros t.
  induction t as [|c t IH]; cbn; [done|]. intros [= H]. auto.
Qed.
Definition undigit (s : string) : bool := match s with EmptyString => true | String c _ => negb (is_digit c) end.
Lemma digits_split : forall a b s t, all_chars is_digit a = true -> all_chars is_digit b = true -> undigit s = true -> undigit t = true -> a ++ s = b ++ t -> a = b /\ s = t.
Proof.
  induction a as [|x a IH]; intros b s t Ha Hb Hs Ht E.
  - destruct b as [|y b]; [done|]. cbn in *. subst s. cbn in Hs. by destruct (is_digit y).
  - destruct b as [|y b]; cbn in *.
    + subst t. cbn in Ht. by destruct (is_digit x).
    + injection E as <- E. apply andb_true_iff in Ha as [_ Ha], Hb as [_ Hb]. destruct (IH b s t) as [-> ->]; done.
Qed.
Lemma show_inj a b : show_N a = show_N b -> a = b.
Proof. intros H. destruct (show_N_digits a) as (_ & _ & <-), (show_N_digits b) as (_ & _ & <-). by rewrite H. Qed.
Lemma show_split a b s t : undigit s = true -> undigit t = true -> show_N a ++ s = show_N b ++ t -> a = b /\ s = t.
Proof.
  intros Hs Ht E. destruct (show_N_digits a) as (Ha & _), (show_N_digits b) as (Hb & _). destruct (digits_split _ _ _ _ Ha Hb Hs Ht E) as [H ->]. split; [by apply show_inj|done].
Qed.
Lemma show_first a s c t : is_digit c = false -> show_N a ++ s = String c t -> False.
Proof. destruct (show_N_digits a) as (Ha & Hn & _). destruct (show_N a) as [|x r]; [done|]. cbn in *. apply andb_true_iff in Ha as [Ha _]. intros Hc [= -> _]. congruence. Qed.
Lemma show_end a b s t : show_N a ++ s = show_N b ++ t -> undigit s = true -> undigit t = true -> a = b /\ s = t.
Proof. intros. by apply show_split. Qed.
Local Arguments show_N : simpl never.
Local Ltac msg H :=
  cbn in H; first
  [ discriminate H
  | reflexivity
  | (apply show_end in H; [destruct H as [? H]; subst; msg H|reflexivity|reflexivity])
  | (apply show_inj in H; subst; reflexivity)
  | (exfalso; eapply show_first in H; [exact H|reflexivity])
  | (exfalso; symmetry in H; eapply show_first in H; [exact H|reflexivity])
  | (injection H as H; msg H) ].
(** Reading a message from its end. *)
Local Ltac back H := apply (f_equal srev) in H; cbn in H; rewrite ?srev_app in H; cbn in H; discriminate H.
Theorem C86_circuit e e' : circuit_message e = circuit_message e' -> e = e'.
Proof. destruct e, e'; unfold circuit_message, id_show; intros H; msg H. Qed.
Theorem C86_evaluator e e' : evaluator_message e = evaluator_message e' -> e = e'.
Proof.
  destruct e as [| | |e], e' as [| | |e']; cbn [evaluator_message]; intros H; try (unfold id_show in H; msg H).
  1-3: destruct e'; unfold circuit_message, id_show in H; msg H.
  1-3: destruct e; unfold circuit_message, id_show in H; msg H.
  f_equal. by apply C86_circuit.
Qed.
Definition foreign (e : bristol_error) : Prop := match e with BIo _ => True | _ => False end.
Theorem C86_bristol e e' : ~ foreign e -> ~ foreign e' -> bristol_message e = bristol_message e' -> e = e'.
Proof.
  intros F F'. destruct e as [| | | | |s| |e| | |k], e' as [| | | | |s'| |e'| | |k']; try (by destruct F); try (by destruct F'); cbn [bristol_message]; intros H;
    try destruct k; try destruct k'; try (destruct e; cbn [circuit_message] in H; unfold id_show in H); try (destruct e'; cbn [circuit_message] in H; unfold id_show in H).
  all: try (unfold id_show in H; msg H; fail).
  all: try (by apply C86_circuit in H; subst).
  all: try (exfalso; unfold id_show in H; back H).
  cbn in H. injection H as H. f_equal. by eapply sapp_inv_tail.
Qed.
(** The errors of the model have different values in the enums. *)
Lemma as_circuit_inj e e' x : as_circuit e = Some x -> as_circuit e' = Some x -> e = e'.
Proof. destruct e, e'; cbn; congruence. Qed.
Lemma as_bristol_inj e e' x : as_bristol e = Some x -> as_bristol e' = Some x -> e = e'.
Proof. destruct e, e'; cbn; congruence. Qed.
Lemma as_bristol_own e x : as_bristol e = Some x -> ~ foreign x.
Proof. destruct e; cbn; try congruence; intros [= <-]; by intros []. Qed.
(** The message of a failed reading tells which error it was. *)
Definition read_message (md : mode) (l : nat) (text : string) (s : rstate) : option string :=
  match fst (read md l text s) with Err e => bristol_message <$> as_bristol e | _ => None end.
Theorem C86_read md l text gw h e : knows h l gw -> fst (read md l text (gw, h)) = Err e ->
  exists m, read_message md l text (gw, h) = Some m /\
  forall md' l' text' gw' h', knows h' l' gw' -> read_message md' l' text' (gw', h') = Some m -> fst (read md' l' text' (gw', h')) = Err e.
Proof.
  intros K E. assert (exists x, as_bristol e = Some x) as [x Hx].
  { destruct (read md l text (gw, h)) as [r s] eqn:Er. pose proof (C85_cause _ _ _ _ _ _ _ K Er) as B. cbn in E. subst r. destruct e; cbn in *; eauto; by destruct B. }
  exists (bristol_message x). unfold read_message. rewrite E, Hx. split; [done|]. intros md' l' text' gw' h' K'.
  destruct (fst (read md' l' text' (gw', h'))) as [|e'| |]; try done. destruct (as_bristol e') as [x'|] eqn:Hx'; [|done]. cbn. intros [= Hm].
  apply C86_bristol in Hm; [|by eapply as_bristol_own|by eapply as_bristol_own]. subst x'. f_equal. by eapply as_bristol_inj.
Qed.

(** * Names of gates *)
(** [to_str] of the gates with operands is the name under which the reader makes them, from as many operands; the other names are not read. *)
Theorem C86_names g : needs (gate_to_str g) = match g with GNot _ | GXor _ _ | GAnd _ _ | GOr _ _ => Some (gate_input_len g) | _ => None end.
Proof. by destruct g. Qed.
(** From the name and the operands the reader makes this very gate, as the next gate of the circuit, and remembers it for the wire of the line. *)
Theorem C86_makes l g o gw h c : h_circ h !! l = Some c ->
  match g with
  | GNot _ | GXor _ _ | GAnd _ _ | GOr _ _ => exists c', rd_gate l (gate_to_str g) (operands g) [o] (gw, h) = (Ok tt, (<[o := gate_index c]> gw, upd h l c')) /\
      gate_map c' = <[gate_index c := g]> (gate_map c)
  | _ => forall gs os, rd_gate l (gate_to_str g) gs os (gw, h) = (Err (ENotSupportedGate (gate_to_str g)), (gw, h))
  end.
Proof.
  intros Ec. destruct g as [w|b|a|a b|a b|a b|il ol ids oi mid]; try done.
  - destruct (r_not_ok h l c Ec a) as (c' & E & P). exists c'. split; [|apply P]. cbn. unfold st_bind, st_nth, rd_h, rd_insert. cbn. by rewrite E.
  - destruct (r_xor_ok h l c Ec a b) as (c' & E & P). exists c'. split; [|apply P]. cbn. unfold st_bind, st_nth, rd_h, rd_insert. cbn. by rewrite E.
  - destruct (r_and_ok h l c Ec a b) as (c' & E & P). exists c'. split; [|apply P]. cbn. unfold st_bind, st_nth, rd_h, rd_insert. cbn. by rewrite E.
  - destruct (r_or_ok h l c Ec a b) as (c' & E & P). exists c'. split; [|apply P]. cbn. unfold st_bind, st_nth, rd_h, rd_insert. cbn. by rewrite E.
Qed.
(** In disciplined circuits [input_len] of a gate is the number of its operands; [output_len] is 1, and for calls the number of outputs of the module. *)
Theorem C86_operands md ops l c g gt : disciplined md heap_empty ops -> h_circ (run md ops) !! l = Some c -> gate_map c !! g = Some gt ->
  gate_input_len gt = N.of_nat (List.length (operands gt)) /\
  ((forall il ol ids oi mid, gt <> GModule il ol ids oi mid) -> gate_output_len gt = 1%N) /\
  (forall il ol ids oi mid, gt = GModule il ol ids oi mid -> exists x l' m, h_stor (run md ops) !! c_storage c = Some x /\ module_map x !! mid = Some l' /\
     h_circ (run md ops) !! l' = Some m /\ gate_input_len gt = input_len m /\ gate_output_len gt = output_len m).
Proof.
  intros D Ec Eg. pose proof (dinv_run md ops D) as I. destruct gt as [| | | | | |il ol ids oi mid]; try (split; [done|]; split; [done|]; intros; discriminate).
  destruct (hi_calls _ (di_inv _ I) _ _ _ _ _ _ _ _ Ec Eg) as (x & l' & m & Ex & Em & Ec' & _).
  destruct (d_arity _ _ (di_disc _ I _ _ Ec) _ _ _ _ _ _ _ _ _ Eg Ex Em Ec') as (-> & -> & Hl). cbn. split; [done|]. split; [intros Hn; by destruct (Hn _ _ _ _ _ eq_refl)|].
  intros ? ? ? ? ? [= <- <- <- <- <-]. by exists x, l', m.
Qed.

(** * Ids *)
Open Scope N_scope.
Definition id_ok (a : N) : Prop := a < 2 ^ 64.
Lemma id_add_spec md a b : id_add md a b = if a + b <? 2 ^ 64 then Ok (a + b) else match md with Debug => Panic PArith | Release => Ok ((a + b) mod 2 ^ 64) end.
Proof. done. Qed.
(** Sums: exact, else a panic or the remainder. *)
Theorem C86_add md a b : id_ok a -> id_ok b ->
  match id_add md a b with Ok s => id_ok s /\ (s = a + b \/ (md = Release /\ s + 2 ^ 64 = a + b)) | Panic p => md = Debug /\ p = PArith /\ 2 ^ 64 <= a + b | _ => False end.
Proof.
  unfold id_ok. rewrite id_add_spec. intros Ha Hb. destruct (N.ltb_spec (a + b) (2 ^ 64)) as [H|H]; [split; [done|by left]|]. destruct md; [done|].
  replace ((a + b) mod 2 ^ 64) with (a + b - 2 ^ 64); [split; [lia|right; split; [done|lia]]|].
  apply N.mod_unique with 1; lia.
Qed.
(** A commutative monoid, with panics in a debug build on both sides of an equation or on none. *)
Theorem C86_monoid md a b c : id_ok a -> id_ok b -> id_ok c ->
  id_add md a b = id_add md b a /\ id_add md a id_zero = Ok a /\
  res_bind (id_add md a b) (fun s => id_add md s c) = res_bind (id_add md b c) (fun s => id_add md a s) /\ (id_is_zero a = true <-> a = id_zero).
Proof.
  unfold id_ok. intros Ha Hb Hc. split; [rewrite !id_add_spec; by rewrite (N.add_comm b a)|]. split.
  { rewrite id_add_spec. unfold id_zero. rewrite N.add_0_r. by apply N.ltb_lt in Ha as ->. }
  split; [|unfold id_is_zero, id_zero; apply N.eqb_eq]. destruct md.
  - rewrite !id_add_spec. destruct (N.ltb_spec (a + b) (2 ^ 64)), (N.ltb_spec (b + c) (2 ^ 64)); cbn [res_bind]; rewrite ?id_add_spec, ?N.add_assoc; try done.
    + destruct (N.ltb_spec (a + b + c) (2 ^ 64)); [lia|done].
    + destruct (N.ltb_spec (a + b + c) (2 ^ 64)); [lia|done].
  - assert (forall x y, id_add Release x y = Ok ((x + y) mod 2 ^ 64)) as R.
    { intros x y. rewrite id_add_spec. destruct (N.ltb_spec (x + y) (2 ^ 64)); [by rewrite N.mod_small|done]. }
    rewrite !R. cbn [res_bind]. rewrite !R. f_equal. rewrite N.add_mod_idemp_l, N.add_mod_idemp_r by done. by rewrite N.add_assoc.
Qed.
(** An id is shown as a number that reads back as the id. *)
Theorem C86_show a b : id_ok a -> (id_show a = id_show b -> a = b) /\ parse_usize (id_show a) = Ok a.
Proof. intros Ha. split; [apply show_inj|]. apply parse_usize_value. by apply num_value_show. Qed.

(** * Examples *)
Open Scope string_scope.
Example C86_example :
  read_message Debug 0 (unlines ["1 3"; "1 2"; "1 1"; ""; "2 1 0 1 2 NAND"]) (∅, blank) = Some "The gate NAND is not supported." /\
  read_message Debug 0 (unlines ["1 3"; "1 2"]) (∅, blank) = Some "The 3-th line is not found." /\
  read_message Debug 0 (unlines ["1 3"; "1 2"; "1 1"; ""; "2 1 0 14 2 AND"]) (∅, blank) = Some "Unknown wire 14 exists in the bristol file." /\
  read_message Debug 0 (unlines ["1 x"]) (∅, blank) = Some "invalid digit found in string" /\
  evaluator_message (VInvalidInputLen 2 30) = "The number of given inputs is 2, but the input length is 30." /\
  id_add Debug (2 ^ 64 - 1)%N 1 = Panic PArith /\ id_add Release (2 ^ 64 - 1)%N 3 = Ok 2 /\ id_add Debug 20 22 = Ok 42.
Proof. vm_compute. done. Qed.
(** An I/O error may have the message of another error. *)
Example C86_example_foreign : bristol_message (BIo "Fail to split a line.") = bristol_message BLineSplit.
Proof. done. Qed.
