(** Text handling used by the Bristol reader and writer: lines, tokens, decimal numbers.
    A text is a Coq [string], i.e. a list of bytes. The Rust code works on UTF-8 [str]; on ASCII text the two agree. The
    non-ASCII white space that [split_whitespace] also splits on, and the I/O and UTF-8 errors of the underlying reader, are in Io.v. *)
From Verif Require Export Base.
From Coq Require Import Ascii String.
Open Scope N_scope.
Open Scope list_scope.

Definition cLF : ascii := "010".
Definition cCR : ascii := "013".
Definition cSP : ascii := " ".
(** [char::is_whitespace] on ASCII: tab, LF, VT, FF, CR and space. *)
Definition is_ws (c : ascii) : bool := let n := N_of_ascii c in ((9 <=? n) && (n <=? 13)) || (n =? 32).

(** [str::split_whitespace] (used at /repo/src/bristol_converter.rs 60, 70, 89, 110). *)
Fixpoint tokens (s : string) : list string :=
  match s with
  | EmptyString => []
  | String c t =>
      if is_ws c then tokens t
      else match t with
           | EmptyString => [String c EmptyString]
           | String d _ => if is_ws d then String c EmptyString :: tokens t
                           else match tokens t with
                                | [] => [String c EmptyString]
                                | x :: r => String c x :: r
                                end
           end
  end.

(** [BufRead::lines] (/repo/src/bristol_converter.rs 58): split at LF, dropping one CR before it; a last segment without LF
    counts when it is not empty. *)
Fixpoint lines (s : string) : list string :=
  match s with
  | EmptyString => []
  | String c t =>
      if Ascii.eqb c cLF then EmptyString :: lines t
      else match t with
           | String d u =>
               if Ascii.eqb c cCR && Ascii.eqb d cLF then EmptyString :: lines u
               else match lines t with
                    | [] => [String c EmptyString]
                    | x :: r => String c x :: r
                    end
           | EmptyString => [String c EmptyString]
           end
  end.

(** Decimal digit of a character. *)
Definition digit_val (c : ascii) : option N := let n := N_of_ascii c in if (48 <=? n) && (n <=? 57) then Some (n - 48) else None.
(** The digit loop of [usize::from_str]: an invalid digit is reported before an overflow at the same position. *)
Fixpoint parse_digits (acc : N) (s : string) : res N :=
  match s with
  | EmptyString => Ok acc
  | String c t =>
      match digit_val c with
      | None => Err (EParseInt IntInvalidDigit)
      | Some d => let v := acc * 10 + d in if v <? usize_modulus then parse_digits v t else Err (EParseInt IntPosOverflow)
      end
  end.
(** [str::parse::<usize>] (used at /repo/src/bristol_converter.rs 64, 68, 74, 80, 93, 99, 114, 118, 124, 135). *)
Definition parse_usize (s : string) : res N :=
  match s with
  | EmptyString => Err (EParseInt IntEmpty)
  | String c t =>
      if Ascii.eqb c "+" then
        match t with EmptyString => Err (EParseInt IntInvalidDigit) | _ => parse_digits 0 t end
      else parse_digits 0 s
  end.

(** [format!("{}", n)] of an unsigned number (used at /repo/src/bristol_converter.rs 199-243, 544-551). *)
Definition digit_chr (n : N) : ascii := ascii_of_N (48 + n).
Fixpoint show_digits (fuel : nat) (n : N) (acc : string) : string :=
  match fuel with
  | O => acc
  | S f => let acc' := String (digit_chr (n mod 10)) acc in if n / 10 =? 0 then acc' else show_digits f (n / 10) acc'
  end.
Definition show_N (n : N) : string := show_digits (S (N.size_nat n)) n EmptyString.

(** * Specification of numbers *)
Fixpoint all_chars (P : ascii -> bool) (s : string) : bool :=
  match s with EmptyString => true | String c t => P c && all_chars P t end.
Definition is_digit (c : ascii) : bool := match digit_val c with Some _ => true | None => false end.
(** Value of a digit string by the positional formula: each digit times ten to the number of digits after it. *)
Fixpoint positional (s : string) : N :=
  match s with
  | EmptyString => 0
  | String c t => default 0 (digit_val c) * 10 ^ N.of_nat (String.length t) + positional t
  end.
Definition unsigned_body (s : string) : string :=
  match s with String c t => if Ascii.eqb c "+" then t else s | EmptyString => s end.
(** A token denotes a number when it is an optional plus sign followed by at least one digit and the value is below 2^64. *)
Definition num_value (s : string) : option N :=
  let b := unsigned_body s in
  if negb (String.eqb b EmptyString) && all_chars is_digit b && (positional b <? 2 ^ 64) then Some (positional b) else None.

(** A word: not empty and without white space. *)
Definition word (s : string) : bool := negb (String.eqb s EmptyString) && all_chars (fun c => negb (is_ws c)) s.

Open Scope string_scope.
Arguments is_ws : simpl never.
(** * Numbers *)
Lemma parse_digits_val s : forall acc n, acc < 2 ^ 64 ->
  parse_digits acc s = Ok n <-> all_chars is_digit s = true /\ n = acc * 10 ^ N.of_nat (String.length s) + positional s /\ n < 2 ^ 64.
Proof.
  induction s as [|c t IH]; intros acc n Ha; cbn [parse_digits all_chars String.length positional].
  - rewrite N.mul_1_r, N.add_0_r. split; [intros [= ->]; done|]. by intros (_ & -> & _).
  - unfold is_digit at 1. destruct (digit_val c) as [d|] eqn:Ed; [|split; [done|by intros (? & _)]].
    cbn [default]. unfold default, id. cbv zeta. rewrite Nat2N.inj_succ, N.pow_succ_r'. set (k := 10 ^ N.of_nat (String.length t)).
    change usize_modulus with (2 ^ 64). 
    assert (1 <= k) by (subst k; assert (10 ^ N.of_nat (String.length t) <> 0) by (apply N.pow_nonzero; lia); lia).
    destruct (N.ltb_spec (acc * 10 + d) (2 ^ 64)) as [L|L].
    + rewrite (IH _ _ L). simpl andb. fold k. replace ((acc * 10 + d) * k + positional t) with (acc * (10 * k) + (d * k + positional t)) by lia. done.
    + split; [done|]. intros (_ & -> & Hn). nia.
Qed.
Lemma parse_usize_value s n : parse_usize s = Ok n <-> num_value s = Some n.
Proof.
  unfold num_value, parse_usize, unsigned_body. destruct s as [|c t]; [done|].
  assert (forall b : string, b <> "" -> parse_digits 0 b = Ok n <->
    (if negb (b =? "") && all_chars is_digit b && (positional b <? 2 ^ 64)%N then Some (positional b) else None) = Some n) as HB.
  { intros b Hb. rewrite parse_digits_val by done. rewrite N.mul_0_l, N.add_0_l.
    destruct (String.eqb_spec b "") as [|_]; [done|]. cbn [negb andb].
    destruct (all_chars is_digit b) eqn:E1; cbn [andb]; [|naive_solver].
    destruct (N.ltb_spec (positional b) (2 ^ 64)); naive_solver lia. }
  destruct (Ascii.eqb c "+").
  - destruct t as [|d u]; [done|]. apply HB. done.
  - by apply HB.
Qed.
Lemma digit_val_chr d : d < 10 -> digit_val (digit_chr d) = Some d.
Proof.
  intros H. unfold digit_val, digit_chr. rewrite N_ascii_embedding by lia.
  rewrite (proj2 (N.leb_le _ _)), (proj2 (N.leb_le _ _)) by lia. simpl. f_equal. lia.
Qed.
Lemma show_digits_spec f : forall n acc, n < 2 ^ N.of_nat f -> all_chars is_digit acc = true -> f <> O ->
  let s := show_digits f n acc in
  all_chars is_digit s = true /\ s <> "" /\ positional s = n * 10 ^ N.of_nat (String.length acc) + positional acc.
Proof.
  induction f as [|f IH]; intros n acc Hn Ha Hf; [done|]. cbn zeta. cbn [show_digits].
  assert (Hm : n mod 10 < 10) by (apply N.mod_lt; lia).
  set (acc' := String (digit_chr (n mod 10)) acc).
  assert (Ha' : all_chars is_digit acc' = true). { cbn. unfold is_digit at 1. by rewrite digit_val_chr. }
  assert (Hp : positional acc' = n mod 10 * 10 ^ N.of_nat (String.length acc) + positional acc).
  { cbn [acc' positional]. by rewrite digit_val_chr. }
  pose proof (N.div_mod n 10 ltac:(lia)) as Hd.
  destruct (N.eqb_spec (n / 10) 0) as [E|E].
  - split; [done|]. split; [done|]. rewrite Hp. by replace (n mod 10) with n by lia.
  - assert (n / 10 < 2 ^ N.of_nat f) as Hn'.
    { apply N.div_lt_upper_bound; [lia|]. rewrite Nat2N.inj_succ, N.pow_succ_r' in Hn. lia. }
    destruct (IH (n / 10) acc' Hn' Ha') as (H1 & H2 & H3).
    { intros ->. change (2 ^ N.of_nat 0) with 1 in Hn'. lia. }
    split; [done|]. split; [done|]. rewrite H3, Hp. cbn [acc' String.length]. rewrite Nat2N.inj_succ, N.pow_succ_r'. rewrite Hd at 3. lia.
Qed.
Lemma size_nat_gt n : n < 2 ^ N.of_nat (N.size_nat n).
Proof.
  destruct n as [|p]; [done|]. cbn [N.size_nat].
  induction p as [p IH|p IH|]; cbn [Pos.size_nat]; rewrite ?Nat2N.inj_succ, ?N.pow_succ_r'; lia.
Qed.
Lemma show_N_digits n : all_chars is_digit (show_N n) = true /\ show_N n <> "" /\ positional (show_N n) = n.
Proof.
  unfold show_N. destruct (show_digits_spec (S (N.size_nat n)) n "") as (H1 & H2 & H3); [|done|done|].
  - rewrite Nat2N.inj_succ, N.pow_succ_r'. pose proof (size_nat_gt n). lia.
  - split; [done|]. split; [done|]. rewrite H3. simpl. lia.
Qed.
Lemma is_digit_not_plus c : is_digit c = true -> Ascii.eqb c "+" = false.
Proof. intros H. destruct (Ascii.eqb_spec c "+") as [-> |]; done. Qed.
Lemma is_digit_not_ws c : is_digit c = true -> is_ws c = false.
Proof.
  unfold is_digit, digit_val, is_ws. destruct (N.leb_spec 48 (N_of_ascii c)); [|done]. intros _.
  destruct (N.leb_spec (N_of_ascii c) 13); [lia|]. rewrite andb_false_r. apply N.eqb_neq. lia.
Qed.
Lemma num_value_show n : n < 2 ^ 64 -> num_value (show_N n) = Some n.
Proof.
  intros Hn. destruct (show_N_digits n) as (H1 & H2 & H3). unfold num_value.
  assert (unsigned_body (show_N n) = show_N n) as ->.
  { destruct (show_N n) as [|c t]; [done|]. cbn in *. apply andb_true_iff in H1 as [H1 _]. by rewrite is_digit_not_plus. }
  rewrite (proj2 (String.eqb_neq _ _) H2), H1, H3, (proj2 (N.ltb_lt _ _) Hn). done.
Qed.
Lemma all_chars_impl (P Q : ascii -> bool) s : (forall c, P c = true -> Q c = true) -> all_chars P s = true -> all_chars Q s = true.
Proof.
  intros H. induction s as [|c t IH]; [done|]. cbn. rewrite !andb_true_iff. intros [? ?]. eauto.
Qed.
Lemma show_N_word n : word (show_N n) = true.
Proof.
  destruct (show_N_digits n) as (H1 & H2 & _). unfold word. rewrite (proj2 (String.eqb_neq _ _) H2). cbn [negb andb].
  eapply all_chars_impl; [|exact H1]. intros c Hc. by rewrite is_digit_not_ws.
Qed.

(** * Tokens and lines *)
Lemma tokens_ws c s : is_ws c = true -> tokens (String c s) = tokens s.
Proof. intros H. simpl. by rewrite H. Qed.
Lemma tokens_cons a b t x r : is_ws a = false -> is_ws b = false -> tokens (String b t) = x :: r ->
  tokens (String a (String b t)) = String a x :: r.
Proof. intros Ha Hb E. change (tokens (String a (String b t))) with (if is_ws a then tokens (String b t) else if is_ws b then String a "" :: tokens (String b t)
  else match tokens (String b t) with [] => [String a ""] | x :: r => String a x :: r end). by rewrite Ha, Hb, E. Qed.
Lemma tokens_sep w c s : word w = true -> is_ws c = true -> tokens (w ++ String c s) = w :: tokens s.
Proof.
  unfold word. rewrite andb_true_iff. intros [H1 H2] Hc. destruct w as [|a w]; [done|]. clear H1. revert a H2.
  induction w as [|b w IH]; intros a H2; cbn in H2; rewrite ?andb_true_iff, ?negb_true_iff in H2.
  - destruct H2 as [H2 _]. simpl. rewrite H2, Hc. done.
  - destruct H2 as (Ha & Hb & Hw). specialize (IH b). cbn in IH. rewrite Hb, Hw in IH. specialize (IH eq_refl).
    by apply tokens_cons.
Qed.
Lemma tokens_word w : word w = true -> tokens w = [w].
Proof.
  unfold word. rewrite andb_true_iff. intros [H1 H2]. destruct w as [|a w]; [done|]. clear H1. revert a H2.
  induction w as [|b w IH]; intros a H2; cbn in H2; rewrite ?andb_true_iff, ?negb_true_iff in H2.
  - destruct H2 as [H2 _]. simpl. by rewrite H2.
  - destruct H2 as (Ha & Hb & Hw). assert (Hbw : all_chars (fun c => negb (is_ws c)) (String b w) = true) by (cbn; by rewrite Hb, Hw). specialize (IH b Hbw).
    by apply tokens_cons.
Qed.
(** Words separated by single spaces. *)
Fixpoint join (ws : list string) : string :=
  match ws with [] => "" | [w] => w | w :: r => w ++ String cSP (join r) end.
Lemma tokens_join ws : forallb word ws = true -> tokens (join ws) = ws.
Proof.
  induction ws as [|w ws IH]; [done|]. cbn [forallb]. rewrite andb_true_iff. intros [Hw Hws].
  destruct ws as [|w' ws]; [by apply tokens_word|]. cbn [join]. change (tokens (w ++ String cSP (join (w' :: ws))) = w :: w' :: ws).
  rewrite tokens_sep by done. by rewrite IH.
Qed.

Definition no_eol (c : ascii) : bool := negb (Ascii.eqb c cLF) && negb (Ascii.eqb c cCR).
Lemma lines_sep x s : all_chars no_eol x = true -> lines (x ++ String cLF s) = x :: lines s.
Proof.
  induction x as [|c x IH]; [done|]. cbn [all_chars]. rewrite andb_true_iff. intros [Hc Hx]. specialize (IH Hx).
  unfold no_eol in Hc. rewrite andb_true_iff, !negb_true_iff in Hc. destruct Hc as [H1 H2].
  change (String c x ++ String cLF s) with (String c (x ++ String cLF s)). cbn [lines]. rewrite H1, H2. cbn [andb].
  rewrite IH. destruct (x ++ String cLF s) eqn:E; [|done]. destruct x; done.
Qed.
(** Lines each ended by LF. *)
Fixpoint unlines (ls : list string) : string :=
  match ls with [] => "" | x :: r => x ++ String cLF (unlines r) end.
Lemma lines_unlines ls : forallb (all_chars no_eol) ls = true -> lines (unlines ls) = ls.
Proof.
  induction ls as [|x ls IH]; [done|]. cbn [forallb unlines]. rewrite andb_true_iff. intros [H1 H2]. rewrite lines_sep by done. by rewrite IH.
Qed.
Lemma all_chars_app P a b : all_chars P (a ++ b) = all_chars P a && all_chars P b.
Proof. induction a as [|c a IH]; [done|]. change (String c a ++ b) with (String c (a ++ b)). cbn. rewrite IH. by rewrite andb_assoc. Qed.
Lemma word_no_eol w : word w = true -> all_chars no_eol w = true.
Proof.
  unfold word. rewrite andb_true_iff. intros [_ H]. eapply all_chars_impl; [|exact H]. intros c Hc. unfold no_eol.
  destruct (Ascii.eqb_spec c cLF) as [-> |]; [done|]. destruct (Ascii.eqb_spec c cCR) as [-> |]; done.
Qed.
Lemma join_no_eol ws : forallb word ws = true -> all_chars no_eol (join ws) = true.
Proof.
  induction ws as [|w ws IH]; [done|]. cbn [forallb]. rewrite andb_true_iff. intros [Hw Hws].
  destruct ws as [|w' ws]; [by apply word_no_eol|]. cbn [join]. rewrite all_chars_app, word_no_eol by done.
  change (all_chars no_eol (join (w' :: ws)) = true). by apply IH.
Qed.
