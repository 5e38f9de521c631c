(** Specification of Bristol texts, independent of the reader and the writer: abstract programs, their execution, parsing and printing. *)
From Verif Require Export Text.
Open Scope N_scope.
Open Scope list_scope.

(** Gate kinds of the format. [KEqw] copies a wire. [KEq] is, in the published Bristol Fashion, a constant: its operand is the bit itself. *)
Inductive gkind := KInv | KXor | KAnd | KOr | KEqw | KEq.
Definition kind_name (k : gkind) : string :=
  match k with KInv => "INV" | KXor => "XOR" | KAnd => "AND" | KOr => "OR" | KEqw => "EQW" | KEq => "EQ" end.
Definition kind_of_name (s : string) : option gkind :=
  head (filter (fun k => String.eqb s (kind_name k)) [KInv; KXor; KAnd; KOr; KEqw; KEq]).
Global Instance gkind_eq_dec : EqDecision gkind.
Proof. solve_decision. Defined.

Record gline := GLine { gl_kind : gkind; gl_ins : list N; gl_outs : list N }.
Record prog := Prog {
  pr_gates : N;          (* announced number of gates *)
  pr_wires : N;          (* announced number of wires *)
  pr_in : list N;        (* lengths of the inputs *)
  pr_out : list N;       (* lengths of the outputs *)
  pr_lines : list gline;
}.
Definition nsum (ns : list N) : N := fold_right N.add 0 ns.

(** * Execution *)
(** How an EQ line is understood: as this code base does ([EqCopies]) or as Bristol Fashion defines it ([EqConstant]). *)
Inductive eq_meaning := EqCopies | EqConstant.
Definition kind_fun (k : gkind) (vs : list bool) : option bool :=
  match k, vs with
  | KInv, a :: _ => Some (negb a)
  | KXor, a :: b :: _ => Some (xorb a b)
  | KAnd, a :: b :: _ => Some (andb a b)
  | KOr, a :: b :: _ => Some (orb a b)
  | (KEqw | KEq), a :: _ => Some a
  | _, _ => None
  end.
Definition line_value (q : eq_meaning) (e : gmap N bool) (gl : gline) : option bool :=
  match q, gl_kind gl with
  | EqConstant, KEq => b ← head (gl_ins gl); Some (b =? 1)
  | _, k => vs ← mapM (fun w => e !! w) (gl_ins gl); kind_fun k vs
  end.
(** One line: all operands must be defined; the first output wire gets the value. *)
Definition exec_line (q : eq_meaning) (e : gmap N bool) (gl : gline) : option (gmap N bool) :=
  v ← line_value q e gl; o ← head (gl_outs gl); Some (<[o := v]> e).
Fixpoint exec_lines (q : eq_meaning) (e : gmap N bool) (gls : list gline) : option (gmap N bool) :=
  match gls with [] => Some e | gl :: r => e' ← exec_line q e gl; exec_lines q e' r end.
(** The input bits on the wires [w], [w+1], .. *)
Fixpoint load_from (w : N) (bits : list bool) : gmap N bool :=
  match bits with [] => ∅ | b :: r => <[w := b]> (load_from (w + 1) r) end.
(** [w], [w+1], .., [w+n-1]. *)
Fixpoint nseq (w : N) (n : nat) : list N := match n with O => [] | S n => w :: nseq (w + 1) n end.
(** The values of the last wires after executing the lines on the inputs; [None] when some wire is missing. *)
Definition run_prog (q : eq_meaning) (p : prog) (inputs : list bool) : option (list bool) :=
  if (N.of_nat (length inputs) =? nsum (pr_in p)) && (nsum (pr_out p) <=? pr_wires p) then
    e ← exec_lines q (load_from 0 inputs) (pr_lines p);
    mapM (fun w => e !! w) (nseq (pr_wires p - nsum (pr_out p)) (N.to_nat (nsum (pr_out p))))
  else None.

(** * Parsing *)
(** A count followed by that many numbers; more tokens may follow. *)
Definition parse_counted (toks : list string) : option (list N) :=
  match toks with
  | t :: rest => k ← num_value t; if k <=? N.of_nat (length rest) then mapM num_value (take (N.to_nat k) rest) else None
  | [] => None
  end.
Definition parse_line (toks : list string) : option gline :=
  match toks with
  | tn :: tm :: rest =>
      n ← num_value tn; m ← num_value tm;
      if n + m <? N.of_nat (length rest) then
        ins ← mapM num_value (take (N.to_nat n) rest);
        outs ← mapM num_value (take (N.to_nat m) (drop (N.to_nat n) rest));
        ty ← rest !! N.to_nat (n + m);
        k ← kind_of_name ty;
        Some (GLine k ins outs)
      else None
  | _ => None
  end.
(** The gate lines end at the first empty line. *)
Fixpoint until_empty (ls : list string) : list string :=
  match ls with [] => [] | x :: r => if String.eqb x "" then [] else x :: until_empty r end.
Definition parse_prog (s : string) : option prog :=
  match lines s with
  | l1 :: l2 :: l3 :: _ :: rest =>
      match tokens l1 with
      | tg :: tw :: _ =>
          g ← num_value tg; w ← num_value tw;
          ins ← parse_counted (tokens l2); outs ← parse_counted (tokens l3);
          gls ← mapM (fun l => parse_line (tokens l)) (until_empty rest);
          Some (Prog g w ins outs gls)
      | _ => None
      end
  | _ => None
  end.

(** * Printing *)
Definition show_counted (ns : list N) : string := join (show_N (N.of_nat (length ns)) :: map show_N ns).
Definition show_line (gl : gline) : string :=
  join (show_N (N.of_nat (length (gl_ins gl))) :: show_N (N.of_nat (length (gl_outs gl))) ::
        map show_N (gl_ins gl) ++ map show_N (gl_outs gl) ++ [kind_name (gl_kind gl)]).
Definition show_prog (p : prog) : string :=
  unlines (join [show_N (pr_gates p); show_N (pr_wires p)] :: show_counted (pr_in p) :: show_counted (pr_out p) :: "" ::
           map show_line (pr_lines p)).

(** All numbers of a program fit a usize. *)
Definition small (n : N) : bool := n <? 2 ^ 64.
Definition line_small (gl : gline) : bool := forallb small (N.of_nat (length (gl_ins gl)) :: N.of_nat (length (gl_outs gl)) :: gl_ins gl ++ gl_outs gl).
Definition prog_small (p : prog) : bool :=
  forallb small (pr_gates p :: pr_wires p :: N.of_nat (length (pr_in p)) :: N.of_nat (length (pr_out p)) :: pr_in p ++ pr_out p) &&
  forallb line_small (pr_lines p).

(** * Facts *)
Lemma kind_of_name_iff s k : kind_of_name s = Some k <-> s = kind_name k.
Proof.
  split; [|intros ->; by destruct k].
  unfold kind_of_name. intros H. apply head_Some_elem_of in H. apply elem_of_list_filter in H as [H _]. by apply Is_true_true, String.eqb_eq in H.
Qed.
Lemma kind_of_name_none s : kind_of_name s = None <-> forall k, s <> kind_name k.
Proof.
  split.
  - intros H k ->. by destruct k.
  - intros H. destruct (kind_of_name s) as [k|] eqn:E; [|done]. apply kind_of_name_iff in E. by destruct (H k).
Qed.
Lemma load_from_lookup bits : forall w i, load_from w bits !! i = if w <=? i then bits !! N.to_nat (i - w) else None.
Proof.
  induction bits as [|b r IH]; intros w i; cbn [load_from].
  - rewrite lookup_empty. by destruct (w <=? i).
  - destruct (decide (i = w)) as [-> |Hn].
    + rewrite lookup_insert, N.leb_refl, N.sub_diag. done.
    + rewrite lookup_insert_ne by done. rewrite IH. destruct (N.leb_spec (w + 1) i), (N.leb_spec w i); try lia; [|done].
      replace (N.to_nat (i - w)) with (S (N.to_nat (i - (w + 1)))) by lia. done.
Qed.
Lemma load_from_0 bits i : load_from 0 bits !! i = bits !! N.to_nat i.
Proof. rewrite load_from_lookup, N.sub_0_r. destruct (N.leb_spec 0 i); [done|lia]. Qed.
Lemma nseq_length w n : length (nseq w n) = n.
Proof. revert w. induction n as [|n IH]; intros w; [done|]. simpl. by rewrite IH. Qed.
Lemma nseq_lookup n : forall w k, nseq w n !! k = if decide (k < n)%nat then Some (w + N.of_nat k) else None.
Proof.
  induction n as [|n IH]; intros w k; cbn [nseq].
  - destruct decide; [lia|done].
  - destruct k as [|k]; cbn [lookup list_lookup].
    + rewrite decide_True by lia. f_equal. lia.
    + change (nseq (w + 1) n !! k = if decide (S k < S n)%nat then Some (w + N.of_nat (S k)) else None). rewrite IH.
      repeat destruct decide; try lia; try done. f_equal. lia.
Qed.
Lemma exec_lines_app q e a b : exec_lines q e (a ++ b) = e' ← exec_lines q e a; exec_lines q e' b.
Proof.
  revert e. induction a as [|x a IH]; intros e; [done|]. simpl. destruct (exec_line q e x) as [e'|]; [|done]. simpl. apply IH.
Qed.

Lemma mapM_show ns : forallb small ns = true -> mapM num_value (map show_N ns) = Some ns.
Proof.
  induction ns as [|n ns IH]; [done|]. cbn [forallb]. rewrite andb_true_iff. intros [H1 H2]. simpl.
  rewrite num_value_show by (by apply N.ltb_lt). simpl. by rewrite IH.
Qed.
Lemma forallb_word_show ns : forallb word (map show_N ns) = true.
Proof. induction ns as [|n ns IH]; [done|]. cbn [map forallb]. by rewrite show_N_word. Qed.
Lemma show_counted_parse ns : small (N.of_nat (length ns)) = true -> forallb small ns = true -> parse_counted (tokens (show_counted ns)) = Some ns.
Proof.
  intros H1 H2. unfold show_counted. rewrite tokens_join.
  - unfold parse_counted. rewrite num_value_show by (by apply N.ltb_lt). cbn [mbind option_bind]. rewrite map_length.
    rewrite N.leb_refl, Nat2N.id. rewrite take_ge by (by rewrite map_length). by apply mapM_show.
  - cbn [forallb]. by rewrite show_N_word, forallb_word_show.
Qed.
Lemma kind_name_word k : word (kind_name k) = true.
Proof. by destruct k. Qed.
Lemma show_line_words gl : forallb word (show_N (N.of_nat (length (gl_ins gl))) :: show_N (N.of_nat (length (gl_outs gl))) ::
        map show_N (gl_ins gl) ++ map show_N (gl_outs gl) ++ [kind_name (gl_kind gl)]) = true.
Proof. cbn [forallb]. rewrite !forallb_app, !show_N_word, !forallb_word_show. cbn [forallb]. by rewrite kind_name_word. Qed.
Lemma show_line_parse gl : line_small gl = true -> parse_line (tokens (show_line gl)) = Some gl.
Proof.
  unfold line_small. cbn [forallb]. rewrite forallb_app, !andb_true_iff. intros (H1 & H2 & H3 & H4).
  unfold show_line. rewrite tokens_join by apply show_line_words. unfold parse_line.
  rewrite !num_value_show by (by apply N.ltb_lt). cbn [mbind option_bind]. rewrite !app_length, !map_length. cbn [length].
  set (n := length (gl_ins gl)). set (m := length (gl_outs gl)).
  rewrite (proj2 (N.ltb_lt _ _)) by lia. rewrite !Nat2N.id.
  rewrite take_app_alt by (by rewrite map_length). rewrite drop_app_alt by (by rewrite map_length).
  rewrite take_app_alt by (by rewrite map_length). rewrite !mapM_show by done. cbn [mbind option_bind].
  replace (N.to_nat (N.of_nat n + N.of_nat m)) with (n + m)%nat by lia.
  rewrite lookup_app_r by (rewrite map_length; lia). rewrite lookup_app_r by (rewrite !map_length; lia). rewrite !map_length.
  replace (n + m - length (gl_ins gl) - length (gl_outs gl))%nat with O by lia. cbn [lookup list_lookup mbind option_bind].
  rewrite (proj2 (kind_of_name_iff _ (gl_kind gl))) by done. cbn [mbind option_bind]. by destruct gl.
Qed.
Lemma join_nonempty w ws : word w = true -> String.eqb (join (w :: ws)) "" = false.
Proof.
  unfold word. rewrite andb_true_iff, negb_true_iff. intros [H _]. destruct w as [|c w]; [done|]. by destruct ws.
Qed.
Lemma until_empty_show gls : until_empty (map show_line gls) = map show_line gls.
Proof.
  induction gls as [|gl r IH]; [done|]. cbn [map until_empty]. rewrite IH.
  assert (String.eqb (show_line gl) "" = false) as -> by (apply join_nonempty, show_N_word). done.
Qed.
Lemma show_prog_parse p : prog_small p = true -> parse_prog (show_prog p) = Some p.
Proof.
  unfold prog_small. cbn [forallb]. rewrite forallb_app, !andb_true_iff. intros ((H1 & H2 & H3 & H4 & H5 & H6) & H7).
  unfold parse_prog, show_prog. rewrite lines_unlines.
  - rewrite tokens_join by (cbn [forallb]; by rewrite !show_N_word).
    rewrite !num_value_show by (by apply N.ltb_lt). cbn [mbind option_bind].
    rewrite !show_counted_parse by done. cbn [mbind option_bind]. rewrite until_empty_show.
    assert (mapM (fun l => parse_line (tokens l)) (map show_line (pr_lines p)) = Some (pr_lines p)) as ->.
    { clear -H7. induction (pr_lines p) as [|gl r IH]; [done|]. cbn [forallb] in H7. apply andb_true_iff in H7 as [Ha Hb]. simpl.
      rewrite show_line_parse by done. simpl. by rewrite IH. }
    cbn [mbind option_bind]. by destruct p.
  - cbn [forallb]. rewrite !andb_true_iff. repeat split.
    + apply join_no_eol. cbn [forallb]. by rewrite !show_N_word.
    + apply join_no_eol. cbn [forallb]. by rewrite !show_N_word, forallb_word_show.
    + apply join_no_eol. cbn [forallb]. by rewrite !show_N_word, forallb_word_show.
    + clear. induction (pr_lines p) as [|gl r IH]; [done|]. cbn [map forallb]. rewrite IH, andb_true_r. apply join_no_eol, show_line_words.
Qed.
