(** The netlists shipped with the crate, as data, and what reading them gives: a valuation of the wires that satisfies every gate.
    [nl_text] renders a netlist to the exact bytes of its file (compared outside Coq by /verif/tools/gen_netlists.py). *)
From Verif Require Export Prop_Reader.
Open Scope N_scope.
Open Scope list_scope.

(** * Tries *)
Inductive ptree (A : Type) := PL | PN (l : ptree A) (x : option A) (r : ptree A).
Arguments PL {A}.
Arguments PN {A}.
Section Ptree.
  Context {A : Type}.
  Fixpoint pget (t : ptree A) (p : positive) : option A :=
    match t with
    | PL => None
    | PN l x r => match p with xH => x | xO p => pget l p | xI p => pget r p end
    end.
  Fixpoint pset (p : positive) (a : A) (t : ptree A) : ptree A :=
    match p, t with
    | xH, PL => PN PL (Some a) PL
    | xH, PN l _ r => PN l (Some a) r
    | xO p, PL => PN (pset p a PL) None PL
    | xO p, PN l x r => PN (pset p a l) x r
    | xI p, PL => PN PL None (pset p a PL)
    | xI p, PN l x r => PN l x (pset p a r)
    end.
  Lemma pget_set p : forall t a q, pget (pset p a t) q = if Pos.eqb p q then Some a else pget t q.
  Proof using.
    induction p as [p IH|p IH|]; intros [|l x r] a [q|q|]; cbn [pset pget Pos.eqb]; try done; rewrite IH; by destruct (Pos.eqb p q).
  Qed.
  Definition tget (t : ptree A) (w : N) : option A := pget t (N.succ_pos w).
  Definition tset (w : N) (a : A) (t : ptree A) : ptree A := pset (N.succ_pos w) a t.
  Lemma tget_set t w a u : tget (tset w a t) u = if w =? u then Some a else tget t u.
  Proof using.
    unfold tget, tset. rewrite pget_set. destruct (N.eqb_spec w u) as [-> |Hn]; [by rewrite Pos.eqb_refl|].
    destruct (Pos.eqb_spec (N.succ_pos w) (N.succ_pos u)) as [H|]; [|done]. destruct Hn.
    apply (f_equal N.pos) in H. rewrite !N.succ_pos_spec in H. lia.
  Qed.
  Lemma tget_PL w : tget PL w = None.
  Proof using. done. Qed.
End Ptree.

(** * Netlists *)
(** One gate line: exclusive or, and, inversion, copy. The output wire comes last, as in the files. *)
Inductive cg := CX (a b o : N) | CA (a b o : N) | CI (a o : N) | CW (a o : N).
Definition cg_ins (g : cg) : list N := match g with CX a b _ | CA a b _ => [a; b] | CI a _ | CW a _ => [a] end.
Definition cg_out (g : cg) : N := match g with CX _ _ o | CA _ _ o | CI _ o | CW _ o => o end.
Definition cg_line (g : cg) : gline :=
  match g with CX a b o => GLine KXor [a; b] [o] | CA a b o => GLine KAnd [a; b] [o] | CI a o => GLine KInv [a] [o] | CW a o => GLine KEqw [a] [o] end.

(** How a file ends: without an LF after the last gate, or with LF and a number of empty lines. *)
Inductive nl_end := NoLF | Blank (n : nat).
Record netlist := NL {
  nl_hdr : string * string * string * string;   (* the four lines before the gates *)
  nl_head : N * N * list N * list N;             (* the numbers in them: gates, wires, inputs, outputs *)
  nl_gates : list cg;
  nl_end_ : nl_end;
}.
Definition nl_wires (n : netlist) : N := let '(_, w, _, _) := nl_head n in w.
Definition nl_in (n : netlist) : N := let '(_, _, i, _) := nl_head n in nsum i.
Definition nl_out (n : netlist) : N := let '(_, _, _, o) := nl_head n in nsum o.
Definition nl_outs (n : netlist) : list N := nseq (nl_wires n - nl_out n) (N.to_nat (nl_out n)).
Definition nl_prog (n : netlist) : prog :=
  let '(g, w, i, o) := nl_head n in Prog g w i o (map cg_line (nl_gates n)).
Definition nl_lines (n : netlist) : list string :=
  let '(l1, l2, l3, l4) := nl_hdr n in l1 :: l2 :: l3 :: l4 :: map show_line (map cg_line (nl_gates n)).
Fixpoint lf_join (ls : list string) : string :=
  match ls with [] => "" | x :: r => match r with [] => x | _ => String.append x (String.String cLF (lf_join r)) end end.
Definition nl_text (n : netlist) : string :=
  match nl_end_ n with NoLF => lf_join (nl_lines n) | Blank k => unlines (nl_lines n ++ replicate k ""%string) end.

(** * Checks *)
Definition hdr_ok (n : netlist) : bool :=
  let '(l1, l2, l3, l4) := nl_hdr n in let '(g, w, i, o) := nl_head n in
  forallb (all_chars no_eol) [l1; l2; l3; l4] &&
  match tokens l1 with tg :: tw :: _ => bool_decide (num_value tg = Some g) && bool_decide (num_value tw = Some w) | _ => false end &&
  bool_decide (parse_counted (tokens l2) = Some i) && bool_decide (parse_counted (tokens l3) = Some o) &&
  (nsum o <=? w) && negb (match nl_end_ n, nl_gates n with NoLF, [] => true | _, _ => false end).
(** Each gate reads wires that are defined and not outputs ([lim] is the first output), and defines a new wire below [top]. *)
Fixpoint ssa (lim top : N) (d : ptree unit) (gs : list cg) : option (ptree unit) :=
  match gs with
  | [] => Some d
  | g :: gs =>
      if forallb (fun w => (w <? lim) && match tget d w with Some _ => true | None => false end) (cg_ins g) &&
         (cg_out g <? top) && match tget d (cg_out g) with None => true | Some _ => false end
      then ssa lim top (tset (cg_out g) tt d) gs else None
  end.
Definition inputs_set (n : N) : ptree unit := fold_right (fun w d => tset w tt d) PL (nseq 0 (N.to_nat n)).
Definition gates_ok (n : netlist) : bool :=
  (nl_wires n <? 2 ^ 64) &&
  match ssa (nl_wires n - nl_out n) (nl_wires n) (inputs_set (nl_in n)) (nl_gates n) with
  | Some d => forallb (fun w => match tget d w with Some _ => true | None => false end) (nl_outs n)
  | None => false
  end.

(** * Meaning *)
Definition sat (v : N -> bool) (g : cg) : Prop :=
  match g with
  | CX a b o => v o = xorb (v a) (v b)
  | CA a b o => v o = v a && v b
  | CI a o => v o = negb (v a)
  | CW a o => v o = v a
  end.
(** The netlist computes [f] when every valuation of the wires that satisfies the gates maps the input wires to the output wires by [f]. *)
Definition nl_computes (n : netlist) (f : list bool -> list bool) : Prop :=
  forall v, Forall (sat v) (nl_gates n) -> map v (nl_outs n) = f (map v (nseq 0 (N.to_nat (nl_in n)))).

(** * Parsing the text *)
Lemma lines_lf_join ls : forallb (all_chars no_eol) ls = true -> (forall x, last ls = Some x -> x <> ""%string) -> lines (lf_join ls) = ls.
Proof.
  induction ls as [|x r IH]; [done|]. cbn [forallb]. rewrite andb_true_iff. intros [H1 H2] Hl. cbn [lf_join].
  destruct r as [|y r].
  - specialize (Hl x eq_refl). clear -H1 Hl. destruct x as [|c x]; [done|]. clear Hl. revert c H1. induction x as [|d x IH]; intros c H1.
    + cbn [all_chars] in H1. rewrite andb_true_r in H1. unfold no_eol in H1. apply andb_true_iff in H1 as [H1 _]. apply negb_true_iff in H1.
      cbn [lines]. by rewrite H1.
    + cbn [all_chars] in H1. apply andb_true_iff in H1 as [H1 H2]. specialize (IH d H2). unfold no_eol in H1. apply andb_true_iff in H1 as [Ha Hb].
      apply negb_true_iff in Ha. apply negb_true_iff in Hb. change (lines (String.String c (String.String d x))) with
        (if Ascii.eqb c cLF then String.EmptyString :: lines (String.String d x) else
         if Ascii.eqb c cCR && Ascii.eqb d cLF then String.EmptyString :: lines x else
         match lines (String.String d x) with [] => [String.String c String.EmptyString] | x :: r => String.String c x :: r end).
      rewrite Ha, Hb, IH. done.
  - rewrite lines_sep by done. f_equal. apply IH; [done|]. intros z Hz. apply Hl. done.
Qed.
Lemma show_lines_no_eol gls : forallb (all_chars no_eol) (map show_line gls) = true.
Proof. induction gls as [|gl r IH]; [done|]. cbn [map forallb]. rewrite IH, andb_true_r. apply join_no_eol, show_line_words. Qed.
Lemma parse_show_lines gls : forallb line_small gls = true -> mapM (fun l => parse_line (tokens l)) (map show_line gls) = Some gls.
Proof.
  induction gls as [|gl r IH]; [done|]. cbn [forallb]. rewrite andb_true_iff. intros [Ha Hb]. simpl.
  rewrite show_line_parse by done. simpl. by rewrite IH.
Qed.
Lemma until_empty_app a k : until_empty (map show_line a ++ replicate k ""%string) = map show_line a.
Proof.
  induction a as [|gl r IH]; [by destruct k|]. cbn [map app until_empty]. rewrite IH.
  assert (String.eqb (show_line gl) "" = false) as -> by (apply join_nonempty, show_N_word). done.
Qed.
Lemma show_line_ne gl : show_line gl <> ""%string.
Proof. intros H. pose proof (join_nonempty (show_N (N.of_nat (length (gl_ins gl)))) (show_N (N.of_nat (length (gl_outs gl))) ::
        map show_N (gl_ins gl) ++ map show_N (gl_outs gl) ++ [kind_name (gl_kind gl)]) (show_N_word _)) as J. unfold show_line in H. by rewrite H in J. Qed.
Lemma nl_parse n : hdr_ok n = true -> forallb line_small (map cg_line (nl_gates n)) = true -> parse_prog (nl_text n) = Some (nl_prog n).
Proof.
  unfold hdr_ok, nl_text, nl_prog, nl_lines. destruct n as [[[[l1 l2] l3] l4] [[[g w] i] o] gs en]. cbn [nl_hdr nl_head nl_gates nl_end_].
  intros H Hs. rewrite !andb_true_iff in H. destruct H as (((((H1 & H2) & H3) & H4) & H5) & H6).
  apply bool_decide_eq_true in H3. apply bool_decide_eq_true in H4.
  destruct (tokens l1) as [|tg [|tw ts] ] eqn:E1; [done|done|]. apply andb_true_iff in H2 as [Ha Hb].
  apply bool_decide_eq_true in Ha. apply bool_decide_eq_true in Hb. cbn [forallb] in H1. rewrite !andb_true_iff in H1. destruct H1 as (N1 & N2 & N3 & N4 & _).
  unfold parse_prog. assert (exists k, lines (match en with NoLF => lf_join (l1 :: l2 :: l3 :: l4 :: map show_line (map cg_line gs))
      | Blank k => unlines ((l1 :: l2 :: l3 :: l4 :: map show_line (map cg_line gs)) ++ replicate k ""%string) end) =
      l1 :: l2 :: l3 :: l4 :: map show_line (map cg_line gs) ++ replicate k ""%string) as [k ->].
  { destruct en as [|k].
    - exists O. rewrite app_nil_r. apply lines_lf_join; [cbn [forallb]; by rewrite N1, N2, N3, N4, show_lines_no_eol|].
      destruct gs as [|g1 gs]; [done|]. intros x. rewrite !last_cons. clear. 
      assert (forall q, last (map show_line (map cg_line (q :: gs))) = Some x -> x <> ""%string) as Hq.
      { induction gs as [|g2 gs IH]; intros q; [intros [= <-]; apply show_line_ne|]. change (last (map show_line (map cg_line (q :: g2 :: gs)))) with
          (last (map show_line (map cg_line (g2 :: gs)))). apply IH. }
      specialize (Hq g1). destruct (last (map show_line (map cg_line (g1 :: gs)))) eqn:E; [done|]. by apply last_None in E.
    - exists k. rewrite lines_unlines; [done|]. rewrite forallb_app. cbn [forallb]. rewrite N1, N2, N3, N4, show_lines_no_eol. cbn [andb].
      clear. induction k; [done|]. done. }
  change (l1 :: l2 :: l3 :: l4 :: map show_line (map cg_line gs) ++ replicate k ""%string) with
    ([l1; l2; l3; l4] ++ (map show_line (map cg_line gs) ++ replicate k ""%string)). cbn [app].
  rewrite E1, Ha. cbn [mbind option_bind]. rewrite Hb. cbn [mbind option_bind]. rewrite H3. cbn [mbind option_bind]. rewrite H4. cbn [mbind option_bind].
  rewrite until_empty_app, parse_show_lines by done. done.
Qed.

(** * Running it *)
Lemma ssa_small lim top gs : top < 2 ^ 64 -> lim <= top -> forall d d', ssa lim top d gs = Some d' -> forallb line_small (map cg_line gs) = true.
Proof.
  intros Ht Hl. induction gs as [|g gs IH]; intros d d'; [done|]. cbn [ssa map forallb]. destruct (_ && _) eqn:E; [|done]. intros H.
  rewrite (IH _ _ H), andb_true_r. rewrite !andb_true_iff in E. destruct E as ((E1 & E2) & _). apply N.ltb_lt in E2.
  destruct g as [a b o|a b o|a o|a o]; cbn [cg_ins cg_out forallb] in *; rewrite !andb_true_iff, !N.ltb_lt in E1;
  unfold line_small; cbn [cg_line gl_ins gl_outs length app forallb]; unfold small; rewrite !andb_true_iff, !N.ltb_lt; intuition (try lia).
Qed.
Lemma ssa_exec lim top gs : forall d d' (e : gmap N bool), (forall w, is_Some (e !! w) <-> is_Some (tget d w)) -> ssa lim top d gs = Some d' ->
  exists e', exec_lines EqCopies e (map cg_line gs) = Some e' /\ (forall w, is_Some (e' !! w) <-> is_Some (tget d' w)) /\
    (forall w b, e !! w = Some b -> e' !! w = Some b) /\ Forall (sat (fun w => default false (e' !! w))) gs.
Proof.
  induction gs as [|g gs IH]; intros d d' e He; cbn [ssa map exec_lines].
  - intros [= <-]. exists e. done.
  - destruct (_ && _) eqn:E; [|done]. intros H. rewrite !andb_true_iff in E. destruct E as ((E1 & _) & E3).
    assert (Hd : forall w, w ∈ cg_ins g -> exists b, e !! w = Some b).
    { intros w Hw. rewrite forallb_forall in E1. specialize (E1 w ltac:(by apply elem_of_list_In)). apply andb_true_iff in E1 as [_ E1].
      apply He. destruct (tget d w); [eauto|done]. }
    assert (Hn : e !! cg_out g = None).
    { destruct (e !! cg_out g) eqn:Eo; [|done]. destruct (proj1 (He (cg_out g))) as [x Hx]; [eauto|]. by rewrite Hx in E3. }
    set (v := fun w => default false (e !! w)).
    set (b := match g with CX a b _ => xorb (v a) (v b) | CA a b _ => v a && v b | CI a _ => negb (v a) | CW a _ => v a end).
    assert (exec_line EqCopies e (cg_line g) = Some (<[cg_out g := b]> e)) as Ex.
    { destruct g as [x y o|x y o|x o|x o]; cbn [cg_ins] in Hd; unfold exec_line, line_value; cbn [cg_line gl_kind gl_ins gl_outs cg_out].
      1,2: destruct (Hd x ltac:(by left)) as [bx Hx]; destruct (Hd y ltac:(right; by left)) as [by_ Hy]; subst b v; cbn beta;
        unfold mapM; rewrite ?Hx, ?Hy; cbn; rewrite ?Hx, ?Hy; cbn; rewrite ?Hx, ?Hy; done.
      1,2: destruct (Hd x ltac:(by left)) as [bx Hx]; subst b v; cbn beta; cbn; rewrite ?Hx; cbn; rewrite ?Hx; done. }
    rewrite Ex. cbn [mbind option_bind].
    destruct (IH (tset (cg_out g) tt d) d' (<[cg_out g := b]> e)) as (e' & X & Y & Z & W); [|done|].
    { intros w. rewrite tget_set. destruct (N.eqb_spec (cg_out g) w) as [<- |Hw]; [rewrite lookup_insert; split; eauto|]. by rewrite lookup_insert_ne. }
    exists e'. split; [done|]. split; [done|]. 
    assert (Hk : forall w b, e !! w = Some b -> e' !! w = Some b).
    { intros w b' Hw. apply Z. rewrite lookup_insert_ne; [done|]. intros <-. congruence. }
    split; [done|]. constructor; [|done].
    assert (default false (e' !! cg_out g) = b) as Hb by (rewrite (Z (cg_out g) b); [done|by rewrite lookup_insert]).
    assert (Hv : forall w, w ∈ cg_ins g -> default false (e' !! w) = v w).
    { intros w Hw. destruct (Hd w Hw) as [b' Hb']. rewrite (Hk _ _ Hb'). subst v. cbn. by rewrite Hb'. }
    destruct g as [x y o|x y o|x o|x o]; cbn [cg_ins cg_out sat] in *.
    1,2: rewrite Hb, (Hv x), (Hv y); [done|right; by left|by left].
    1,2: rewrite Hb, (Hv x); [done|by left].
Qed.
Lemma inputs_set_get n w : is_Some (tget (inputs_set n) w) <-> w < n.
Proof.
  unfold inputs_set. assert (H : forall k a, is_Some (tget (fold_right (fun w d => tset w tt d) PL (nseq a k)) w) <-> a <= w /\ w < a + N.of_nat k).
  { induction k as [|k IH]; intros a; cbn [nseq fold_right]; [rewrite tget_PL; split; [by intros []|lia]|].
    rewrite tget_set. destruct (N.eqb_spec a w) as [-> |Hn]; [split; [lia|eauto]|]. rewrite IH. lia. }
  rewrite H. lia.
Qed.
(** Running the program of a checked netlist. *)
Lemma nl_run n inputs : hdr_ok n = true -> gates_ok n = true -> N.of_nat (length inputs) = nl_in n ->
  exists v, map v (nseq 0 (N.to_nat (nl_in n))) = inputs /\ Forall (sat v) (nl_gates n) /\
    run_prog EqCopies (nl_prog n) inputs = Some (map v (nl_outs n)).
Proof.
  intros Hh H Hl. unfold gates_ok in H. apply andb_true_iff in H as [Hw H]. destruct (ssa _ _ _ _) as [d|] eqn:E; [|done].
  assert (Hd : forall w, is_Some (load_from 0 inputs !! w) <-> is_Some (tget (inputs_set (nl_in n)) w)).
  { intros w. rewrite load_from_0, inputs_set_get. rewrite lookup_lt_is_Some. lia. }
  destruct (ssa_exec _ _ _ _ _ _ Hd E) as (e & Ex & He & Hi & Hs).
  exists (fun w => default false (e !! w)). split; [|split; [done|]].
  - apply list_eq_same_length with (n := length inputs); [done|rewrite map_length, nseq_length; lia|]. intros i x y Hlt Hx Hy.
    rewrite list_lookup_fmap, nseq_lookup in Hx. rewrite decide_True in Hx by lia. cbn [fmap option_fmap option_map] in Hx. injection Hx as <-.
    rewrite N.add_0_l, (Hi (N.of_nat i) y); [done|]. by rewrite load_from_0, Nat2N.id.
  - apply run_prog_exec. unfold nl_prog, nl_in, nl_out, nl_wires, nl_outs, hdr_ok in *. destruct n as [[[[l1 l2] l3] l4] [[[g w] i] o] gs en].
    cbn [nl_hdr nl_head nl_gates nl_end_ pr_in pr_out pr_wires pr_lines] in *. split; [done|]. split.
    { rewrite !andb_true_iff in Hh. destruct Hh as ((_ & Hh) & _). by apply N.leb_le in Hh. }
    exists e. split; [done|]. apply mapM_Some. apply Forall2_fmap_r, Forall_Forall2_diag, Forall_forall. intros u Hu.
    rewrite forallb_forall in H. specialize (H u ltac:(by apply elem_of_list_In)). destruct (proj2 (He u)) as [b Hb]; [by destruct (tget d u); [eauto|]|].
    unfold compose. by rewrite Hb.
Qed.
Lemma nl_out_le n : hdr_ok n = true -> nsum (pr_out (nl_prog n)) <= pr_wires (nl_prog n).
Proof.
  unfold hdr_ok, nl_prog. destruct n as [[[[l1 l2] l3] l4] [[[g w] i] o] gs en]. cbn [nl_hdr nl_head nl_gates nl_end_ pr_out pr_wires].
  rewrite !andb_true_iff. intros ((_ & H) & _). by apply N.leb_le in H.
Qed.
Lemma ssa_free lim top gs : forall d d', ssa lim top d gs = Some d' -> forall gl w, gl ∈ map cg_line gs -> w ∈ gl_ins gl -> w < lim.
Proof.
  induction gs as [|g gs IH]; intros d d'; cbn [ssa map]; [intros _ gl w H; by apply elem_of_nil in H|].
  destruct (_ && _) eqn:E; [|done]. intros H gl w Hg Hw. apply elem_of_cons in Hg as [-> |Hg]; [|by eapply IH].
  rewrite !andb_true_iff in E. destruct E as ((E1 & _) & _). rewrite forallb_forall in E1.
  specialize (E1 w). rewrite andb_true_iff, N.ltb_lt in E1. apply E1. apply elem_of_list_In. by destruct g.
Qed.

(** The macro [build_circuit_from_bristol] (/repo/src/circuits/mod.rs 20-33): a new reader reads the included text into the circuit.
    The functions it defines are given with their netlists (Prop_Arith64.v, ..). *)
Definition build_from_bristol (md : mode) (n : netlist) (l : nat) (h : heap) : res unit * heap := read_fresh md l (nl_text n) h.

(** What a caller of such a function gets: it succeeds on every new circuit in both build modes, leaves the other circuits alone, and the circuit
    computes [f]: on paper ([computes]) and with the evaluator, which terminates. *)
Definition builds (n : netlist) (f : list bool -> list bool) : Prop :=
  forall md md' h l, target h l -> exists h', build_from_bristol md n l h = (Ok tt, h') /\
    inputs_of h' l = Ok (nl_in n) /\ outputs_of h' l = Ok (nl_out n) /\ dinv h' /\ uncalled h' l /\
    (forall l' c, l' <> l -> h_circ h !! l' = Some c -> h_circ h' !! l' = Some c) /\
    (forall inputs, N.of_nat (length inputs) = nl_in n -> computes h' l inputs (f inputs)) /\
    exists F, forall fuel inputs, (F <= fuel)%nat -> N.of_nat (length inputs) = nl_in n ->
      eval_output md' h' fuel l inputs = Ok (f inputs).
Theorem nl_builds n f : hdr_ok n = true -> gates_ok n = true -> nl_computes n f -> builds n f.
Proof.
  intros Hh Hg Hf md md' h l T.
  assert (parse_prog (nl_text n) = Some (nl_prog n)) as P.
  { apply nl_parse; [done|]. unfold gates_ok in Hg. apply andb_true_iff in Hg as [Hw Hg]. apply N.ltb_lt in Hw.
    destruct (ssa _ _ _ _) eqn:E; [|done]. eapply ssa_small; [| |exact E]; [done|]. lia. }
  assert (Ein : nsum (pr_in (nl_prog n)) = nl_in n) by (unfold nl_in, nl_prog; by destruct (nl_head n) as [[[? ?] ?] ?]).
  assert (Eout : nsum (pr_out (nl_prog n)) = nl_out n) by (unfold nl_out, nl_prog; by destruct (nl_head n) as [[[? ?] ?] ?]).
  assert (Ew : pr_wires (nl_prog n) = nl_wires n) by (unfold nl_wires, nl_prog; by destruct (nl_head n) as [[[? ?] ?] ?]).
  assert (Ru : forall inputs, N.of_nat (length inputs) = nl_in n -> run_prog EqCopies (nl_prog n) inputs = Some (f inputs)).
  { intros inputs Hl. destruct (nl_run n inputs Hh Hg Hl) as (v & Vi & Vs & ->). rewrite (Hf v Vs). by rewrite Vi. }
  pose proof (nl_out_le n Hh) as Ho.
  destruct (C19_accepts md h l (nl_text n) (nl_prog n) (replicate (N.to_nat (nl_in n)) false) T P) as (h' & H & Hi & Hout & _).
  { rewrite Ru; [eauto|]. rewrite replicate_length. lia. }
  exists h'. split; [done|]. split; [by rewrite Hi, Ein|]. split; [by rewrite Hout, Eout|].
  destruct (C18_frame md h l _ h' T H) as (D & U & Fr); [by rewrite P|rewrite P; by intros p [= <-]|]. do 3 (split; [done|]). split.
  - intros inputs Hl. destruct (C18_read md h l _ h' T H) as (p & P' & _ & Hr). rewrite P in P'. injection P' as <-.
    destruct (Hr Ho) as (_ & _ & Hc). destruct (Hc inputs) as (outs & R & C); [by rewrite Ein|]. rewrite Ru in R by done. by injection R as <-.
  - destruct (C18_eval md md' h l _ h' _ T H P Ho) as [F HF].
    { intros gl w Hgl Hw Hx. apply elem_of_output_wires in Hx; [|done]. unfold gates_ok in Hg. apply andb_true_iff in Hg as [_ Hg].
      destruct (ssa _ _ _ _) eqn:E; [|done]. rewrite Ew, Eout in Hx.
      assert (w < nl_wires n - nl_out n); [|lia]. eapply ssa_free; [exact E| |exact Hw].
      unfold nl_prog in Hgl. by destruct (nl_head n) as [[[? ?] ?] ?]. }
    exists F. intros fuel inputs Hfu Hl. destruct (HF fuel inputs Hfu) as (outs & Ev & R); [by rewrite Ein|]. rewrite Ru in R by done. by injection R as <-.
Qed.
