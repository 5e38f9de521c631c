(** Properties C18-C23: the Bristol reader and the text layer. *)
From Verif Require Export ReaderFacts DiscDec OpFacts Prop_Circuit EvalDec EvalComplete.
Open Scope N_scope.
Open Scope list_scope.

(** A circuit to read into: just created, not called by anybody, in a heap reached by any disciplined history. *)
Definition target (h : heap) (l : nat) : Prop := dinv h /\ uncalled h l /\ exists s, h_circ h !! l = Some (circuit_new s).
Lemma target_wk h l : target h l -> wk h l.
Proof. intros (D & U & s & E). split; [done|done|eauto]. Qed.
(** Every new circuit of every disciplined history is such a target. *)
Lemma target_new md ops s x : disciplined md heap_empty ops -> h_stor (run md ops) !! s = Some x ->
  target (add_circ (run md ops) (circuit_new s)) (length (h_circ (run md ops))).
Proof.
  intros D E. pose proof (dinv_run _ _ D) as I.
  assert (I' : dinv (add_circ (run md ops) (circuit_new s))) by (eapply (dinv_deff md); [done|by eapply deff_new]).
  split; [done|]. split.
  - intros l1 c1 E1 (g & il & ol & ids & oi & mid & y & G & S & M). simpl in E1, S.
    destruct (decide (l1 = length (h_circ (run md ops)))) as [-> |Hn].
    + rewrite lookup_app_r, Nat.sub_diag in E1 by lia. injection E1 as <-. simpl in G. by rewrite lookup_empty in G.
    + assert (l1 < length (h_circ (run md ops)))%nat. { apply lookup_lt_Some in E1. rewrite app_length in E1. simpl in E1. lia. }
      destruct (hi_mods _ (di_inv _ I) _ _ S mid) as [H1 H2]. destruct (decide (mid < num_module y)) as [L|L]; [|rewrite H2 in M by lia; done].
      destruct (H1 L) as (l' & c' & M' & E'). rewrite M in M'. injection M' as <-. apply lookup_lt_Some in E'. lia.
  - exists s. simpl. rewrite lookup_app_r, Nat.sub_diag; done.
Qed.

Lemma parse_wires text p : parse_prog text = Some p -> pr_wires p < 2 ^ 64.
Proof.
  intros P. apply parse_prog_iff in P as (l1 & l2 & l3 & l4 & rest & tg & tw & r1 & t2 & r2 & t3 & r3 & _ & _ & _ & V & _).
  unfold num_value in V. destruct (positional (unsigned_body tw) <? 2 ^ 64) eqn:L; [|by rewrite andb_false_r in V].
  apply N.ltb_lt in L. destruct (_ && true); [|done]. by injection V as <-.
Qed.
Lemma run_prog_exec q p inputs outs : run_prog q p inputs = Some outs <->
  N.of_nat (length inputs) = nsum (pr_in p) /\ nsum (pr_out p) <= pr_wires p /\
  exists e, exec_lines q (load_from 0 inputs) (pr_lines p) = Some e /\
    mapM (fun w => e !! w) (nseq (pr_wires p - nsum (pr_out p)) (N.to_nat (nsum (pr_out p)))) = Some outs.
Proof.
  unfold run_prog. destruct (N.eqb_spec (N.of_nat (length inputs)) (nsum (pr_in p))); [|split; [done|]; by intros (? & _)].
  destruct (N.leb_spec (nsum (pr_out p)) (pr_wires p)); [|split; [done|]; intros (_ & ? & _); lia]. cbn [andb]. split.
  - destruct (exec_lines _ _ _) as [e'|]; [|done]. cbn [mbind option_bind]. eauto.
  - intros (_ & _ & e' & -> & H'). done.
Qed.

(** * C18 *)
(** [parse_prog] and [run_prog] (Bristol.v) say what a text denotes without mentioning circuits. A release build that wraps
    [num_wire - output_len_sum] is the one way to succeed with fewer outputs than the header announces (see C21), hence the condition. *)
Theorem C18_read md h l text h' : target h l -> read_fresh md l text h = (Ok tt, h') ->
  exists p, parse_prog text = Some p /\ (md = Debug -> nsum (pr_out p) <= pr_wires p) /\
    (nsum (pr_out p) <= pr_wires p ->
      inputs_of h' l = Ok (nsum (pr_in p)) /\ outputs_of h' l = Ok (nsum (pr_out p)) /\
      forall inputs, N.of_nat (length inputs) = nsum (pr_in p) ->
        exists outs, run_prog EqCopies p inputs = Some outs /\ computes h' l inputs outs).
Proof.
  intros T H. pose proof (target_wk _ _ T) as W. destruct T as (D & U & s & E). unfold read_fresh in H.
  destruct (read md l text (∅, h)) as [r [gw h1]] eqn:Er. injection H as -> <-. simpl.
  destruct (read_inv md h l s text _ W E Er) as (p & P & Hd). exists p. split; [done|]. split; [done|]. intros Ho.
  destruct (read_prefix md h l s text p W E P) as (gw1 & h2 & ls & W1 & X1 & C1 & S1 & M1 & Er1); [pose proof (parse_wires _ _ P); lia|].
  rewrite Er1 in Er. unfold st_bind, st_lift in Er.
  destruct (rd_lines l ls (gw1, h2)) as [[[]| | |] s2] eqn:E2; try done.
  destruct (rd_lines_inv _ _ _ _ _ _ _ _ _ W1 C1 S1 E2) as (gls & M1' & He). rewrite M1 in M1'. injection M1' as <-.
  destruct (rd_lines_ok l _ _ (fun _ => false) ls _ h2 gw1 _ _ W1 C1 S1 M1 (He _)) as (gw3 & h3 & F3 & Er3 & W3 & X3 & C3 & S3 & V3).
  rewrite Er3 in E2. injection E2 as <-. unfold usize_sub in Er. rewrite (proj2 (N.leb_le _ _) Ho) in Er.
  destruct (rd_outputs_inv _ _ _ _ _ _ Er) as [gs Hg].
  replace (N.to_nat (pr_wires p - (pr_wires p - nsum (pr_out p)))) with (N.to_nat (nsum (pr_out p))) in * by lia.
  destruct (read_ok md h l s text p (fun _ => false) W E P Ho (parse_wires _ _ P)) as (gw4 & h4 & c4 & Er4 & W4 & X4 & E4 & I4 & O4 & G4 & K4 & V4).
  { intros e. rewrite V3. intros [= <-]. destruct (sim_mapM _ _ _ _ _ _ S3 Hg) as [Hv _]. rewrite Hv. eauto. }
  { apply He. }
  rewrite Er1 in Er4. unfold st_bind, st_lift in Er4. rewrite Er3 in Er4. unfold usize_sub in Er4. rewrite (proj2 (N.leb_le _ _) Ho) in Er4.
  replace (N.to_nat (pr_wires p - (pr_wires p - nsum (pr_out p)))) with (N.to_nat (nsum (pr_out p))) in * by lia.
  rewrite Er in Er4. injection Er4 as -> ->.
  unfold inputs_of, outputs_of, on. rewrite E4, I4, O4. split; [done|]. split; [done|]. intros inputs Hl.
  destruct (V4 (rho_of inputs)) as (e & Ve & Vo). rewrite loaded_rho in Ve by done.
  assert (mapM (fun w => e !! w) (nseq (pr_wires p - nsum (pr_out p)) (N.to_nat (nsum (pr_out p)))) =
     Some (map (fun w => default false (e !! w)) (nseq (pr_wires p - nsum (pr_out p)) (N.to_nat (nsum (pr_out p)))))) as Hm.
  { apply mapM_Some. apply Forall2_fmap_r, Forall_Forall2_diag, Forall_lookup. intros i w Hi. rewrite nseq_lookup in Hi. destruct decide; [|done].
    injection Hi as <-. destruct (Vo (N.of_nat i)) as (b & o & Eb & _); [lia|]. unfold compose; by rewrite Eb. }
  exists (map (fun w => default false (e !! w)) (nseq (pr_wires p - nsum (pr_out p)) (N.to_nat (nsum (pr_out p))))). split.
  - apply run_prog_exec. split; [done|]. split; [done|]. eauto.
  - exists c4. split; [done|]. split; [rewrite map_length, nseq_length, N2Nat.id; done|]. intros k b Hk.
    rewrite list_lookup_fmap, nseq_lookup in Hk. destruct decide; [|done]. injection Hk as <-.
    destruct (Vo (N.of_nat k)) as (b & o & Eb & Eo & Gv); [lia|]. rewrite Eb. exists c4, o. split; [done|]. split; [done|].
    eapply gv_agree; [apply W4|exact E4| |exact Gv]. intros w Hw. unfold env_of, rho_of. rewrite I4 in Hw.
    destruct (lookup_lt_is_Some_2 inputs (N.to_nat w)) as [x ->]; [lia|done].
Qed.
Lemma read_reach md h l text h' : target h l -> read_fresh md l text h = (Ok tt, h') -> parse_prog text <> None ->
  (forall p, parse_prog text = Some p -> nsum (pr_out p) <= pr_wires p) ->
  wk h' l /\ ext l h h'.
Proof.
  intros T H Hp Ho. pose proof (target_wk _ _ T) as W. destruct T as (D & U & s & E). unfold read_fresh in H.
  destruct (read md l text (∅, h)) as [r [gw h1]] eqn:Er. injection H as -> <-. simpl. destruct (parse_prog text) as [p|] eqn:P; [|done]. clear Hp.
  specialize (Ho p eq_refl).
  destruct (read_prefix md h l s text p W E P) as (gw1 & h2 & ls & W1 & X1 & C1 & S1 & M1 & Er1); [pose proof (parse_wires _ _ P); lia|].
  rewrite Er1 in Er. unfold st_bind, st_lift in Er.
  destruct (rd_lines l ls (gw1, h2)) as [[[]| | |] s2] eqn:E2; try done.
  destruct (rd_lines_inv _ _ _ _ _ _ _ _ _ W1 C1 S1 E2) as (gls & M1' & He). rewrite M1 in M1'. injection M1' as <-.
  destruct (rd_lines_ok l _ _ (fun _ => false) ls _ h2 gw1 _ _ W1 C1 S1 M1 (He _)) as (gw3 & h3 & F3 & Er3 & W3 & X3 & C3 & S3 & V3).
  rewrite Er3 in E2. injection E2 as <-. unfold usize_sub in Er. rewrite (proj2 (N.leb_le _ _) Ho) in Er.
  destruct (rd_outputs_inv _ _ _ _ _ _ Er) as [gs Hg]. destruct C3 as (c3 & E3 & _).
  destruct (sim_mapM _ _ _ _ _ _ S3 Hg) as [_ FF].
  assert (Hgs : forall g, g ∈ gs -> has_gate h3 l g).
  { intros g Hg'. apply elem_of_list_lookup in Hg' as [i Hi]. destruct (Forall2_lookup_l _ _ _ _ _ FF Hi) as (w & _ & G). apply G. }
  destruct (rd_outputs_ok l _ _ gw3 gs h3 c3 W3 E3 Hgs Hg) as (h5 & c5 & Er5 & W5 & X5 & _).
  rewrite Er5 in Er. injection Er as <- <-. split; [done|]. eapply ext_trans; [exact X1|]. by eapply ext_trans.
Qed.
(** The heap stays disciplined, nothing else changed, so the circuit can be evaluated, called or written like any other. *)
Theorem C18_frame md h l text h' : target h l -> read_fresh md l text h = (Ok tt, h') -> parse_prog text <> None ->
  (forall p, parse_prog text = Some p -> nsum (pr_out p) <= pr_wires p) ->
  dinv h' /\ uncalled h' l /\ forall l' c, l' <> l -> h_circ h !! l' = Some c -> h_circ h' !! l' = Some c.
Proof.
  intros T H Hp Ho. destruct (read_reach _ _ _ _ _ T H Hp Ho) as [W X]. split; [apply W|]. split; [apply W|]. apply X.
Qed.


(** * C19 *)
(** A text is accepted as soon as it parses and its program runs on one input vector, i.e. no wire is used or output before it is defined. *)
Theorem C19_accepts md h l text p inputs : target h l -> parse_prog text = Some p -> is_Some (run_prog EqCopies p inputs) ->
  exists h', read_fresh md l text h = (Ok tt, h') /\ inputs_of h' l = Ok (nsum (pr_in p)) /\ outputs_of h' l = Ok (nsum (pr_out p)) /\
    exists c', h_circ h' !! l = Some c' /\
      num_gate c' = nsum (map (fun gl => match gl_kind gl with KEq | KEqw => 2 | _ => 1 end) (pr_lines p)) /\ num_const c' = 0.
Proof.
  intros T P [outs R]. pose proof (target_wk _ _ T) as W. destruct T as (D & U & s & E).
  apply run_prog_exec in R as (Hl & Ho & e & He & Hm).
  destruct (read_ok md h l s text p (rho_of inputs) W E P Ho (parse_wires _ _ P)) as (gw4 & h4 & c4 & Er4 & W4 & X4 & E4 & I4 & O4 & G4 & K4 & V4).
  { rewrite loaded_rho by done. intros e' He'. rewrite He in He'. injection He' as <-. eauto. }
  { rewrite loaded_rho by done. eauto. }
  exists h4. unfold read_fresh. rewrite Er4. split; [done|]. unfold inputs_of, outputs_of, on. rewrite E4, I4, O4. split; [done|]. split; [done|].
  exists c4. split; [done|]. split; [|done]. rewrite G4. unfold lines_cost. by f_equal.
Qed.
(** Together with C18: acceptance in a debug build is exactly "parses and runs". *)
Theorem C19_exact h l text : target h l ->
  (exists h', read_fresh Debug l text h = (Ok tt, h')) <->
  exists p, parse_prog text = Some p /\ forall inputs, N.of_nat (length inputs) = nsum (pr_in p) -> is_Some (run_prog EqCopies p inputs).
Proof.
  intros T. split.
  - intros [h' H]. destruct (C18_read _ _ _ _ _ T H) as (p & P & Hd & Hr). exists p. split; [done|].
    intros inputs Hl. destruct (Hr (Hd eq_refl)) as (_ & _ & Hi). destruct (Hi _ Hl) as (outs & -> & _). eauto.
  - intros (p & P & Hr). destruct (C19_accepts Debug h l text p (replicate (N.to_nat (nsum (pr_in p))) false) T P) as (h' & H & _); [|eauto].
    apply Hr. rewrite replicate_length. lia.
Qed.
(** The canonical printing of any program is read back as that program. *)
Theorem C19_printed p : prog_small p = true -> parse_prog (show_prog p) = Some p.
Proof. apply show_prog_parse. Qed.

(** * C20 *)
Theorem C20_unknown_wire md h l text p pre gl post inputs e ws w ws' : target h l -> parse_prog text = Some p -> nsum (pr_out p) < 2 ^ 64 ->
  pr_lines p = pre ++ gl :: post -> N.of_nat (length inputs) = nsum (pr_in p) ->
  exec_lines EqCopies (load_from 0 inputs) pre = Some e ->
  gl_ins gl = ws ++ w :: ws' -> (forall v, v ∈ ws -> is_Some (e !! v)) -> e !! w = None ->
  exists h', read_fresh md l text h = (Err (EUnknownWire w), h').
Proof.
  intros T P Ho Hp Hi He Hw Hws Hn. pose proof (target_wk _ _ T) as W. destruct T as (D & U & s & E).
  destruct (read_prefix md h l s text p W E P Ho) as (gw1 & h2 & ls & W1 & X1 & C1 & S1 & M1 & Er1). rewrite Hp in M1.
  destruct (rd_lines_prefix l _ _ (rho_of inputs) pre ls gl post h2 gw1 _ _ W1 C1 S1 M1) as
    (gw2 & h3 & F & ng & toks & ls' & W2 & X2 & C2 & S2 & Pl & V & Er2).
  { rewrite loaded_rho by done. eauto. }
  specialize (V (rho_of inputs)). rewrite loaded_rho in V by done. rewrite He in V. injection V as ->.
  assert (Ed : forall v, is_Some (gw2 !! v) <-> is_Some (F (rho_of inputs) !! v)).
  { intros v. specialize (S2 v). destruct (gw2 !! v); [destruct S2 as [S2 _]; split; eauto|]. rewrite S2. split; by intros []. }
  assert (rd_line l toks (gw2, h3) = (Err (EUnknownWire w), (gw2, h3))) as Hx.
  { apply parse_line_iff in Pl as (tn & tm & rest & ty & r & -> & Vn & Vm & L1 & H1 & _).
    unfold rd_line, st_bind, st_lift, rd_map.
    rewrite (proj2 (next_num_ok (tn :: tm :: rest) (N.of_nat (length (gl_ins gl))) (tm :: rest))) by eauto.
    rewrite (proj2 (next_num_ok (tm :: rest) (N.of_nat (length (gl_outs gl))) rest)) by eauto. cbn [fst].
    assert (rd_operands gw2 rest (N.of_nat (length (gl_ins gl))) = Err (EUnknownWire w)) as ->; [|done].
    assert (gw2 !! w = None) as Hgw. { destruct (gw2 !! w) eqn:Eg; [|done]. destruct (proj1 (Ed w)) as [? Hx]; [eauto|congruence]. }
    rewrite Hw in *. assert (Hd : forall v, v ∈ ws -> is_Some (gw2 !! v)) by (intros v Hv; apply Ed; auto).
    clear -H1 Hgw Hd. revert rest H1. induction ws as [|v ws IH]; intros rest H1; cbn [app length] in *.
    - destruct rest as [|t rest]; [done|]. cbn [take mapM] in H1. destruct (num_value t) as [x|] eqn:Et; [|done]. cbn [mbind option_bind] in H1.
      destruct (mapM _ (take _ rest)) as [xs|]; [|done]. injection H1 as -> <-. cbn [rd_operands].
      rewrite (proj2 (N.eqb_neq _ _)) by lia. rewrite (proj2 (parse_usize_value t w) Et). cbn [res_bind]. by rewrite Hgw.
    - destruct rest as [|t rest]; [done|]. cbn [take mapM] in H1. destruct (num_value t) as [x|] eqn:Et; [|done]. cbn [mbind option_bind] in H1.
      destruct (mapM _ (take _ rest)) as [xs|] eqn:Em; [|done]. injection H1 as -> ->. cbn [rd_operands].
      destruct (N.eqb_spec (N.of_nat (S (length (ws ++ w :: ws')))) 0); [lia|]. rewrite (proj2 (parse_usize_value t v) Et). cbn [res_bind].
      destruct (Hd v) as [g ->]; [by left|]. replace (N.of_nat _ - 1) with (N.of_nat (length (ws ++ w :: ws'))) by lia.
      rewrite IH; [done| |done]. intros v' Hv'. apply Hd. by right. }
  exists h3. unfold read_fresh. rewrite Er1. unfold st_bind at 1. rewrite Er2. unfold st_bind. by rewrite Hx.
Qed.
(** The wires output by the texts below. *)
Definition output_wires (p : prog) : list N := nseq (pr_wires p - nsum (pr_out p)) (N.to_nat (nsum (pr_out p))).
Lemma elem_of_output_wires p w : nsum (pr_out p) <= pr_wires p -> w ∈ output_wires p <-> pr_wires p - nsum (pr_out p) <= w /\ w < pr_wires p.
Proof.
  intros Ho. unfold output_wires. rewrite elem_of_list_lookup. setoid_rewrite nseq_lookup. split.
  - intros [i Hi]. destruct decide; [|done]. injection Hi as <-. lia.
  - intros [H1 H2]. exists (N.to_nat (w - (pr_wires p - nsum (pr_out p)))). rewrite decide_True by lia. f_equal. lia.
Qed.
(** C18 in terms of the evaluator: when no line reads an output wire, evaluating the circuit read gives the outputs of the program,
    for every input. [F] bounds the recursion depth from below: evaluation terminates. *)
Theorem C18_eval md md' h l text h' p : target h l -> read_fresh md l text h = (Ok tt, h') -> parse_prog text = Some p ->
  nsum (pr_out p) <= pr_wires p -> (forall gl w, gl ∈ pr_lines p -> w ∈ gl_ins gl -> w ∉ output_wires p) ->
  exists F, forall fuel inputs, (F <= fuel)%nat -> N.of_nat (length inputs) = nsum (pr_in p) ->
    exists outs, eval_output md' h' fuel l inputs = Ok outs /\ run_prog EqCopies p inputs = Some outs.
Proof.
  intros T H P Ho Hu. destruct (C18_read _ _ _ _ _ T H) as (p' & P' & _ & Hr). rewrite P in P'. injection P' as <-.
  destruct (Hr Ho) as (Hi & Hlo & Hc). clear Hr.
  destruct (C18_frame _ _ _ _ _ T H) as (D' & U' & _); [congruence|intros p'; rewrite P; by intros [= <-]|].
  pose proof (target_wk _ _ T) as W. destruct T as (D & U & s & E). unfold read_fresh in H.
  destruct (read md l text (∅, h)) as [r [gw h1]] eqn:Er. injection H as -> <-. cbn [snd] in *.
  destruct (read_free md h l s text p _ W E P Ho (parse_wires _ _ P) Er) as (c' & E' & Hm & Hd).
  { intros w H1 H2 Hin. apply elem_of_list_In, in_flat_map in Hin as (gl & Hgl & Hin). apply elem_of_list_In in Hgl; apply elem_of_list_In in Hin.
    eapply Hu; eauto. by apply elem_of_output_wires. }
  cbn [snd] in *. assert (Ev : evaluable h1 l).
  { econstructor; [exact E'| |].
    - intros k o Hk. left. destruct (deps c' o) as [|d ds] eqn:Ed; [done|]. assert (Hx : d ∈ deps c' o) by (rewrite Ed; by left).
      apply (deps_in c' (hi_circ _ (di_inv _ D') _ _ E')) in Hx as (gt & G & Hin). by destruct (Hd _ _ _ _ Hk G).
    - intros l' (g & il & ol & ids & oi & mid & x & G & _). by apply Hm in G. }
  destruct (eval_complete md' h1 l D' Ev) as [F HF]. exists F. intros fuel inputs Hf Hl.
  unfold inputs_of, outputs_of, on in Hi, Hlo. rewrite E' in Hi, Hlo. injection Hi as Hi. injection Hlo as Hlo.
  destruct (HF fuel c' inputs E' Hf) as [outs Eo]; [congruence|]. exists outs. split; [done|].
  destruct (Hc inputs Hl) as (outs' & R & c2 & E2 & L2 & V2). rewrite R. f_equal. rewrite E' in E2. injection E2 as <-.
  destruct (eval_sound md' _ (di_inv _ D') _ _ _ _ Eo) as (c3 & E3 & L3 & V3). rewrite E' in E3. injection E3 as <-.
  apply list_eq_same_length with (n := length outs); [done|lia|]. intros i x y Hi1 Hx Hy.
  destruct (V2 _ _ Hx) as (c4 & o4 & E4 & O4 & G4). rewrite E' in E4. injection E4 as <-.
  destruct (V3 _ _ Hy) as (c5 & o5 & E5 & O5 & G5). rewrite E' in E5. injection E5 as <-. rewrite O4 in O5. injection O5 as <-.
  by eapply gv_det.
Qed.

(** Reading into circuit 0 of this heap. *)
Definition blank : heap := run Debug [OpNewStorage; OpNewCircuit 0; OpNewCircuit 0].
Lemma blank_target l : (l < 2)%nat -> target blank l.
Proof.
  intros Hl. split; [apply dinv_run, disciplined_b_sound; vm_compute; done|].
  assert (l = 0 \/ l = 1)%nat as [-> | ->] by lia; (split; [apply uncalled_b_sound; vm_compute; done|exists 0%nat; vm_compute; done]).
Qed.
(** A half adder with a redundant copy: sum on wire 4, carry on wire 5. *)
Definition half_adder : string := unlines ["4 6"; "2 1 1"; "1 2"; ""; "1 1 0 2 EQW"; "2 1 2 1 3 XOR"; "1 1 3 4 EQW"; "2 1 0 1 5 AND"].
Example C18_example : exists h' p, read_fresh Debug 0 half_adder blank = (Ok tt, h') /\ parse_prog half_adder = Some p /\
  nsum (pr_out p) <= pr_wires p /\ (forall gl w, gl ∈ pr_lines p -> w ∈ gl_ins gl -> w ∉ output_wires p) /\
  eval_output Debug h' 20 0 [true; true] = Ok [false; true].
Proof.
  eexists. exists (Prog 4 6 [1; 1] [2] [GLine KEqw [0] [2]; GLine KXor [2; 1] [3]; GLine KEqw [3] [4]; GLine KAnd [0; 1] [5]]).
  split; [vm_compute; reflexivity|]. split; [vm_compute; reflexivity|]. split; [vm_compute; done|]. split.
  - assert (forallb (fun gl => forallb (fun w => negb (bool_decide (w ∈ output_wires (Prog 4 6 [1; 1] [2] [])))) (gl_ins gl))
      [GLine KEqw [0] [2]; GLine KXor [2; 1] [3]; GLine KEqw [3] [4]; GLine KAnd [0; 1] [5]] = true) as Hb by (vm_compute; reflexivity).
    intros gl w Hg Hw. rewrite forallb_forall in Hb. specialize (Hb gl ltac:(by apply elem_of_list_In)).
    rewrite forallb_forall in Hb. specialize (Hb w ltac:(by apply elem_of_list_In)). apply negb_true_iff in Hb. by apply bool_decide_eq_false in Hb.
  - vm_compute. reflexivity.
Qed.

(** A reader that has read another file: the same text that a fresh reader rejects is accepted and wired to gates of the earlier circuit. *)
Definition uses_wire_5 : string := unlines ["1 7"; "1 1"; "1 1"; ""; "2 1 0 5 6 AND"].
Theorem C20_reused : exists gw h1 h2 h3,
  read Debug 0 half_adder (∅, blank) = (Ok tt, (gw, h1)) /\
  (forall h l, target h l -> exists h', read_fresh Debug l uses_wire_5 h = (Err (EUnknownWire 5), h')) /\
  read Debug 1 uses_wire_5 (gw, h1) = (Ok tt, (h2, h3)) /\ inputs_of h3 1 = Ok 1 /\
  (exists c, h_circ h3 !! 1%nat = Some c /\ gate_map c !! 1 = Some (GAnd 0 7)) /\ get_gate h3 1 7 = Err (EUnknownGate 7).
Proof.
  do 4 eexists. split; [vm_compute; reflexivity|]. split.
  - intros h l T. eapply (C20_unknown_wire Debug h l uses_wire_5 (Prog 1 7 [1] [1] [GLine KAnd [0; 5] [6]]) [] _ [] [false] _ [0] 5 []); try done.
    + intros v ->%elem_of_list_singleton. eauto.
  - split; [vm_compute; reflexivity|]. split; [vm_compute; reflexivity|]. split; [|vm_compute; reflexivity].
    eexists. split; vm_compute; reflexivity.
Qed.
Example C20_example : read_fresh Debug 0 uses_wire_5 blank = (Err (EUnknownWire 5), snd (read_fresh Debug 0 uses_wire_5 blank)).
Proof. vm_compute. reflexivity. Qed.

(** * C21 *)
(** The announced outputs exceed the wires: a build with overflow checks panics, a release build silently gives a circuit without outputs. *)
Theorem C21_too_many_outputs h l text p inputs : target h l -> parse_prog text = Some p ->
  pr_wires p < nsum (pr_out p) -> nsum (pr_out p) < 2 ^ 64 -> N.of_nat (length inputs) = nsum (pr_in p) ->
  is_Some (exec_lines EqCopies (load_from 0 inputs) (pr_lines p)) ->
  (exists h', read_fresh Debug l text h = (Panic PArith, h')) /\
  (exists h', read_fresh Release l text h = (Ok tt, h') /\ outputs_of h' l = Ok 0).
Proof.
  intros T P Hw Ho Hi He. pose proof (target_wk _ _ T) as W. destruct T as (D & U & s & E). split.
  - destruct (read_prefix Debug h l s text p W E P Ho) as (gw & h1 & ls & W1 & X1 & C1 & S1 & M1 & Er).
    destruct (rd_lines_ok l _ _ (rho_of inputs) ls _ h1 gw _ _ W1 C1 S1 M1) as (gw2 & h2 & F2 & Er2 & W2 & X2 & C2 & S2 & V2); [by rewrite loaded_rho|].
    exists h2. unfold read_fresh. rewrite Er. unfold st_bind, st_lift. rewrite Er2. unfold usize_sub. by rewrite (proj2 (N.leb_gt _ _) Hw).
  - destruct (read_prefix Release h l s text p W E P Ho) as (gw & h1 & ls & W1 & X1 & C1 & S1 & M1 & Er).
    destruct (rd_lines_ok l _ _ (rho_of inputs) ls _ h1 gw _ _ W1 C1 S1 M1) as (gw2 & h2 & F2 & Er2 & W2 & X2 & C2 & S2 & V2); [by rewrite loaded_rho|].
    exists h2. unfold read_fresh. rewrite Er. unfold st_bind, st_lift. rewrite Er2. unfold usize_sub. rewrite (proj2 (N.leb_gt _ _) Hw).
    replace (pr_wires p - _) with 0 by (unfold usize_modulus; lia). split; [done|].
    destruct C2 as (c2 & E2 & _ & O2 & _). unfold outputs_of, on. by rewrite E2, O2.
Qed.
(** An output wire that no line defines. *)
Theorem C21_undefined_output md h l text p inputs e w : target h l -> parse_prog text = Some p ->
  nsum (pr_out p) <= pr_wires p -> N.of_nat (length inputs) = nsum (pr_in p) ->
  exec_lines EqCopies (load_from 0 inputs) (pr_lines p) = Some e -> w ∈ output_wires p -> e !! w = None ->
  exists h', read_fresh md l text h = (Panic PKey, h').
Proof.
  intros T P Ho Hi He Hw Hn. pose proof (target_wk _ _ T) as W. destruct T as (D & U & s & E).
  destruct (read_prefix md h l s text p W E P) as (gw & h1 & ls & W1 & X1 & C1 & S1 & M1 & Er); [pose proof (parse_wires _ _ P); lia|].
  destruct (rd_lines_ok l _ _ (rho_of inputs) ls _ h1 gw _ _ W1 C1 S1 M1) as (gw2 & h2 & F2 & Er2 & W2 & X2 & C2 & S2 & V2); [rewrite loaded_rho by done; eauto|].
  specialize (V2 (rho_of inputs)). rewrite loaded_rho in V2 by done. rewrite He in V2. injection V2 as ->.
  assert (gw2 !! w = None) as Hg. { specialize (S2 w). destruct (gw2 !! w); [|done]. destruct S2 as [S2 _]. destruct (S2 (rho_of inputs)). congruence. }
  apply elem_of_output_wires in Hw; [|done].
  assert (Hp : forall k v h0 c0, wk h0 l -> ext l h2 h0 -> h_circ h0 !! l = Some c0 -> v <= w -> w < v + N.of_nat k ->
    exists h', rd_outputs l k v (gw2, h0) = (Panic PKey, (gw2, h'))).
  { induction k as [|k IH]; intros v h0 c0 W0 X0 E0 H1 H2; [lia|]. cbn [rd_outputs]. unfold st_bind, rd_map, rd_h. cbn [fst snd].
    destruct (gw2 !! v) as [g|] eqn:Eg; [|by exists h0]. cbn [fst snd].
    assert (has_gate h0 l g) as Hh. { specialize (S2 v). rewrite Eg in S2. destruct S2 as [_ [S2 _]]. by eapply has_gate_hle; [apply X0|]. }
    destruct (s_output h0 l c0 W0 E0 g Hh) as (h3 & c3 & Eo & W3 & X3 & E3 & _). rewrite Eo. cbn [fst snd].
    eapply IH; [done|by eapply ext_trans|done| |lia]. destruct (decide (v = w)); [congruence|lia]. }
  destruct C2 as (c2 & E2 & _).
  destruct (Hp (N.to_nat (pr_wires p - (pr_wires p - nsum (pr_out p)))) (pr_wires p - nsum (pr_out p)) h2 c2 W2 (ext_refl _ _) E2) as [h' Hx]; [lia|lia|].
  exists h'. unfold read_fresh. rewrite Er. unfold st_bind, st_lift. rewrite Er2. unfold usize_sub. rewrite (proj2 (N.leb_le _ _) Ho).
  rewrite Hx. done.
Qed.
(** A gate line with fewer operands than its gate needs, or without an output wire. *)
Theorem C21_short_line md h l text p pre gl post inputs e : target h l -> parse_prog text = Some p -> nsum (pr_out p) < 2 ^ 64 ->
  pr_lines p = pre ++ gl :: post -> N.of_nat (length inputs) = nsum (pr_in p) ->
  exec_lines EqCopies (load_from 0 inputs) pre = Some e -> (forall v, v ∈ gl_ins gl -> is_Some (e !! v)) ->
  (length (gl_ins gl) < match gl_kind gl with KXor | KAnd | KOr => 2 | _ => 1 end)%nat \/ gl_outs gl = [] ->
  exists h', read_fresh md l text h = (Panic PIndex, h').
Proof.
  intros T P Ho Hp Hi He Hd Hs. pose proof (target_wk _ _ T) as W. destruct T as (D & U & s & E).
  destruct (read_prefix md h l s text p W E P Ho) as (gw1 & h2 & ls & W1 & X1 & C1 & S1 & M1 & Er1). rewrite Hp in M1.
  destruct (rd_lines_prefix l _ _ (rho_of inputs) pre ls gl post h2 gw1 _ _ W1 C1 S1 M1) as
    (gw2 & h3 & F & ng & toks & ls' & W2 & X2 & C2 & S2 & Pl & V & Er2).
  { rewrite loaded_rho by done. eauto. }
  specialize (V (rho_of inputs)). rewrite loaded_rho in V by done. rewrite He in V. injection V as ->.
  destruct (mapM (fun w => gw2 !! w) (gl_ins gl)) as [gs|] eqn:Eg.
  2: { exfalso. pose proof (sim_mapM_none _ _ _ _ _ (rho_of inputs) S2 Eg) as Hx. apply (mapM_None_1 (fun w => F (rho_of inputs) !! w)) in Hx.
       apply Exists_exists in Hx as (x & Hx & Hn). destruct (Hd x Hx) as [? Hy]. congruence. }
  assert (exists h', rd_line l toks (gw2, h3) = (Panic PIndex, (gw2, h'))) as [h' Hx].
  { rewrite (rd_line_gate _ _ _ _ _ _ Pl Eg). pose proof (mapM_length _ _ _ Eg) as Hl. destruct C2 as (c & Ec & _).
    unfold rd_gate, st_bind, st_nth, rd_h. destruct (gl_kind gl); cbn [kind_name String.eqb Ascii.eqb Bool.eqb orb].
    all: destruct gs as [|a gs]; cbn [lookup list_lookup]; [by exists h3|]. 2,3,4: destruct gs as [|b gs]; cbn [lookup list_lookup]; [by exists h3|].
    all: cbn [length] in Hl; destruct Hs as [Hs|Hs]; [lia|]; rewrite Hs; cbn [fst snd].
    - destruct (r_not_ok h3 l c Ec a) as (c' & -> & _). eauto.
    - destruct (r_xor_ok h3 l c Ec a b) as (c' & -> & _). eauto.
    - destruct (r_and_ok h3 l c Ec a b) as (c' & -> & _). eauto.
    - destruct (r_or_ok h3 l c Ec a b) as (c' & -> & _). eauto.
    - destruct (r_identity_ok h3 l c Ec a) as (c1 & c' & -> & _). eauto.
    - destruct (r_identity_ok h3 l c Ec a) as (c1 & c' & -> & _). eauto. }
  exists h'. unfold read_fresh. rewrite Er1. unfold st_bind at 1. rewrite Er2. unfold st_bind. by rewrite Hx.
Qed.
Definition bad_outputs : string := unlines ["1 3"; "1 2"; "1 4"; ""; "2 1 0 1 2 AND"].
Definition undefined_output : string := unlines ["1 5"; "1 2"; "1 1"; ""; "2 1 0 1 2 AND"].
Definition short_and : string := unlines ["1 3"; "1 2"; "1 1"; ""; "1 1 0 2 AND"].
Definition no_output : string := unlines ["1 3"; "1 2"; "1 1"; ""; "2 0 0 1 AND"].
Example C21_example : forall h l, target h l ->
  (exists h', read_fresh Debug l bad_outputs h = (Panic PArith, h')) /\
  (exists h', read_fresh Release l bad_outputs h = (Ok tt, h') /\ outputs_of h' l = Ok 0) /\
  (exists h', read_fresh Debug l undefined_output h = (Panic PKey, h')) /\
  (exists h', read_fresh Debug l short_and h = (Panic PIndex, h')) /\
  (exists h', read_fresh Debug l no_output h = (Panic PIndex, h')).
Proof.
  intros h l T. cut (((exists h', read_fresh Debug l bad_outputs h = (Panic PArith, h')) /\
  (exists h', read_fresh Release l bad_outputs h = (Ok tt, h') /\ outputs_of h' l = Ok 0)) /\
  (exists h', read_fresh Debug l undefined_output h = (Panic PKey, h')) /\
  (exists h', read_fresh Debug l short_and h = (Panic PIndex, h')) /\
  (exists h', read_fresh Debug l no_output h = (Panic PIndex, h'))); [by intros [[? ?] ?]|]. split; [|split; [|split] ].
  - eapply (C21_too_many_outputs h l bad_outputs (Prog 1 3 [2] [4] [GLine KAnd [0; 1] [2]]) [false; false]); try done.
  - eapply (C21_undefined_output Debug h l undefined_output (Prog 1 5 [2] [1] [GLine KAnd [0; 1] [2]]) [false; false] _ 4); try done.
    vm_compute. by left.
  - eapply (C21_short_line Debug h l short_and (Prog 1 3 [2] [1] [GLine KAnd [0] [2]]) [] _ [] [false; false]); try done.
    + intros v ->%elem_of_list_singleton. eauto.
    + left. simpl. lia.
  - eapply (C21_short_line Debug h l no_output (Prog 1 3 [2] [1] [GLine KAnd [0; 1] []]) [] _ [] [false; false]); try done.
    + intros v [-> |[-> |[]%elem_of_nil]%elem_of_cons]%elem_of_cons; eauto.
    + by right.
Qed.

(** * C22 *)
Definition eq_to_eqw (p : prog) : prog :=
  Prog (pr_gates p) (pr_wires p) (pr_in p) (pr_out p)
    (map (fun gl => GLine (match gl_kind gl with KEq => KEqw | k => k end) (gl_ins gl) (gl_outs gl)) (pr_lines p)).
Lemma exec_eqw e gls : exec_lines EqCopies e gls =
  exec_lines EqConstant e (map (fun gl => GLine (match gl_kind gl with KEq => KEqw | k => k end) (gl_ins gl) (gl_outs gl)) gls).
Proof.
  revert e. induction gls as [|gl r IH]; intros e; [done|]. cbn [map exec_lines].
  assert (exec_line EqCopies e gl = exec_line EqConstant e (GLine (match gl_kind gl with KEq => KEqw | k => k end) (gl_ins gl) (gl_outs gl))) as ->.
  { unfold exec_line, line_value. cbn [gl_kind gl_ins gl_outs]. destruct (gl_kind gl); try done. }
  destruct (exec_line _ e _); [apply IH|done].
Qed.
(** Whatever the file, the circuit read computes what Bristol Fashion assigns to the file with every EQ replaced by EQW. *)
Theorem C22_eq_is_copy h l text h' p : target h l -> read_fresh Debug l text h = (Ok tt, h') -> parse_prog text = Some p ->
  forall inputs, N.of_nat (length inputs) = nsum (pr_in p) ->
    exists outs, run_prog EqConstant (eq_to_eqw p) inputs = Some outs /\ computes h' l inputs outs.
Proof.
  intros T H P inputs Hl. destruct (C18_read _ _ _ _ _ T H) as (p' & P' & Hd & Hr). rewrite P in P'. injection P' as <-.
  destruct (Hr (Hd eq_refl)) as (_ & _ & Hc). destruct (Hc _ Hl) as (outs & R & C). exists outs. split; [|done].
  rewrite <- R. unfold run_prog, eq_to_eqw. cbn [pr_in pr_out pr_wires pr_lines]. by rewrite <- exec_eqw.
Qed.
(** A valid Bristol Fashion file for the constant 0: read gives the identity, wrong on the input 1. *)
Definition const_zero : string := unlines ["1 2"; "1 1"; "1 1"; ""; "1 1 0 1 EQ"].
Theorem C22_deviates : exists p, parse_prog const_zero = Some p /\ (forall x, run_prog EqConstant p [x] = Some [false]) /\
  forall md h l, target h l -> exists h', read_fresh md l const_zero h = (Ok tt, h') /\ forall x, computes h' l [x] [x].
Proof.
  exists (Prog 1 2 [1] [1] [GLine KEq [0] [1]]). split; [vm_compute; reflexivity|]. split; [intros []; vm_compute; reflexivity|]. intros md h l T.
  destruct (C19_accepts md h l const_zero (Prog 1 2 [1] [1] [GLine KEq [0] [1]]) [false] T) as (h' & H & _); [vm_compute; reflexivity|vm_compute; eauto|].
  exists h'. split; [done|]. intros x. destruct (C18_read _ _ _ _ _ T H) as (p' & P' & _ & Hr). vm_compute in P'. injection P' as <-.
  destruct Hr as (_ & _ & Hc); [vm_compute; done|]. destruct (Hc [x]) as (outs & R & C); [done|]. destruct x; vm_compute in R; by injection R as <-.
Qed.
Example C22_example : exists h', read_fresh Debug 0 const_zero blank = (Ok tt, h') /\ eval_output Debug h' 9 0 [true] = Ok [true].
Proof. eexists. split; [vm_compute; reflexivity|vm_compute; reflexivity]. Qed.

(** * C23 *)
Theorem C23_round_trip n : n < 2 ^ 64 -> parse_usize (show_N n) = Ok n.
Proof. intros H. by apply parse_usize_value, num_value_show. Qed.
(** The printed digits are the decimal expansion: only digits, at least one, positional value [n]. *)
Theorem C23_printed n : all_chars is_digit (show_N n) = true /\ show_N n <> "" /\ positional (show_N n) = n.
Proof. apply show_N_digits. Qed.
(** Printing is injective and a printed number never contains white space. *)
Theorem C23_printed_word n m : word (show_N n) = true /\ (show_N n = show_N m -> n = m).
Proof.
  split; [apply show_N_word|]. intros H. destruct (show_N_digits n) as (_ & _ & <-). rewrite H. apply show_N_digits.
Qed.
(** Exactly which tokens are numbers ([num_value]: optional plus, digits, value below 2^64). *)
Theorem C23_accepts t n : parse_usize t = Ok n <-> num_value t = Some n.
Proof. apply parse_usize_value. Qed.
Theorem C23_rejects t : num_value t = None -> exists k, parse_usize t = Err (EParseInt k).
Proof.
  intros H. destruct (parse_usize t) as [n| e | p |] eqn:E.
  - apply parse_usize_value in E. congruence.
  - assert (forall s acc e, parse_digits acc s = Err e -> exists k, e = EParseInt k) as Hd.
    { induction s as [|c s IH]; intros acc e' He; cbn [parse_digits] in He; [done|]. destruct (digit_val c); [|injection He; eauto].
      destruct (_ <? _); [by eapply IH|injection He; eauto]. }
    unfold parse_usize in E. destruct t as [|c t]; [injection E as <-; eauto|]. destruct (Ascii.eqb c _).
    + destruct t; [injection E as <-; eauto|]. destruct (Hd _ _ _ E) as [k ->]. eauto.
    + destruct (Hd _ _ _ E) as [k ->]. eauto.
  - exfalso. assert (forall s acc, parse_digits acc s <> Panic p) as Hd.
    { induction s as [|c s IH]; intros acc He; cbn [parse_digits] in He; [done|]. destruct (digit_val c); [|done]. destruct (_ <? _); [by eapply IH|done]. }
    unfold parse_usize in E. destruct t as [|c t]; [done|]. destruct (Ascii.eqb c _); [destruct t; [done|]|]; by eapply Hd.
  - exfalso. assert (forall s acc, parse_digits acc s <> NoFuel) as Hd.
    { induction s as [|c s IH]; intros acc He; cbn [parse_digits] in He; [done|]. destruct (digit_val c); [|done]. destruct (_ <? _); [by eapply IH|done]. }
    unfold parse_usize in E. destruct t as [|c t]; [done|]. destruct (Ascii.eqb c _); [destruct t; [done|]|]; by eapply Hd.
Qed.
Theorem C23_tokens ws : forallb word ws = true -> tokens (Text.join ws) = ws.
Proof. apply tokens_join. Qed.
Theorem C23_lines ls : forallb (all_chars no_eol) ls = true -> lines (unlines ls) = ls.
Proof. apply lines_unlines. Qed.
Example C23_example : show_N 18446744073709551615 = "18446744073709551615" /\ parse_usize "18446744073709551616" = Err (EParseInt IntPosOverflow) /\
  parse_usize "+007" = Ok 7 /\ parse_usize "-1" = Err (EParseInt IntInvalidDigit) /\ tokens "  2 1	0 " = ["2"; "1"; "0"].
Proof. repeat split; vm_compute; reflexivity. Qed.
