(** Property C80: the shipped builders, and Bristol texts in general, on circuits that are already in use, with the evaluator. *)
From Verif Require Import Netlist ZBits Prop_Readings BuildEval Prop_Arith64 Prop_Mult64 Prop_Div64 AesCheck Prop_Aes.
Open Scope N_scope.
Open Scope list_scope.

(** * Evaluability is kept *)
Lemma evaluable_ext l h h' l' : hinv h -> uncalled h l -> ext l h h' -> l' <> l -> evaluable h l' -> evaluable h' l'.
Proof.
  intros H U X Hne Hu. induction Hu as [l' c E HO Hc IH]. pose proof (ext_frame _ _ _ X _ _ Hne E) as E'.
  econstructor; [exact E'|exact HO|]. intros l2 C. assert (C2 : calls h c l2) by (eapply calls_shrink; eauto; apply X).
  apply IH; [done|]. intros ->. by eapply U.
Qed.
Section Grown.
Context (h h' : heap) (l : nat) (c c' : circuit).
Context (D : dinv h) (D' : dinv h') (U : uncalled h l) (X : ext l h h') (E : h_circ h !! l = Some c) (E' : h_circ h' !! l = Some c').
Context (Hm : forall g gt, gate_map c' !! g = Some gt -> gate_map c !! g = Some gt \/ is_module gt = false).
Context (Hn : forall k o, output_map c' !! k = Some o -> output_map c !! k = Some o \/ gate_index c <= o).
Context (Hd : forall k o d gt, output_map c' !! k = Some o -> gate_map c' !! d = Some gt -> o ∈ operands gt -> output_map c !! k = Some o \/ gate_map c !! d = Some gt).
Context (Ha : forall d gt a, gate_map c' !! d = Some gt -> a ∈ operands gt -> gate_map c !! d = Some gt \/ gate_index c <= a).
Lemma grown_cle : cle c c'.
Proof. destruct (hle_circ _ _ (ext_hle _ _ _ X) _ _ E) as (c2 & E2 & L). rewrite E' in E2. by injection E2 as <-. Qed.
Lemma grown_gate g : g < gate_index c -> gate_map c' !! g = gate_map c !! g.
Proof.
  intros Hg. apply (wf_gates _ (hi_circ _ (di_inv _ D) _ _ E)) in Hg as [gt G]. rewrite G. eapply lookup_weaken; [exact G|apply grown_cle].
Qed.
Lemma grown_operand g gt a : gate_map c !! g = Some gt -> a ∈ operands gt -> a < gate_index c.
Proof.
  intros G Hin. pose proof (d_ops _ _ (di_disc _ D _ _ E) _ _ _ G Hin). assert (g < gate_index c); [|lia].
  apply (wf_gates _ (hi_circ _ (di_inv _ D) _ _ E)). eauto.
Qed.
Lemma grown_touch g x : touch c' g x -> g < gate_index c -> touch c g x.
Proof.
  induction 1 as [g x Hx|g gt a x G Hin Ht IH]; intros Hg.
  - apply touch_self. unfold blk in *. by rewrite grown_gate in Hx.
  - rewrite grown_gate in G by done. eapply touch_oper; [exact G|exact Hin|]. apply IH. by eapply grown_operand.
Qed.
Lemma grown_evaluable : evaluable h l -> evaluable h' l.
Proof.
  intros Ev. inversion Ev as [l0 c0 E0 HO Hc]; subst l0. rewrite E in E0. injection E0 as <-.
  pose proof (hi_circ _ (di_inv _ D) _ _ E) as Wc. pose proof (hi_circ _ (di_inv _ D') _ _ E') as Wc'.
  econstructor; [exact E'| |].
  - intros k o Hk. destruct (Hn _ _ Hk) as [Hk0|Hgo].
    + assert (Hkl : k < output_len c). { destruct (decide (k < output_len c)); [done|]. rewrite (wf_outputs_none _ Wc) in Hk0; [done|lia]. }
      assert (Hog : o < gate_index c). { destruct (wf_outputs _ Wc k Hkl) as (o2 & Eo & Hs). rewrite Eo in Hk0. injection Hk0 as <-. by apply (wf_gates _ Wc). }
      assert (Hdeps : forall d, d ∈ deps c' o <-> d ∈ deps c o).
      { intros d. rewrite (deps_in _ Wc'), (deps_in _ Wc). split; intros (gt & G & Hin); exists gt; (split; [|done]).
        - destruct (Ha _ _ _ G Hin); [done|lia].
        - eapply lookup_weaken; [exact G|apply grown_cle]. }
      destruct (HO _ _ Hk0) as [Hz|(d & Hdd & Hor)].
      * left. destruct (deps c' o) as [|d ds]; [done|]. assert (d ∈ deps c o) as Hx by (apply Hdeps; left). rewrite Hz in Hx. by apply elem_of_nil in Hx.
      * right. exists d. split; [by apply Hdeps|]. destruct Hor as [(gt & G & Hoi)|Hnt].
        -- left. exists gt. split; [|done]. eapply lookup_weaken; [exact G|apply grown_cle].
        -- right. intros k' o' Hlt Hk' Ht. destruct (wf_outputs _ Wc k') as (o2 & Eo & Hs); [lia|].
           assert (output_map c' !! k' = Some o2) as Eo' by (eapply lookup_weaken; [exact Eo|apply grown_cle]). rewrite Hk' in Eo'. injection Eo' as <-.
           eapply (Hnt k' o' Hlt Eo). apply grown_touch; [done|]. by apply (wf_gates _ Wc).
    + left. destruct (deps c' o) as [|d ds] eqn:Ed; [done|]. assert (Hx : d ∈ deps c' o) by (rewrite Ed; left).
      apply (deps_in _ Wc') in Hx as (gt & G & Hin). destruct (Hd _ _ _ _ Hk G Hin) as [Hk0|G0].
      * assert (Hkl : k < output_len c). { destruct (decide (k < output_len c)); [done|]. rewrite (wf_outputs_none _ Wc) in Hk0; [done|lia]. }
        destruct (wf_outputs _ Wc k Hkl) as (o2 & Eo & Hs). rewrite Eo in Hk0. injection Hk0 as <-. apply (wf_gates _ Wc) in Hs. lia.
      * pose proof (grown_operand _ _ _ G0 Hin). lia.
  - intros l' (g & il & ol & ids & oi & mid & x & G & S & M). destruct (Hm _ _ G) as [G0|]; [|done].
    assert (C : calls h c l').
    { eapply calls_shrink; [apply D|apply X|exact E|]. exists g, il, ol, ids, oi, mid, x. split; [done|]. split; [|done].
      by rewrite <- (cle_st _ _ grown_cle). }
    eapply evaluable_ext; [apply D|exact U|exact X| |by apply Hc]. intros ->. by eapply U.
Qed.
End Grown.

(** * Texts *)
Lemma read_grows md h l text p h' : growing h l -> read_fresh md l text h = (Ok tt, h') -> parse_prog text = Some p -> fits p -> wk h' l /\ ext l h h'.
Proof.
  intros (D & U & [c E]) H P Hp. assert (W : wk h l) by (split; [done|done|eauto]). unfold read_fresh in H.
  destruct (read md l text (∅, h)) as [r [gw h1]] eqn:Er. injection H as -> <-.
  destruct (read_step md h l text ∅ (fun _ => ∅) _ _ _ _ W (growing_cnt h l c E) (sim_none h l) Er) as (p' & P' & _ & Hf).
  rewrite P in P'. injection P' as <-. by destruct (Hf Hp) as (F' & W' & X' & _).
Qed.
Theorem C80_evaluable md h l text p h' : growing h l -> evaluable h l -> read_fresh md l text h = (Ok tt, h') -> parse_prog text = Some p -> fits p ->
  (forall gl w, gl ∈ pr_lines p -> w ∈ gl_ins gl -> w ∉ output_wires p) -> evaluable h' l.
Proof.
  intros G Ev H P Hp Hu. destruct (read_grows _ _ _ _ _ _ G H P Hp) as [W' X]. destruct G as (D & U & [c E]).
  assert (W : wk h l) by (split; [done|done|eauto]). unfold read_fresh in H.
  destruct (read md l text (∅, h)) as [r [gw h1]] eqn:Er. injection H as -> <-.
  destruct (read_free_at md h l c text p _ W E P Hp (parse_wires _ _ P) Er) as (c' & E' & Hm & Hn & Hd & Ha).
  { intros w H1 H2 Hin. apply elem_of_list_In, in_flat_map in Hin as (gl & Hgl & Hin). apply elem_of_list_In in Hgl; apply elem_of_list_In in Hin.
    eapply Hu; eauto. by apply elem_of_output_wires. }
  cbn [snd] in *. eapply (grown_evaluable h h1 l c c'); try done. apply W'.
Qed.
(** Evaluating what was there and then what was read gives what evaluating it before gave, followed by the outputs of the program. *)
Theorem C80_text md md0 md' h l text p h' n : growing h l -> evaluable h l -> inputs_of h l = Ok n ->
  read_fresh md l text h = (Ok tt, h') -> parse_prog text = Some p -> fits p ->
  (forall gl w, gl ∈ pr_lines p -> w ∈ gl_ins gl -> w ∉ output_wires p) ->
  exists depth, forall fuel f0 ins0 outs0 ins, (depth <= fuel)%nat -> N.of_nat (length ins0) = n -> N.of_nat (length ins) = nsum (pr_in p) ->
    eval_output md0 h f0 l ins0 = Ok outs0 ->
    exists outs, run_prog EqCopies p ins = Some outs /\ eval_output md' h' fuel l (ins0 ++ ins) = Ok (outs0 ++ outs).
Proof.
  intros G Ev Hi H P Hp Hu. pose proof (C80_evaluable _ _ _ _ _ _ G Ev H P Hp Hu) as Ev'. destruct (read_grows _ _ _ _ _ _ G H P Hp) as [W' X].
  destruct (C78_append md h l text h' G) as (p' & n' & m & P' & I & O & I' & O' & R); [|done|].
  { right. intros t q ->%elem_of_list_singleton Hq. congruence. }
  rewrite P in P'. injection P' as <-. rewrite Hi in I. injection I as <-.
  destruct (eval_complete md' h' l (wk_d _ _ W') Ev') as [depth HF]. exists depth. intros fuel f0 ins0 outs0 ins Hf H0 H1 He.
  destruct G as (D & U & Hc). pose proof (eval_sound md0 h (di_inv _ D) _ _ _ _ He) as C0.
  destruct (R ins0 outs0 ins H0 C0 H1) as (outs & Ro & C1). exists outs. split; [done|].
  destruct (hle_circ _ _ (ext_hle _ _ _ X) l (default (circuit_new 0) (h_circ h !! l))) as (c' & E' & _); [by destruct Hc as [c ->]|].
  unfold inputs_of, on in I'. rewrite E' in I'. injection I' as I'.
  destruct (HF fuel c' (ins0 ++ ins) E' Hf) as [outs' Eo]; [rewrite app_length; lia|]. rewrite Eo. f_equal.
  eapply computes_unique; [eapply eval_sound; [apply W'|exact Eo]|exact C1].
Qed.

(** * Shipped builders *)
(** What a caller of a builder gets on any circuit that no circuit calls yet: the builder succeeds, the inputs and outputs of what it builds follow the
    existing ones, whose values stay, and circuits that can be evaluated still can. *)
Definition appends (build : nat -> heap -> res unit * heap) (nin nout : N) (f : list bool -> list bool) : Prop :=
  forall h l n m, growing h l -> inputs_of h l = Ok n -> outputs_of h l = Ok m -> exists h', build l h = (Ok tt, h') /\ growing h' l /\
    inputs_of h' l = Ok (n + nin) /\ outputs_of h' l = Ok (m + nout) /\
    (forall l' c, l' <> l -> h_circ h !! l' = Some c -> h_circ h' !! l' = Some c) /\
    (forall ins0 outs0 ins, N.of_nat (length ins0) = n -> N.of_nat (length ins) = nin -> computes h l ins0 outs0 ->
      computes h' l (ins0 ++ ins) (outs0 ++ f ins)) /\
    (evaluable h l -> evaluable h' l /\ forall md0 md', exists depth, forall fuel f0 ins0 outs0 ins, (depth <= fuel)%nat ->
      N.of_nat (length ins0) = n -> N.of_nat (length ins) = nin -> eval_output md0 h f0 l ins0 = Ok outs0 ->
      eval_output md' h' fuel l (ins0 ++ ins) = Ok (outs0 ++ f ins)).
Lemma nl_appends n f md : nl_good n f -> appends (build_from_bristol md n) (nl_in n) (nl_out n) f.
Proof.
  intros (Hh & Hg & Hf) h l ni no G Hi Ho.
  assert (parse_prog (nl_text n) = Some (nl_prog n)) as P.
  { apply nl_parse; [done|]. pose proof Hg as Hg'. unfold gates_ok in Hg'. apply andb_true_iff in Hg' as [Hw Hg']. apply N.ltb_lt in Hw.
    destruct (ssa _ _ _ _) eqn:E; [|done]. eapply ssa_small; [| |exact E]; [done|]. lia. }
  assert (Ein : nsum (pr_in (nl_prog n)) = nl_in n) by (unfold nl_in, nl_prog; by destruct (nl_head n) as [[[? ?] ?] ?]).
  assert (Eout : nsum (pr_out (nl_prog n)) = nl_out n) by (unfold nl_out, nl_prog; by destruct (nl_head n) as [[[? ?] ?] ?]).
  assert (Ew : pr_wires (nl_prog n) = nl_wires n) by (unfold nl_wires, nl_prog; by destruct (nl_head n) as [[[? ?] ?] ?]).
  assert (Ru : forall inputs, N.of_nat (length inputs) = nl_in n -> run_prog EqCopies (nl_prog n) inputs = Some (f inputs)).
  { intros inputs Hl. destruct (nl_run n inputs Hh Hg Hl) as (v & Vi & Vs & ->). rewrite (Hf v Vs). by rewrite Vi. }
  pose proof (nl_out_le n Hh) as Hle. assert (Hfit : fits (nl_prog n)) by exact Hle.
  assert (Hu : forall gl w, gl ∈ pr_lines (nl_prog n) -> w ∈ gl_ins gl -> w ∉ output_wires (nl_prog n)).
  { intros gl w Hgl Hw Hx. apply elem_of_output_wires in Hx; [|done]. unfold gates_ok in Hg. apply andb_true_iff in Hg as [_ Hg].
    destruct (ssa _ _ _ _) eqn:E; [|done]. rewrite Ew, Eout in Hx.
    assert (w < nl_wires n - nl_out n); [|lia]. eapply ssa_free; [exact E| |exact Hw].
    unfold nl_prog in Hgl. by destruct (nl_head n) as [[[? ?] ?] ?]. }
  destruct (C78_accepts md h l (nl_text n) (nl_prog n) (replicate (N.to_nat (nl_in n)) false) G P) as (h' & c & c' & H & G' & _ & _ & _ & _ & Fr).
  { rewrite Ru; [eauto|]. rewrite replicate_length. lia. }
  exists h'. split; [done|]. split; [done|].
  destruct (C78_append md h l (nl_text n) h' G) as (p' & n' & m' & P' & I & O & I' & O' & R); [|done|].
  { right. intros t q ->%elem_of_list_singleton Hq. rewrite P in Hq. by injection Hq as <-. }
  rewrite P in P'. injection P' as <-. rewrite Hi in I. injection I as <-. rewrite Ho in O. injection O as <-. rewrite Ein in *. rewrite Eout in *.
  split; [done|]. split; [done|]. split; [done|]. split.
  - intros ins0 outs0 ins H0 H1 C0. destruct (R ins0 outs0 ins H0 C0 H1) as (outs & Ro & C1). rewrite Ru in Ro by done. by injection Ro as <-.
  - intros Ev. split; [exact (C80_evaluable md h l _ _ h' G Ev H P Hfit Hu)|]. intros md0 md'.
    destruct (C80_text md md0 md' h l (nl_text n) (nl_prog n) h' ni G Ev Hi H P Hfit Hu) as [depth HF]. exists depth.
    intros fuel f0 ins0 outs0 ins Hfu H0 H1 He. destruct (HF fuel f0 ins0 outs0 ins Hfu H0 ltac:(by rewrite Ein) He) as (outs & Ro & Eo).
    rewrite Ru in Ro by done. by injection Ro as <-.
Qed.

(** The builders of /repo/src/circuits/arithmetic/mod.rs 10-15 and /repo/src/circuits/cryptography/mod.rs, by name. *)
Inductive shipped := SAdd | SSub | SNeg | SMul | SDivS | SDivU | SAes.
Definition build_shipped (md : mode) (b : shipped) : nat -> M unit :=
  match b with
  | SAdd => build_adder64 md | SSub => build_sub64 md | SNeg => build_neg64 md | SMul => build_mult2_64 md
  | SDivS => build_divide_signed_64 md | SDivU => build_divide_unsigned_64 md | SAes => build_aes128 md
  end.
(** What they should compute, least significant bit first. *)
Definition shipped_in (b : shipped) : nat := match b with SNeg => 64 | SAes => 256 | _ => 128 end.
Definition shipped_out (b : shipped) : nat := match b with SMul | SAes => 128 | _ => 64 end.
Definition shipped_fun (b : shipped) (inputs : list bool) : list bool :=
  let x := zval (take 64 inputs) in let y := zval (drop 64 inputs) in
  match b with
  | SAdd => zbits 64 (x + y)
  | SSub => zbits 64 (x - y)
  | SNeg => zbits 64 (- zval inputs)
  | SMul => zbits 64 (x * y / 2 ^ 64) ++ zbits 64 (x * y)
  | SDivS => zbits 64 (if (signed64 y =? 0)%Z then by_zero (signed64 x) else Z.quot (signed64 x) (signed64 y))
  | SDivU => zbits 64 (if (y =? 0)%Z then 2 ^ 64 - 1 else x / y)
  | SAes => bytes_bits (aes128_encrypt (bits_bytes (drop 128 inputs)) (bits_bytes (take 128 inputs)))
  end%Z.
Theorem C80_builders md b : appends (build_shipped md b) (N.of_nat (shipped_in b)) (N.of_nat (shipped_out b)) (shipped_fun b).
Proof.
  destruct b.
  - exact (nl_appends _ _ md adder64_good).
  - exact (nl_appends _ _ md sub64_good).
  - exact (nl_appends _ _ md neg64_good).
  - exact (nl_appends _ _ md mult2_64_good).
  - exact (nl_appends _ _ md divide64_good).
  - exact (nl_appends _ _ md udivide64_good).
  - exact (nl_appends _ _ md aes128_good).
Qed.
(** Any number of builders one after the other on one circuit, [build_adder64(&mut c)?; build_sub64(&mut c)?; ..]. *)
Fixpoint build_row (md : mode) (l : nat) (bs : list shipped) : M unit :=
  match bs with [] => st_ret tt | b :: r => build_shipped md b l ;; build_row md l r end.
Fixpoint row_in (bs : list shipped) : nat := match bs with [] => O | b :: r => (shipped_in b + row_in r)%nat end.
Fixpoint row_out (bs : list shipped) : nat := match bs with [] => O | b :: r => (shipped_out b + row_out r)%nat end.
Fixpoint row_fun (bs : list shipped) (inputs : list bool) : list bool :=
  match bs with [] => [] | b :: r => shipped_fun b (take (shipped_in b) inputs) ++ row_fun r (drop (shipped_in b) inputs) end.
Lemma row_appends md bs : appends (fun l => build_row md l bs) (N.of_nat (row_in bs)) (N.of_nat (row_out bs)) (row_fun bs).
Proof.
  induction bs as [|b r IH]; intros h l n m G Hi Ho; cbn [build_row row_in row_out row_fun].
  - exists h. split; [done|]. split; [done|]. rewrite !N.add_0_r. split; [done|]. split; [done|]. split; [done|]. split.
    + intros ins0 outs0 ins H0 H1 C. destruct ins; [|done]. by rewrite !app_nil_r.
    + intros Ev. split; [done|]. intros md0 md'. destruct (eval_complete md' h l (proj1 G) Ev) as [depth HF]. exists depth.
      intros fuel f0 ins0 outs0 ins Hf H0 H1 He. destruct ins; [|done]. rewrite !app_nil_r. destruct G as (D & U & [c E]).
      unfold inputs_of, on in Hi. rewrite E in Hi. injection Hi as Hi. destruct (HF fuel c ins0 E Hf) as [outs Eo]; [congruence|]. rewrite Eo. f_equal.
      eapply computes_unique; [eapply eval_sound; [apply D|exact Eo]|eapply eval_sound; [apply D|exact He]].
  - destruct (C80_builders md b h l n m G Hi Ho) as (h1 & E1 & G1 & I1 & O1 & F1 & C1 & V1).
    destruct (IH h1 l _ _ G1 I1 O1) as (h2 & E2 & G2 & I2 & O2 & F2 & C2 & V2).
    exists h2. split; [by rewrite (st_bind_ok _ _ _ _ _ E1)|]. split; [done|]. split; [rewrite I2; f_equal; lia|]. split; [rewrite O2; f_equal; lia|].
    split; [intros l' c Hne Hc; eauto|]. split.
    + intros ins0 outs0 ins H0 H1 C. rewrite <- (take_drop (shipped_in b) ins) at 1. rewrite !app_assoc. apply C2.
      * rewrite app_length, take_length. lia.
      * rewrite drop_length. lia.
      * apply C1; [done|rewrite take_length; lia|done].
    + intros Ev. destruct (V1 Ev) as [Ev1 X1]. destruct (V2 Ev1) as [Ev2 X2]. split; [done|]. intros md0 md'.
      destruct (X1 md0 md0) as [d1 D1]. destruct (X2 md0 md') as [d2 D2]. exists d2. intros fuel f0 ins0 outs0 ins Hf H0 H1 He.
      rewrite <- (take_drop (shipped_in b) ins) at 1. rewrite !app_assoc. eapply (D2 fuel d1); [done| | |].
      * rewrite app_length, take_length. lia.
      * rewrite drop_length. lia.
      * eapply D1; [done|done|rewrite take_length; lia|exact He].
Qed.
Theorem C80_row md md' h l bs : target h l -> exists h' depth, build_row md l bs h = (Ok tt, h') /\
  inputs_of h' l = Ok (N.of_nat (row_in bs)) /\ outputs_of h' l = Ok (N.of_nat (row_out bs)) /\
  forall fuel inputs, (depth <= fuel)%nat -> length inputs = row_in bs -> eval_output md' h' fuel l inputs = Ok (row_fun bs inputs).
Proof.
  intros T. pose proof (target_growing _ _ T) as G. destruct T as (D & U & s & E).
  assert (Hi : inputs_of h l = Ok 0) by (unfold inputs_of, on; by rewrite E). assert (Ho : outputs_of h l = Ok 0) by (unfold outputs_of, on; by rewrite E).
  assert (Ev : evaluable h l).
  { econstructor; [exact E|by intros k o|]. intros l' (g & il & ol & ids & oi & mid & x & Gm & _). done. }
  destruct (row_appends md bs h l 0 0 G Hi Ho) as (h' & E' & _ & I' & O' & _ & _ & V). destruct (V Ev) as [_ HX]. destruct (HX md' md') as [depth HF].
  destruct (eval_complete md' h l D Ev) as [d0 H0]. destruct (H0 d0 _ [] E (Nat.le_refl _) eq_refl) as [outs Eo].
  assert (outs = []) as ->.
  { destruct (eval_sound md' h (di_inv _ D) _ _ _ _ Eo) as (c & Ec & Lc & _). rewrite E in Ec. injection Ec as <-. by destruct outs. }
  exists h', depth. split; [done|]. split; [done|]. split; [done|]. intros fuel inputs Hf Hl.
  exact (HF fuel d0 [] [] inputs Hf eq_refl ltac:(by rewrite Hl) Eo).
Qed.
(** A circuit in use, a text read into it, and what a row of builders should compute. *)
Example C80_example : growing two_texts 0 /\ evaluable two_texts 0 /\ inputs_of two_texts 0 = Ok 3 /\
  fst (read_fresh Debug 0 half_adder two_texts) = Ok tt /\
  (exists p, parse_prog half_adder = Some p /\ fits p /\ forall gl w, gl ∈ pr_lines p -> w ∈ gl_ins gl -> w ∉ output_wires p) /\
  eval_output Debug two_texts 20 0 [true; true; true] = Ok [false; true; true; true] /\
  eval_output Debug (snd (read_fresh Debug 0 half_adder two_texts)) 20 0 ([true; true; true] ++ [true; false]) = Ok ([false; true; true; true] ++ [true; false]).
Proof.
  split; [exact C78_growing|]. split.
  { apply (evaluable_b_sound _ 3); [apply C78_growing|vm_compute; reflexivity]. }
  split; [vm_compute; reflexivity|]. split; [vm_compute; reflexivity|]. split.
  { eexists. split; [vm_compute; reflexivity|]. split; [vm_compute; done|]. intros gl w Hgl Hw Hx. cbn in Hgl.
    repeat (apply elem_of_cons in Hgl as [-> |Hgl]; [cbn in Hw; set_solver by lia|]). by apply elem_of_nil in Hgl. }
  split; vm_compute; reflexivity.
Qed.
Example C80_row_example : target blank 0 /\ row_in [SSub; SNeg] = 192%nat /\
  row_fun [SSub; SNeg] (zbits 64 5 ++ zbits 64 7 ++ zbits 64 1) = zbits 64 (-2) ++ zbits 64 (-1).
Proof. split; [apply blank_target; lia|]. split; [reflexivity|vm_compute; reflexivity]. Qed.
