(** Properties C78, C79: reading into a circuit that is not empty, and reading several texts with one reader. *)
From Verif Require Export Prop_Reader.
Open Scope N_scope.
Open Scope list_scope.

(** * Specification *)
(** Executing a program when the wires already carry [e]: the inputs overwrite the first wires, everything else is still there. *)
Definition run_from (e : gmap N bool) (p : prog) (inputs : list bool) : option (gmap N bool * list bool) :=
  if (N.of_nat (length inputs) =? nsum (pr_in p)) && (nsum (pr_out p) <=? pr_wires p) then
    e' ← exec_lines EqCopies (load_from 0 inputs ∪ e) (pr_lines p);
    outs ← mapM (fun w => e' !! w) (output_wires p);
    Some (e', outs)
  else None.
(** One program after the other, each on the next inputs and on the wires its predecessors left. *)
Fixpoint run_texts (e : gmap N bool) (ps : list prog) (inputs : list bool) : option (list bool) :=
  match ps with
  | [] => Some []
  | p :: r =>
      match run_from e p (take (N.to_nat (nsum (pr_in p))) inputs) with
      | Some (e', outs) => rest ← run_texts e' r (drop (N.to_nat (nsum (pr_in p))) inputs); Some (outs ++ rest)
      | None => None
      end
  end.
Definition ins_of (ps : list prog) : N := nsum (map (fun p => nsum (pr_in p)) ps).
Definition outs_of (ps : list prog) : N := nsum (map (fun p => nsum (pr_out p)) ps).
Definition fits (p : prog) : Prop := nsum (pr_out p) <= pr_wires p.
(** On empty wires one program is run as in C18. *)
Lemma run_texts_one p inputs : N.of_nat (length inputs) = nsum (pr_in p) -> run_texts ∅ [p] inputs = run_prog EqCopies p inputs.
Proof.
  intros Hl. cbn [run_texts]. rewrite take_ge by lia. unfold run_from, run_prog. rewrite map_union_empty.
  destruct (_ && _); [|done]. destruct (exec_lines _ _ _) as [e|]; [|done]. cbn [mbind option_bind].
  fold (output_wires p). destruct (mapM _ (output_wires p)); [|done]. cbn. by rewrite app_nil_r.
Qed.

(** The calls [reader.read(c_ref.clone(), text)?] in a row: the reader's map outlives each call (/repo/src/bristol_converter.rs 37-51, 83, 160). *)
Fixpoint read_all (md : mode) (l : nat) (texts : list string) : RM unit :=
  match texts with [] => st_ret tt | t :: r => read md l t ;; read_all md l r end.

(** * One reading *)
Definition slice (ρ : N -> bool) (i n : N) : list bool := map (fun j => ρ (i + j)) (nrange n).
Lemma slice_length ρ i n : length (slice ρ i n) = N.to_nat n.
Proof. unfold slice. by rewrite map_length, nrange_length. Qed.
Lemma slice_lookup ρ i n (k : nat) : slice ρ i n !! k = if decide (N.of_nat k < n) then Some (ρ (i + N.of_nat k)) else None.
Proof. unfold slice. rewrite list_lookup_fmap, nrange_lookup. by destruct decide. Qed.
Lemma slice_take ρ i n m : take (N.to_nat n) (slice ρ i (n + m)) = slice ρ i n.
Proof.
  apply list_eq. intros k. rewrite slice_lookup. destruct decide.
  - rewrite lookup_take, slice_lookup, decide_True by lia. done.
  - apply lookup_take_ge. lia.
Qed.
Lemma slice_drop ρ i n m : drop (N.to_nat n) (slice ρ i (n + m)) = slice ρ (i + n) m.
Proof.
  apply list_eq. intros k. rewrite lookup_drop, !slice_lookup. repeat destruct decide; try lia; [|done]. do 2 f_equal. lia.
Qed.
Lemma slice_rho ins0 ins : slice (rho_of (ins0 ++ ins)) (N.of_nat (length ins0)) (N.of_nat (length ins)) = ins.
Proof.
  apply list_eq. intros k. rewrite slice_lookup. unfold rho_of. destruct decide.
  - rewrite lookup_app_r by lia. replace (N.to_nat (N.of_nat (length ins0) + N.of_nat k) - length ins0)%nat with k by lia.
    destruct (lookup_lt_is_Some_2 ins k) as [b ->]; [lia|done].
  - symmetry. apply lookup_ge_None. lia.
Qed.
Lemma over_slice i n F ρ : over i n F ρ = load_from 0 (slice ρ i n) ∪ F ρ.
Proof. done. Qed.

Lemma read_step {nc} md h l text gw F il ol ng s' : wk h l -> ReaderFacts.cnt (nc := nc) h l il ol ng -> sim h l gw F -> read md l text (gw, h) = (Ok tt, s') ->
  exists p, parse_prog text = Some p /\ (md = Debug -> fits p) /\
    (fits p -> exists F', wk (snd s') l /\ ext l h (snd s') /\
      ReaderFacts.cnt (nc := nc) (snd s') l (il + nsum (pr_in p)) (ol + nsum (pr_out p)) (ng + lines_cost (pr_lines p)) /\ sim (snd s') l (fst s') F' /\
      forall ρ, exists outs, run_from (F ρ) p (slice ρ il (nsum (pr_in p))) = Some (F' ρ, outs) /\ N.of_nat (length outs) = nsum (pr_out p) /\
        forall k b, outs !! k = Some b -> outv (snd s') l (fun w => Some (ρ w)) (ol + N.of_nat k) b).
Proof.
  intros W C S H. destruct (read_inv_at md h l text s' gw F il ol ng W C S H) as (p & P & Hd). exists p. split; [done|]. split; [done|]. intros Ho.
  pose proof (parse_wires _ _ P) as Hw. unfold fits in Ho.
  destruct (read_prefix_at md h l text p gw F il ol ng W C S P) as (gw1 & h2 & ls & W1 & X1 & C1 & S1 & M1 & Er1); [lia|].
  pose proof H as Er. rewrite Er1 in Er. unfold st_bind, st_lift in Er.
  destruct (rd_lines l ls (gw1, h2)) as [[[]| | |] s2] eqn:E2; try done.
  destruct (rd_lines_inv _ _ _ _ _ _ _ _ _ W1 C1 S1 E2) as (gls & M1' & He). rewrite M1 in M1'. injection M1' as <-.
  destruct (rd_lines_ok l _ _ (fun _ => false) ls _ h2 gw1 _ _ W1 C1 S1 M1 (He _)) as (gw3 & h3 & F3 & Er3 & W3 & X3 & C3 & S3 & V3).
  rewrite Er3 in E2. injection E2 as <-. unfold usize_sub in Er. rewrite (proj2 (N.leb_le _ _) Ho) in Er. destruct s' as [gw' h'].
  destruct (rd_outputs_inv _ _ _ _ _ _ Er) as [gs Hg].
  replace (N.to_nat (pr_wires p - (pr_wires p - nsum (pr_out p)))) with (N.to_nat (nsum (pr_out p))) in * by lia.
  destruct (read_ok_at md h l text p gw F il ol ng (fun _ => false) W C S P Ho Hw) as (s4 & h4 & c4 & F4 & Er4 & W4 & X4 & E4 & C4 & S4 & V4 & O4).
  { intros e. rewrite V3. intros [= <-]. destruct (sim_mapM _ _ _ _ _ _ S3 Hg) as [Hv _]. rewrite Hv. eauto. }
  { apply He. }
  rewrite H in Er4. injection Er4 as -> ->. cbn [fst snd]. exists F4. split; [done|]. split; [done|]. split; [done|]. split; [done|].
  intros ρ. exists (map (fun w => default false (F4 ρ !! w)) (output_wires p)). split; [|split].
  - unfold run_from. rewrite slice_length, N2Nat.id, N.eqb_refl, (proj2 (N.leb_le _ _) Ho). cbn [andb]. rewrite <- over_slice, V4. cbn [mbind option_bind].
    rewrite (proj2 (mapM_Some _ _ (map (fun w => default false (F4 ρ !! w)) (output_wires p)))); [done|].
    apply Forall2_fmap_r, Forall_Forall2_diag, Forall_lookup. intros i w Hi. unfold output_wires in Hi. rewrite nseq_lookup in Hi.
    destruct decide; [|done]. injection Hi as <-. destruct (O4 ρ (N.of_nat i)) as (b & o & Eb & _); [lia|]. unfold compose; by rewrite Eb.
  - unfold output_wires. rewrite map_length, nseq_length. lia.
  - intros k b Hk. rewrite list_lookup_fmap in Hk. unfold output_wires in Hk. rewrite nseq_lookup in Hk. destruct decide; [|done]. injection Hk as <-.
    destruct (O4 ρ (N.of_nat k)) as (b & o & Eb & Eo & Gv); [lia|]. exists c4, o. rewrite Eb. done.
Qed.
Lemma read_step_ok {nc} md h l text p gw F il ol ng ρ : wk h l -> ReaderFacts.cnt (nc := nc) h l il ol ng -> sim h l gw F -> parse_prog text = Some p ->
  is_Some (run_from (F ρ) p (slice ρ il (nsum (pr_in p)))) -> exists s', read md l text (gw, h) = (Ok tt, s').
Proof.
  intros W C S P [[e outs] R]. unfold run_from in R. rewrite slice_length, N2Nat.id, N.eqb_refl in R. cbn [andb] in R.
  destruct (N.leb_spec (nsum (pr_out p)) (pr_wires p)) as [Ho|]; [|done].
  rewrite <- over_slice in R. destruct (exec_lines _ _ _) as [e'|] eqn:He; [|done]. cbn [mbind option_bind] in R.
  destruct (mapM _ (output_wires p)) as [os|] eqn:Hm; [|done]. injection R as -> ->.
  destruct (read_ok_at md h l text p gw F il ol ng ρ W C S P Ho (parse_wires _ _ P)) as (s4 & h4 & c4 & F4 & Er4 & _); [|by rewrite He|eauto].
  intros e1. rewrite He. intros [= <-]. unfold output_wires in Hm. eauto.
Qed.

(** * Several readings *)
Lemma outv_ext l h h' ρ k b : ext l h h' -> outv h l ρ k b -> outv h' l ρ k b.
Proof.
  intros X (c & o & E & O & G). destruct (hle_circ _ _ (ext_hle _ _ _ X) _ _ E) as (c' & E' & Lc).
  exists c', o. split; [done|]. split; [eapply lookup_weaken; [exact O|apply Lc]|]. eapply gv_hle; [apply X|done].
Qed.
(** The one way to succeed although a header announces more outputs than wires is a release build that wraps the difference (C21). *)
Definition headers_fit (md : mode) (texts : list string) : Prop :=
  md = Debug \/ forall t p, t ∈ texts -> parse_prog t = Some p -> fits p.
Lemma read_all_ok {nc} md l : forall texts h gw F il ol ng s', wk h l -> ReaderFacts.cnt (nc := nc) h l il ol ng -> sim h l gw F ->
  headers_fit md texts -> read_all md l texts (gw, h) = (Ok tt, s') ->
  exists ps F', mapM parse_prog texts = Some ps /\ Forall fits ps /\ wk (snd s') l /\ ext l h (snd s') /\
    ReaderFacts.cnt (nc := nc) (snd s') l (il + ins_of ps) (ol + outs_of ps) (ng + nsum (map (fun p => lines_cost (pr_lines p)) ps)) /\ sim (snd s') l (fst s') F' /\
    forall ρ, exists outs, run_texts (F ρ) ps (slice ρ il (ins_of ps)) = Some outs /\ N.of_nat (length outs) = outs_of ps /\
      forall k b, outs !! k = Some b -> outv (snd s') l (fun w => Some (ρ w)) (ol + N.of_nat k) b.
Proof.
  induction texts as [|t r IH]; intros h gw F il ol ng s' W C S Hh H; cbn [read_all mapM] in *.
  - injection H as <-. exists [], F. cbn. split; [done|]. split; [by constructor|]. split; [done|]. split; [apply ext_refl|].
    split; [by rewrite !N.add_0_r|]. split; [done|]. intros ρ. exists []. done.
  - unfold st_bind in H. destruct (read md l t (gw, h)) as [[[]| | |] [gw1 h1]] eqn:E1; try done.
    destruct (read_step md h l t gw F il ol ng _ W C S E1) as (p & P & Hd & Hf). cbn [fst snd] in Hf. rewrite P. cbn [mbind option_bind].
    assert (Hp : fits p). { destruct Hh as [Hm|Hh]; [auto|]. eapply Hh; [|done]. left. }
    destruct (Hf Hp) as (F1 & W1 & X1 & C1 & S1 & R1).
    destruct (IH h1 gw1 F1 _ _ _ s' W1 C1 S1) as (ps & F2 & -> & Hps & W2 & X2 & C2 & S2 & R2); [|done|].
    { destruct Hh as [Hm|Hh]; [by left|right]. intros t' p' Ht. apply Hh. by right. }
    exists (p :: ps), F2. split; [done|]. split; [by constructor|]. split; [done|]. split; [by eapply ext_trans|].
    unfold ins_of, outs_of in *. cbn [map nsum fold_right] in *. fold (nsum (map (fun p => nsum (pr_in p)) ps)) in *.
    fold (nsum (map (fun p => nsum (pr_out p)) ps)) in *. fold (nsum (map (fun p => lines_cost (pr_lines p)) ps)) in *.
    split; [by rewrite !N.add_assoc|]. split; [done|]. intros ρ. destruct (R1 ρ) as (o1 & Ro1 & L1 & V1). destruct (R2 ρ) as (o2 & Ro2 & L2 & V2).
    exists (o1 ++ o2). split; [|split].
    + cbn [run_texts]. rewrite slice_take, slice_drop, Ro1. by rewrite Ro2.
    + rewrite app_length. lia.
    + intros k b Hk. apply lookup_app_Some in Hk as [Hk|[Hle Hk]]; [eapply outv_ext; [done|by apply V1]|].
      specialize (V2 _ _ Hk). by replace (ol + N.of_nat k) with (ol + nsum (pr_out p) + N.of_nat (k - length o1)) by lia.
Qed.
Lemma read_all_accepts {nc} md l ρ : forall texts ps h gw F il ol ng, wk h l -> ReaderFacts.cnt (nc := nc) h l il ol ng -> sim h l gw F ->
  mapM parse_prog texts = Some ps -> is_Some (run_texts (F ρ) ps (slice ρ il (ins_of ps))) ->
  exists s', read_all md l texts (gw, h) = (Ok tt, s').
Proof.
  induction texts as [|t r IH]; intros ps h gw F il ol ng W C S P R; cbn [read_all mapM] in *; [by eexists|].
  destruct (parse_prog t) as [p|] eqn:Pt; [|done]. cbn [mbind option_bind] in P. destruct (mapM parse_prog r) as [ps'|] eqn:Pr; [|done].
  injection P as <-. cbn [run_texts] in R. unfold ins_of in R. cbn [map nsum fold_right] in R. fold (nsum (map (fun p => nsum (pr_in p)) ps')) in R.
  fold (ins_of ps') in R. rewrite slice_take, slice_drop in R.
  destruct (run_from _ p _) as [[e outs]|] eqn:R1; [|by destruct R].
  destruct (read_step_ok md h l t p gw F il ol ng ρ W C S Pt) as [[gw1 h1] E1]; [rewrite R1; eauto|].
  destruct (read_step md h l t gw F il ol ng _ W C S E1) as (p' & P' & _ & Hf). rewrite Pt in P'. injection P' as <-.
  destruct Hf as (F1 & W1 & X1 & C1 & S1 & V1).
  { unfold run_from in R1. unfold fits. destruct (N.leb_spec (nsum (pr_out p)) (pr_wires p)); [done|]. by rewrite andb_false_r in R1. }
  destruct (V1 ρ) as (o1 & Ro1 & _). rewrite Ro1 in R1. injection R1 as <- <-. cbn [fst snd] in *.
  destruct (IH ps' h1 gw1 F1 _ _ _ W1 C1 S1 eq_refl) as [s' E2]; [by destruct (run_texts (F1 ρ) ps' _) as [x|]; [eauto|destruct R]|].
  exists s'. unfold st_bind. by rewrite E1.
Qed.

(** * C79 *)
(** A circuit somebody may be in the middle of building: any disciplined state, the circuit not called yet. *)
Definition growing (h : heap) (l : nat) : Prop := dinv h /\ uncalled h l /\ is_Some (h_circ h !! l).
Lemma target_growing h l : target h l -> growing h l.
Proof. intros (D & U & s & E). split; [done|]. split; [done|]. eauto. Qed.
Lemma growing_cnt h l c : h_circ h !! l = Some c -> ReaderFacts.cnt (nc := num_const c) h l (input_len c) (output_len c) (num_gate c).
Proof. intros E. exists c. done. Qed.
(** New texts into an existing circuit: its outputs keep their values, those of the texts follow, on the inputs that follow. *)
Theorem C79_several md h l texts gw h' : growing h l -> headers_fit md texts -> read_all md l texts (∅, h) = (Ok tt, (gw, h')) ->
  exists ps n m, mapM parse_prog texts = Some ps /\ inputs_of h l = Ok n /\ outputs_of h l = Ok m /\
    inputs_of h' l = Ok (n + ins_of ps) /\ outputs_of h' l = Ok (m + outs_of ps) /\
    forall ins0 outs0 ins, N.of_nat (length ins0) = n -> computes h l ins0 outs0 -> N.of_nat (length ins) = ins_of ps ->
      exists outs, run_texts ∅ ps ins = Some outs /\ computes h' l (ins0 ++ ins) (outs0 ++ outs).
Proof.
  intros (D & U & [c E]) Hh H. assert (W : wk h l) by (split; [done|done|eauto]).
  destruct (read_all_ok md l texts h ∅ (fun _ => ∅) _ _ _ _ W (growing_cnt h l c E) (sim_none h l) Hh H)
    as (ps & F' & P & Hf & W' & X & (c' & E' & I' & O' & G' & K') & _ & R). cbn [fst snd] in *.
  exists ps, (input_len c), (output_len c). split; [done|]. unfold inputs_of, outputs_of, on. rewrite E, E', I', O'. do 4 (split; [done|]).
  intros ins0 outs0 ins H0 (c0 & E0 & L0 & V0) Hi. rewrite E in E0. injection E0 as <-.
  destruct (R (rho_of (ins0 ++ ins))) as (outs & Ro & Lo & Vo). rewrite <- H0, <- Hi, slice_rho in Ro. exists outs. split; [done|].
  exists c'. split; [done|]. split; [rewrite app_length; lia|]. intros k b Hk. apply lookup_app_Some in Hk as [Hk|[Hle Hk]].
  - destruct (V0 _ _ Hk) as (c0 & o & E0 & Eo & Gv). rewrite E in E0. injection E0 as <-. eapply outv_ext; [exact X|]. exists c, o. split; [done|]. split; [done|].
    eapply gv_agree; [apply D|exact E| |exact Gv]. intros w Hw. unfold env_of. rewrite lookup_app_l by lia. done.
  - specialize (Vo _ _ Hk). replace (output_len c + N.of_nat (k - length outs0)) with (N.of_nat k) in Vo by lia.
    destruct Vo as (c1 & o & E1 & Eo & Gv). rewrite E' in E1. injection E1 as <-. exists c', o. split; [done|]. split; [done|].
    eapply gv_agree; [apply W'|exact E'| |exact Gv]. intros w Hw. unfold env_of, rho_of. 
    destruct (lookup_lt_is_Some_2 (ins0 ++ ins) (N.to_nat w)) as [x ->]; [rewrite app_length; lia|done].
Qed.
(** A debug build accepts exactly the sequences whose texts parse and whose programs run one after the other. *)
Theorem C79_exact h l texts : growing h l ->
  (exists s, read_all Debug l texts (∅, h) = (Ok tt, s)) <->
  exists ps, mapM parse_prog texts = Some ps /\ forall ins, N.of_nat (length ins) = ins_of ps -> is_Some (run_texts ∅ ps ins).
Proof.
  intros (D & U & [c E]). assert (W : wk h l) by (split; [done|done|eauto]). split.
  - intros [s H]. destruct (read_all_ok Debug l texts h ∅ (fun _ => ∅) _ _ _ _ W (growing_cnt h l c E) (sim_none h l) (or_introl eq_refl) H)
      as (ps & F' & P & Hf & W' & X & _ & _ & R). exists ps. split; [done|]. intros ins Hi.
    destruct (R (rho_of (replicate (N.to_nat (input_len c)) false ++ ins))) as (outs & Ro & _).
    pose proof (slice_rho (replicate (N.to_nat (input_len c)) false) ins) as Hs. rewrite replicate_length, N2Nat.id, Hi in Hs. rewrite Hs in Ro. eauto.
  - intros (ps & P & R).
    apply (read_all_accepts Debug l (fun _ => false) texts ps h ∅ (fun _ => ∅) _ _ _ W (growing_cnt h l c E) (sim_none h l) P).
    apply R. rewrite slice_length. lia.
Qed.
(** Any build accepts them, with one gate per line, two for a copy; the state stays disciplined and nothing else changes. *)
Theorem C79_accepts md h l texts ps ins : growing h l -> mapM parse_prog texts = Some ps -> N.of_nat (length ins) = ins_of ps ->
  is_Some (run_texts ∅ ps ins) ->
  exists gw h' c c', read_all md l texts (∅, h) = (Ok tt, (gw, h')) /\ growing h' l /\
    h_circ h !! l = Some c /\ h_circ h' !! l = Some c' /\ num_const c' = num_const c /\
    num_gate c' = num_gate c + nsum (map (fun gl => match gl_kind gl with KEq | KEqw => 2 | _ => 1 end) (flat_map pr_lines ps)) /\
    forall l' c0, l' <> l -> h_circ h !! l' = Some c0 -> h_circ h' !! l' = Some c0.
Proof.
  intros (D & U & [c E]) P Hi R. assert (W : wk h l) by (split; [done|done|eauto]).
  pose proof (slice_rho (replicate (N.to_nat (input_len c)) false) ins) as Hs. rewrite replicate_length, N2Nat.id, Hi in Hs.
  destruct (read_all_accepts md l (rho_of (replicate (N.to_nat (input_len c)) false ++ ins)) texts ps h ∅ (fun _ => ∅) _ _ _ W (growing_cnt h l c E) (sim_none h l) P)
    as [[gw h'] H]; [by rewrite Hs|].
  destruct (read_all_ok md l texts h ∅ (fun _ => ∅) _ _ _ (gw, h') W (growing_cnt h l c E) (sim_none h l))
    as (ps' & F' & P' & Hf & W' & X & (c' & E' & I' & O' & G' & K') & _); [|done|].
  { right. intros t p Ht Hp. assert (Hps : p ∈ ps).
    { apply mapM_Some_1 in P. apply elem_of_list_lookup in Ht as [i Hti]. destruct (Forall2_lookup_l _ _ _ _ _ P Hti) as (p' & Hp' & Hx).
      rewrite Hp in Hx. injection Hx as <-. by eapply elem_of_list_lookup_2. }
    clear -R Hps. revert R. generalize (∅ : gmap N bool). revert ins. induction ps as [|q r IH]; intros ins e R; [by apply elem_of_nil in Hps|].
    cbn [run_texts] in R. destruct (run_from e q _) as [[e1 o1]|] eqn:R1; [|by destruct R]. apply elem_of_cons in Hps as [-> |Hps].
    - unfold run_from in R1. unfold fits. destruct (N.leb_spec (nsum (pr_out q)) (pr_wires q)); [done|]. by rewrite andb_false_r in R1.
    - eapply (IH Hps (drop (N.to_nat (nsum (pr_in q))) ins) e1). destruct (run_texts e1 r _); [eauto|by destruct R]. }
  rewrite P in P'. injection P' as <-. cbn [fst snd] in *. exists gw, h', c, c'. split; [done|].
  split; [split; [apply W'|]; split; [apply W'|eauto]|]. split; [done|]. split; [done|]. split; [done|]. split; [|apply X].
  rewrite G'. f_equal. clear. induction ps as [|p r IH]; [done|]. cbn [map flat_map nsum fold_right]. rewrite map_app. fold (nsum (map (fun p => lines_cost (pr_lines p)) r)).
  rewrite IH. unfold lines_cost. generalize (flat_map pr_lines r) as rest. intros rest. induction (pr_lines p) as [|gl gls IHg]; [done|].
  cbn [map app nsum fold_right]. fold (nsum (map (fun gl => kind_cost (gl_kind gl)) gls)). unfold nsum in *. rewrite <- IHg. unfold kind_cost. lia.
Qed.

(** * C78 *)
(** One text and a new reader. *)
Lemma read_all_one md l text h : read_all md l [text] (∅, h) = read md l text (∅, h).
Proof. cbn [read_all]. unfold st_bind, st_ret. destruct (read md l text (∅, h)) as [[[]| | |] s]; done. Qed.
Lemma read_fresh_one md l text h h' : read_fresh md l text h = (Ok tt, h') -> exists gw, read_all md l [text] (∅, h) = (Ok tt, (gw, h')).
Proof. unfold read_fresh. rewrite read_all_one. destruct (read md l text (∅, h)) as [r [gw h1]]. intros [= -> <-]. eauto. Qed.
Lemma ins_one p : ins_of [p] = nsum (pr_in p).
Proof. unfold ins_of. cbn. lia. Qed.
Lemma outs_one p : outs_of [p] = nsum (pr_out p).
Proof. unfold outs_of. cbn. lia. Qed.
Theorem C78_append md h l text h' : growing h l -> headers_fit md [text] -> read_fresh md l text h = (Ok tt, h') ->
  exists p n m, parse_prog text = Some p /\ inputs_of h l = Ok n /\ outputs_of h l = Ok m /\
    inputs_of h' l = Ok (n + nsum (pr_in p)) /\ outputs_of h' l = Ok (m + nsum (pr_out p)) /\
    forall ins0 outs0 ins, N.of_nat (length ins0) = n -> computes h l ins0 outs0 -> N.of_nat (length ins) = nsum (pr_in p) ->
      exists outs, run_prog EqCopies p ins = Some outs /\ computes h' l (ins0 ++ ins) (outs0 ++ outs).
Proof.
  intros G Hh H. destruct (read_fresh_one _ _ _ _ _ H) as [gw H'].
  destruct (C79_several md h l [text] gw h' G Hh H') as (ps & n & m & P & I & O & I' & O' & R). cbn [mapM] in P.
  destruct (parse_prog text) as [p|]; [|done]. injection P as <-. rewrite ins_one in *. rewrite outs_one in *.
  exists p, n, m. do 5 (split; [done|]). intros ins0 outs0 ins H0 Hc Hi. destruct (R ins0 outs0 ins H0 Hc Hi) as (outs & Ro & Hc').
  rewrite run_texts_one in Ro by done. eauto.
Qed.
(** Whether a text is accepted does not depend on what the circuit contains. *)
Theorem C78_exact h l text : growing h l ->
  (exists h', read_fresh Debug l text h = (Ok tt, h')) <->
  exists p, parse_prog text = Some p /\ forall ins, N.of_nat (length ins) = nsum (pr_in p) -> is_Some (run_prog EqCopies p ins).
Proof.
  intros G. transitivity (exists s, read_all Debug l [text] (∅, h) = (Ok tt, s)).
  { split.
    - intros [h' H]. destruct (read_fresh_one _ _ _ _ _ H) as [gw H']. eauto.
    - intros [s H]. rewrite read_all_one in H. exists (snd s). unfold read_fresh. by rewrite H. }
  rewrite (C79_exact h l [text] G). split.
  - intros (ps & P & R). cbn [mapM] in P. destruct (parse_prog text) as [p|]; [|done]. injection P as <-. exists p. split; [done|].
    intros ins Hi. rewrite <- run_texts_one by done. apply R. by rewrite ins_one.
  - intros (p & P & R). exists [p]. cbn [mapM]. rewrite P. split; [done|]. intros ins Hi. rewrite ins_one in Hi. rewrite run_texts_one by done. auto.
Qed.
Theorem C78_accepts md h l text p ins : growing h l -> parse_prog text = Some p -> is_Some (run_prog EqCopies p ins) ->
  exists h' c c', read_fresh md l text h = (Ok tt, h') /\ growing h' l /\ h_circ h !! l = Some c /\ h_circ h' !! l = Some c' /\
    num_const c' = num_const c /\
    num_gate c' = num_gate c + nsum (map (fun gl => match gl_kind gl with KEq | KEqw => 2 | _ => 1 end) (pr_lines p)) /\
    forall l' c0, l' <> l -> h_circ h !! l' = Some c0 -> h_circ h' !! l' = Some c0.
Proof.
  intros G P R. assert (Hi : N.of_nat (length ins) = nsum (pr_in p)) by (destruct R as [o R]; by apply run_prog_exec in R as (? & _)).
  destruct (C79_accepts md h l [text] [p] ins G) as (gw & h' & c & c' & H & G' & E & E' & K & N & X).
  { cbn [mapM]. by rewrite P. } { by rewrite ins_one. } { by rewrite run_texts_one. }
  rewrite read_all_one in H. exists h', c, c'. unfold read_fresh. rewrite H. cbn [flat_map] in N. rewrite app_nil_r in N. done.
Qed.
(** Two texts, a new reader each: the circuits lie side by side. *)
Theorem C78_side_by_side md h l t1 t2 p1 p2 h1 h2 : target h l -> parse_prog t1 = Some p1 -> parse_prog t2 = Some p2 -> fits p1 -> fits p2 ->
  read_fresh md l t1 h = (Ok tt, h1) -> read_fresh md l t2 h1 = (Ok tt, h2) ->
  forall i1 i2, N.of_nat (length i1) = nsum (pr_in p1) -> N.of_nat (length i2) = nsum (pr_in p2) ->
    exists o1 o2, run_prog EqCopies p1 i1 = Some o1 /\ run_prog EqCopies p2 i2 = Some o2 /\ computes h2 l (i1 ++ i2) (o1 ++ o2).
Proof.
  intros T P1 P2 F1 F2 H1 H2 i1 i2 L1 L2. destruct (C18_read md h l t1 h1 T H1) as (p & P & _ & R). rewrite P1 in P. injection P as <-.
  destruct (R F1) as (I1 & _ & R1). destruct (R1 i1 L1) as (o1 & Ro1 & C1).
  assert (G : growing h1 l).
  { destruct (C18_frame md h l t1 h1 T H1) as (D & U & _); [by rewrite P1|intros p; rewrite P1; by intros [= <-]|].
    split; [done|]. split; [done|]. destruct C1 as (c & E & _). eauto. }
  destruct (C78_append md h1 l t2 h2 G) as (p & n & m & P & I & _ & _ & _ & R2); [|done|].
  { right. intros t q ->%elem_of_list_singleton Hq. congruence. }
  rewrite P2 in P. injection P as <-. rewrite I1 in I. injection I as <-.
  destruct (R2 i1 o1 i2 L1 C1 L2) as (o2 & Ro2 & C2). eauto.
Qed.
(** The half adder of C18, then with the same reader a text that uses its sum (wire 4) and its carry (wire 5), then with a new reader the half adder again. *)
Definition uses_sum : string := unlines ["2 8"; "1 1"; "1 2"; ""; "2 1 0 4 6 XOR"; "2 1 0 5 7 AND"].
Definition two_texts : heap := snd (snd (read_all Debug 0 [half_adder; uses_sum] (∅, blank))).
Example C79_example : growing blank 0 /\ headers_fit Debug [half_adder; uses_sum] /\
  fst (read_all Debug 0 [half_adder; uses_sum] (∅, blank)) = Ok tt /\
  (ps ← mapM parse_prog [half_adder; uses_sum]; run_texts ∅ ps [true; true; true]) = Some [false; true; true; true] /\
  eval_output Debug two_texts 20 0 [true; true; true] = Ok [false; true; true; true].
Proof.
  split; [apply target_growing, blank_target; lia|]. split; [by left|]. split; [vm_compute; reflexivity|]. split; vm_compute; reflexivity.
Qed.
Example C78_example : inputs_of two_texts 0 = Ok 3 /\ fst (read_fresh Debug 0 half_adder two_texts) = Ok tt /\
  fst (read_fresh Debug 0 uses_sum two_texts) = Err (EUnknownWire 4) /\
  eval_output Debug (snd (read_fresh Debug 0 half_adder two_texts)) 20 0 [true; true; true; true; false] = Ok [false; true; true; true; true; false].
Proof. split; [vm_compute; reflexivity|]. split; [vm_compute; reflexivity|]. split; vm_compute; reflexivity. Qed.
Example C78_growing : growing two_texts 0.
Proof.
  destruct (C79_accepts Debug blank 0 [half_adder; uses_sum] _ [true; true; true] (target_growing _ _ (blank_target 0%nat ltac:(lia))) eq_refl)
    as (gw & h' & c & c' & H & G & _); [vm_compute; reflexivity|vm_compute; eauto|]. unfold two_texts. rewrite H. exact G.
Qed.
