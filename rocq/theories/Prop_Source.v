(** Sources that fail or are no ASCII text: C71 and C72. *)
From Verif Require Export Io Prop_Reader WriterFacts.
From Coq Require Import Ascii String.
Open Scope N_scope.
Open Scope list_scope.

(** * Any reading is safe *)
(** The map of the reader only names gates of the circuit at [l]. True of a new reader, whose map is empty. *)
Definition mapped (l : nat) (s : rstate) : Prop := forall w g, fst s !! w = Some g -> has_gate (snd s) l g.
(** Number and gates of the outputs of a circuit. *)
Definition outs_at (h : heap) (l : nat) : option (N * gmap N N) := (fun c => (output_len c, output_map c)) <$> h_circ h !! l.
Record kept (l : nat) (s s' : rstate) : Prop := {
  kp_wk : wk (snd s') l;
  kp_ext : ext l (snd s) (snd s');
  kp_map : mapped l s';
  kp_stor : h_stor (snd s') = h_stor (snd s);
}.
Record held (l : nat) (s s' : rstate) : Prop := {
  hd_kept : kept l s s';
  hd_outs : outs_at (snd s') l = outs_at (snd s) l;
}.
(** The errors and panics of the part before the outputs. *)
Definition read_error (e : error) : Prop :=
  match e with ENotFoundLine _ | ELineSplit | EUnknownWire _ | ENotSupportedGate _ | EParseInt _ | EIo _ => True | _ => False end.
Definition early {A} (md : mode) (r : res A) : Prop :=
  match r with Ok _ => True | Err e => read_error e | Panic PIndex => True | Panic PArith => md = Debug | _ => False end.
Definition safe {A} (md : mode) (l : nat) (m : RM A) : Prop := forall s r s', wk (snd s) l -> mapped l s -> m s = (r, s') -> held l s s' /\ early md r.

Lemma kept_refl l s : wk (snd s) l -> mapped l s -> kept l s s.
Proof. intros W M. split; [done|apply ext_refl|done|done]. Qed.
Lemma kept_trans l s1 s2 s3 : kept l s1 s2 -> kept l s2 s3 -> kept l s1 s3.
Proof. intros [W1 X1 M1 S1] [W2 X2 M2 S2]. split; [done|by eapply ext_trans|done|congruence]. Qed.
Lemma held_refl l s : wk (snd s) l -> mapped l s -> held l s s.
Proof. intros W M. split; [by apply kept_refl|done]. Qed.
Lemma held_trans l s1 s2 s3 : held l s1 s2 -> held l s2 s3 -> held l s1 s3.
Proof. intros [K1 O1] [K2 O2]. split; [by eapply kept_trans|congruence]. Qed.
Lemma mapped_ext l gw h h' : ext l h h' -> mapped l (gw, h) -> mapped l (gw, h').
Proof. intros X M w g E. eapply has_gate_hle; [apply X|]. by eapply M. Qed.

Lemma safe_bind {A B} md l (m : RM A) (f : A -> RM B) : safe md l m -> (forall a, safe md l (f a)) -> safe md l (st_bind m f).
Proof.
  intros H1 H2 s r s' W M E. unfold st_bind in E. destruct (m s) as [r1 s1] eqn:E1. destruct (H1 _ _ _ W M E1) as [K1 R1].
  destruct r1 as [a|e|p|]; [|injection E as <- <-; done..]. destruct (H2 a _ _ _ (kp_wk _ _ _ (hd_kept _ _ _ K1)) (kp_map _ _ _ (hd_kept _ _ _ K1)) E) as [K2 R2].
  split; [by eapply held_trans|done].
Qed.
Lemma safe_pure {A} md l (m : RM A) r : (forall s, m s = (r, s)) -> early md r -> safe md l m.
Proof. intros Hm He s r' s' W M E. rewrite Hm in E. injection E as <- <-. split; [by apply held_refl|done]. Qed.
Lemma safe_ret {A} md l (a : A) : safe md l (st_ret a).
Proof. by eapply safe_pure. Qed.
Lemma safe_lift {A} md l (r : res A) : early md r -> safe md l (st_lift r).
Proof. by apply safe_pure. Qed.

(** One call of the circuit: it keeps everything and gives a gate of the circuit. *)
Definition calls_ok (l : nat) (h : heap) (m : M N) : Prop :=
  exists g h', m h = (Ok g, h') /\ wk h' l /\ ext l h h' /\ has_gate h' l g /\ outs_at h' l = outs_at h l /\ h_stor h' = h_stor h.
Lemma calls_push l h c gt c' (m : M N) : wk h l -> h_circ h !! l = Some c -> push c gt c' -> (forall a, a ∈ operands gt -> has_gate h l a) ->
  m h = (Ok (gate_index c), upd h l c') -> calls_ok l h m.
Proof.
  intros W E P Ho Em. destruct (w_push h l c W E _ _ P Ho) as [W' X]. exists (gate_index c), (upd h l c'). split; [done|]. split; [done|]. split; [done|].
  split; [by eapply push_has|]. split; [|done]. unfold outs_at. erewrite upd_lookup by done. rewrite E. cbn. by rewrite (p_ol _ _ _ P), (p_om _ _ _ P).
Qed.
Lemma calls_input l h : wk h l -> calls_ok l h (r_input l).
Proof.
  intros W. destruct (wk_c _ _ W) as [c E]. destruct (r_input_ok h l c E) as (c' & Er & P). eapply calls_push; eauto. intros a Ha. by apply elem_of_nil in Ha.
Qed.
Lemma calls_not l h a : wk h l -> has_gate h l a -> calls_ok l h (r_not l a).
Proof.
  intros W Ha. destruct (wk_c _ _ W) as [c E]. destruct (r_not_ok h l c E a) as (c' & Er & P). eapply calls_push; eauto.
  intros x Hx. cbn in Hx. by apply elem_of_list_singleton in Hx as ->.
Qed.
Lemma calls_xor l h a b : wk h l -> has_gate h l a -> has_gate h l b -> calls_ok l h (r_xor l a b).
Proof.
  intros W Ha Hb. destruct (wk_c _ _ W) as [c E]. destruct (r_xor_ok h l c E a b) as (c' & Er & P). eapply calls_push; eauto.
  intros x Hx. cbn in Hx. apply elem_of_cons in Hx as [-> |Hx]; [done|]. by apply elem_of_list_singleton in Hx as ->.
Qed.
Lemma calls_and l h a b : wk h l -> has_gate h l a -> has_gate h l b -> calls_ok l h (r_and l a b).
Proof.
  intros W Ha Hb. destruct (wk_c _ _ W) as [c E]. destruct (r_and_ok h l c E a b) as (c' & Er & P). eapply calls_push; eauto.
  intros x Hx. cbn in Hx. apply elem_of_cons in Hx as [-> |Hx]; [done|]. by apply elem_of_list_singleton in Hx as ->.
Qed.
Lemma calls_or l h a b : wk h l -> has_gate h l a -> has_gate h l b -> calls_ok l h (r_or l a b).
Proof.
  intros W Ha Hb. destruct (wk_c _ _ W) as [c E]. destruct (r_or_ok h l c E a b) as (c' & Er & P). eapply calls_push; eauto.
  intros x Hx. cbn in Hx. apply elem_of_cons in Hx as [-> |Hx]; [done|]. by apply elem_of_list_singleton in Hx as ->.
Qed.
Lemma calls_identity l h a : wk h l -> has_gate h l a -> calls_ok l h (r_identity l a).
Proof.
  intros W Ha. destruct (wk_c _ _ W) as [c E]. destruct (r_identity_ok h l c E a) as (c1 & c2 & Er & Hid & P1 & P2).
  destruct (w_push h l c W E _ _ P1) as [W1 X1]. { intros x Hx. cbn in Hx. by apply elem_of_list_singleton in Hx as ->. }
  pose proof (upd_lookup _ l c1 _ E) as E1.
  destruct (w_push _ l c1 W1 E1 _ _ P2) as [W2 X2]. { intros x Hx. cbn in Hx. apply elem_of_list_singleton in Hx as ->. by eapply push_has. }
  eexists _, _. split; [exact Er|]. split; [done|]. split; [by eapply ext_trans|]. split; [by eapply push_has|]. split; [|done].
  unfold outs_at. erewrite upd_lookup by done. rewrite E. cbn. by rewrite (p_ol _ _ _ P2), (p_om _ _ _ P2), (p_ol _ _ _ P1), (p_om _ _ _ P1).
Qed.
Lemma held_call l gw h h' : wk h' l -> ext l h h' -> mapped l (gw, h) -> outs_at h' l = outs_at h l -> h_stor h' = h_stor h -> held l (gw, h) (gw, h').
Proof. intros W X M O S. split; [|done]. split; [done|done|by eapply mapped_ext|done]. Qed.
Lemma held_insert l s gw h w g : held l s (gw, h) -> has_gate h l g -> held l s (<[w := g]> gw, h).
Proof.
  intros [[W X M S] O] G. split; [|done]. split; [done|done| |done]. intros w' g' E. cbn in *. apply lookup_insert_Some in E as [[_ <-]|[_ E]]; [done|by eapply M].
Qed.

Lemma safe_inputs md l : forall k w, safe md l (rd_inputs l k w).
Proof.
  induction k as [|k IH]; intros w; cbn [rd_inputs]; [apply safe_ret|]. intros [gw h] r s' W M E.
  destruct (calls_input l h W) as (g & h' & Er & W' & X & G & O & S). unfold st_bind, rd_h, rd_insert in E. cbn [fst snd] in *. rewrite Er in E.
  pose proof (held_insert l _ _ _ w g (held_call l gw h h' W' X M O S) G) as K. cbn [fst snd] in E.
  destruct (IH (w + 1) (<[w := g]> gw, h') r s') as [K' R]; [done|apply K|done|]. split; [by eapply held_trans|done].
Qed.
Lemma early_digits md s : forall acc, early md (parse_digits acc s).
Proof. induction s as [|c t IH]; intros acc; cbn; [done|]. destruct (digit_val c); [|done]. destruct (_ <? _); [apply IH|done]. Qed.
Lemma early_usize md s : early md (parse_usize s).
Proof. destruct s as [|c t]; [done|]. unfold parse_usize. destruct (Ascii.eqb c "+"); [destruct t; [done|apply early_digits]|apply early_digits]. Qed.
Lemma early_bind {A B} md (r : res A) (f : A -> res B) : early md r -> (forall a, early md (f a)) -> early md (res_bind r f).
Proof. destruct r as [a|e|p|]; cbn; [eauto|done|done|done]. Qed.
Lemma early_tok md ts : early md (next_tok ts).
Proof. by destruct ts. Qed.
Lemma early_num md ts : early md (next_num ts).
Proof. apply early_bind; [apply early_tok|]. intros [t r]. apply early_bind; [apply early_usize|done]. Qed.
Lemma early_sum md : forall ts k n, early md (rd_sum md ts k n).
Proof.
  induction ts as [|t ts IH]; intros k n; cbn; destruct (k =? 0); try done. apply early_bind; [apply early_usize|]. intros m. apply early_bind; [|intros; apply IH].
  unfold usize_add. destruct (_ <? _); [done|]. by destruct md.
Qed.
Lemma early_operands md gw : forall ts k, early md (rd_operands gw ts k).
Proof.
  induction ts as [|t ts IH]; intros k; cbn; destruct (k =? 0); try done. apply early_bind; [apply early_usize|]. intros w. destruct (gw !! w); [|done].
  apply early_bind; [apply IH|]. by intros [gs r].
Qed.
Lemma early_nums md : forall ts k, early md (rd_nums ts k).
Proof.
  induction ts as [|t ts IH]; intros k; cbn; destruct (k =? 0); try done. apply early_bind; [apply early_usize|]. intros w.
  apply early_bind; [apply IH|]. by intros [gs r].
Qed.
Lemma early_src md n ls : early md (next_src n ls).
Proof. by destruct ls as [|[x|k] r]. Qed.
Lemma safe_groups md l : forall toks k sum, safe md l (rd_groups l toks k sum).
Proof.
  induction toks as [|t ts IH]; intros k sum; cbn [rd_groups]; destruct (k =? 0); try apply safe_ret; [by eapply safe_pure|].
  apply safe_bind; [apply safe_lift, early_usize|]. intros n. apply safe_bind; [apply safe_inputs|]. intros _. apply IH.
Qed.
Lemma operands_in gw : forall ts k gs r, rd_operands gw ts k = Ok (gs, r) -> forall g, g ∈ gs -> exists w, gw !! w = Some g.
Proof.
  induction ts as [|t ts IH]; intros k gs r E g Hg; cbn in E; destruct (k =? 0); try done; [injection E as <- _; by apply elem_of_nil in Hg..|].
  destruct (parse_usize t) as [w| | |]; try done. cbn in E. destruct (gw !! w) as [g'|] eqn:Ew; [|done]. destruct (rd_operands gw ts (k - 1)) as [[gs' r']| | |] eqn:E'; try done.
  injection E as <- _. apply elem_of_cons in Hg as [-> |Hg]; eauto.
Qed.
Lemma safe_made md l os (m : M N) gw h r s' : wk h l -> mapped l (gw, h) -> calls_ok l h m ->
  (g <- rd_h m ;; o <- st_nth os 0 ;; rd_insert o g) (gw, h) = (r, s') -> held l (gw, h) s' /\ early md r.
Proof.
  intros W M (g & h' & Er & W' & X & G & O & S) E. unfold st_bind, rd_h, st_nth, rd_insert in E. cbn [fst snd] in E. rewrite Er in E. cbn [fst snd] in E.
  destruct os as [|o os]; cbn in E; injection E as <- <-; (split; [|done]); [by apply held_call|]. apply held_insert; [by apply held_call|done].
Qed.
Lemma safe_gate md l ty gs os gw h r s' : wk h l -> mapped l (gw, h) -> (forall g, g ∈ gs -> has_gate h l g) ->
  rd_gate l ty gs os (gw, h) = (r, s') -> held l (gw, h) s' /\ early md r.
Proof.
  intros W M Hg E. unfold rd_gate in E.
  assert (forall r', early md r' -> (r', (gw, h)) = (r, s') -> held l (gw, h) s' /\ early md r) as stop.
  { intros r' H Er. injection Er as <- <-. split; [by apply held_refl|done]. }
  destruct (String.eqb ty "INV").
  { destruct gs as [|a gs]; [by eapply (stop (Panic PIndex))|]. eapply (safe_made md l os (r_not l a)); [done|done| |exact E]. apply calls_not; [done|]. apply Hg. by left. }
  destruct (String.eqb ty "XOR").
  { destruct gs as [|a [|b gs]]; [by eapply (stop (Panic PIndex))..|]. eapply (safe_made md l os (r_xor l a b)); [done|done| |exact E]. apply calls_xor; [done|apply Hg; by left|apply Hg; by right; left]. }
  destruct (String.eqb ty "AND").
  { destruct gs as [|a [|b gs]]; [by eapply (stop (Panic PIndex))..|]. eapply (safe_made md l os (r_and l a b)); [done|done| |exact E]. apply calls_and; [done|apply Hg; by left|apply Hg; by right; left]. }
  destruct (String.eqb ty "OR").
  { destruct gs as [|a [|b gs]]; [by eapply (stop (Panic PIndex))..|]. eapply (safe_made md l os (r_or l a b)); [done|done| |exact E]. apply calls_or; [done|apply Hg; by left|apply Hg; by right; left]. }
  destruct (_ || _)%bool; [|by eapply (stop (Err (ENotSupportedGate ty)))].
  destruct gs as [|a gs]; [by eapply (stop (Panic PIndex))|]. eapply (safe_made md l os (r_identity l a)); [done|done| |exact E]. apply calls_identity; [done|]. apply Hg. by left.
Qed.
Lemma safe_line md l toks : safe md l (rd_line l toks).
Proof.
  unfold rd_line. apply safe_bind; [apply safe_lift, early_num|]. intros [n t1]. apply safe_bind; [apply safe_lift, early_num|]. intros [m t2].
  intros [gw h] r s' W M E. unfold rd_map in E. unfold st_bind at 1 in E. cbn [fst] in E. unfold st_lift, st_bind in E.
  pose proof (early_operands md gw t2 n) as He. destruct (rd_operands gw t2 n) as [[gs t3]|e|p|] eqn:Eo; try (injection E as <- <-; split; [by apply held_refl|done]).
  pose proof (early_nums md t3 m) as He2. destruct (rd_nums t3 m) as [[os t4]|e|p|] eqn:En; try (injection E as <- <-; split; [by apply held_refl|done]).
  pose proof (early_tok md t4) as He3. destruct (next_tok t4) as [[ty t5]|e|p|] eqn:Et; try (injection E as <- <-; split; [by apply held_refl|done]).
  eapply safe_gate; [done|done| |exact E]. intros g Hg. destruct (operands_in _ _ _ _ _ Eo g Hg) as [w Hw]. by eapply M.
Qed.
Lemma safe_src md l : forall ls, safe md l (rd_src l ls).
Proof.
  induction ls as [|[x|k] ls IH]; cbn [rd_src]; [apply safe_ret| |by eapply safe_pure]. destruct (String.eqb x ""); [apply safe_ret|].
  apply safe_bind; [apply safe_line|intros _; apply IH].
Qed.
Lemma outputs_kept l : forall k w s r s', wk (snd s) l -> mapped l s -> rd_outputs l k w s = (r, s') ->
  kept l s s' /\ fst s' = fst s /\ (r = Ok tt \/ r = Panic PKey).
Proof.
  induction k as [|k IH]; intros w [gw h] r s' W M E; cbn [rd_outputs] in E.
  - injection E as <- <-. split; [by apply kept_refl|]. split; [done|]. by left.
  - unfold st_bind, rd_map in E. cbn [fst snd] in *. destruct (gw !! w) as [g|] eqn:Eg; [|injection E as <- <-; split; [by apply kept_refl|split; [done|by right]]].
    destruct (wk_c _ _ W) as [c Ec]. destruct (s_output h l c W Ec g) as (h1 & c1 & Er & W1 & X1 & E1 & P); [by eapply M|].
    unfold rd_h in E. cbn [fst snd] in E. rewrite Er in E. destruct (IH (w + 1) (gw, h1) r s') as (K & F & R); [done|by eapply mapped_ext|done|].
    split; [|by split]. eapply kept_trans; [|exact K]. split; [done|done|by eapply mapped_ext|].
    unfold r_output in Er. destruct (r_output_cases h l c Ec g) as [[Hn _]|(c' & Er' & _)].
    + destruct (M w g Eg) as (c0 & E0 & [gt G]). cbn in E0. congruence.
    + unfold r_output in Er'. rewrite Er' in Er. by injection Er as <-.
Qed.

(** * C71 *)
(** The part of [read] before the outputs: [None] when the outputs cannot be counted. *)
Definition read_gates (md : mode) (l : nat) (src : list src_line) : RM (N * N) :=
  '(l1, ls) <- st_lift (next_src 1 src) ;;
  '(_, ts) <- st_lift (next_num (line_tokens l1)) ;;
  '(num_wire, _) <- st_lift (next_num ts) ;;
  '(l2, ls) <- st_lift (next_src 2 ls) ;;
  '(num_input, ts) <- st_lift (next_num (line_tokens l2)) ;;
  rd_groups l ts num_input 0 ;;
  '(l3, ls) <- st_lift (next_src 3 ls) ;;
  '(num_output, ts) <- st_lift (next_num (line_tokens l3)) ;;
  osum <- st_lift (rd_sum md ts num_output 0) ;;
  ls <- st_lift (skip_src 4 ls) ;;
  rd_src l ls ;;
  st_ret (num_wire, osum).
Lemma bind_assoc {S A B C} (m : ST S A) (f : A -> ST S B) (g : B -> ST S C) s : st_bind (st_bind m f) g s = st_bind m (fun a => st_bind (f a) g) s.
Proof. unfold st_bind. destruct (m s) as [[a| | |] s1]; done. Qed.
Lemma bind_ext {S A B} (m : ST S A) (f g : A -> ST S B) s : (forall a s, f a s = g a s) -> st_bind m f s = st_bind m g s.
Proof. intros H. unfold st_bind. destruct (m s) as [[a| | |] s1]; [apply H|done..]. Qed.
Lemma read_split md l src s : read_src md l src s =
  ('(num_wire, osum) <- read_gates md l src ;; lo <- st_lift (usize_sub md num_wire osum) ;; rd_outputs l (N.to_nat (num_wire - lo)) lo) s.
Proof.
  unfold read_src, read_gates.
  repeat first [rewrite bind_assoc; apply bind_ext; intros [? ?] ? | rewrite bind_assoc; apply bind_ext; intros ? ?]; done.
Qed.
Lemma safe_gates md l src : safe md l (read_gates md l src).
Proof.
  unfold read_gates. apply safe_bind; [apply safe_lift, early_src|]. intros [l1 ls]. apply safe_bind; [apply safe_lift, early_num|]. intros [? ts].
  apply safe_bind; [apply safe_lift, early_num|]. intros [nw ?]. apply safe_bind; [apply safe_lift, early_src|]. intros [l2 ls2].
  apply safe_bind; [apply safe_lift, early_num|]. intros [ni ts2]. apply safe_bind; [apply safe_groups|]. intros _.
  apply safe_bind; [apply safe_lift, early_src|]. intros [l3 ls3]. apply safe_bind; [apply safe_lift, early_num|]. intros [no ts3].
  apply safe_bind; [apply safe_lift, early_sum|]. intros osum. apply safe_bind; [apply safe_lift; by destruct ls3|]. intros ls4.
  apply safe_bind; [apply safe_src|]. intros _. apply safe_ret.
Qed.

(** Whatever the source yields, text or not, failing or not, and however the reading ends: the circuits stay disciplined, only the target changed
    and it only grew, the reader's map names its gates only. An error is one of six kinds and comes before any output is added. *)
Theorem C71_safe md l src gw h r gw' h' : dinv h -> uncalled h l -> is_Some (h_circ h !! l) -> (forall w g, gw !! w = Some g -> has_gate h l g) ->
  read_src md l src (gw, h) = (r, (gw', h')) ->
  dinv h' /\ uncalled h' l /\ hle h h' /\ (forall w g, gw' !! w = Some g -> has_gate h' l g) /\
  h_stor h' = h_stor h /\ List.length (h_circ h') = List.length (h_circ h) /\ (forall l' c, l' <> l -> h_circ h !! l' = Some c -> h_circ h' !! l' = Some c) /\
  match r with
  | Ok _ | Panic PKey => True
  | Err (ENotFoundLine _ | ELineSplit | EUnknownWire _ | ENotSupportedGate _ | EParseInt _ | EIo _) | Panic PIndex => outs_at h' l = outs_at h l
  | Panic PArith => md = Debug /\ outs_at h' l = outs_at h l
  | _ => False
  end.
Proof.
  intros D U C M E. assert (W : wk h l) by done. rewrite read_split in E. unfold st_bind, st_lift in E.
  destruct (read_gates md l src (gw, h)) as [r1 [gw1 h1]] eqn:E1. destruct (safe_gates md l src (gw, h) _ _ W M E1) as [[K O] R].
  assert (kept l (gw, h) (gw', h') /\ match r with
    | Ok _ | Panic PKey => True
    | Err (ENotFoundLine _ | ELineSplit | EUnknownWire _ | ENotSupportedGate _ | EParseInt _ | EIo _) | Panic PIndex => outs_at h' l = outs_at h l
    | Panic PArith => md = Debug /\ outs_at h' l = outs_at h l
    | _ => False end) as [[W' X' M' S'] R'].
  { destruct r1 as [[nw os]|e|p|]; [|injection E as <- <- <-; split; [done|]..].
    - destruct (usize_sub md nw os) as [lo|e|p|] eqn:Es.
      + destruct (outputs_kept l _ _ _ _ _ (kp_wk _ _ _ K) (kp_map _ _ _ K) E) as (K2 & _ & R2). split; [by eapply kept_trans|]. by destruct R2 as [-> | ->].
      + unfold usize_sub in Es. destruct (_ <=? _); [done|]. by destruct md.
      + injection E as <- <- <-. split; [done|]. unfold usize_sub in Es. destruct (_ <=? _); [done|]. destruct md; [|done]. by injection Es as <-.
      + unfold usize_sub in Es. destruct (_ <=? _); [done|]. by destruct md.
    - by destruct e.
    - by destruct p.
    - done. }
  split; [apply W'|]. split; [apply W'|]. split; [apply X'|]. split; [exact M'|]. split; [done|]. split; [apply X'|]. split; [apply X'|done].
Qed.

(** Errors other than that of a missing line. *)
Definition quiet {A} (r : res A) : Prop := match r with Err (ENotFoundLine _) => False | _ => True end.
Definition conv {A} (k : io_error) (r : res A) : res A := match r with Err (ENotFoundLine _) => Err (EIo k) | _ => r end.
Definition relay {A} (k : io_error) (m1 m2 : RM A) : Prop := forall s, m2 s = let (r, s') := m1 s in (conv k r, s').
Lemma relay_bind {A B} k (m : RM A) (f g : A -> RM B) : (forall s, quiet (fst (m s))) -> (forall a, relay k (f a) (g a)) -> relay k (st_bind m f) (st_bind m g).
Proof. intros Q H s. specialize (Q s). unfold st_bind. destruct (m s) as [[a|e|p|] s1]; [apply H| |done..]. by destruct e. Qed.
Lemma quiet_bind {A B} (m : RM A) (f : A -> RM B) : (forall s, quiet (fst (m s))) -> (forall a s, quiet (fst (f a s))) -> forall s, quiet (fst (st_bind m f s)).
Proof. intros Q H s. specialize (Q s). unfold st_bind. destruct (m s) as [[a|e|p|] s1]; [apply H|done..]. Qed.
Lemma quiet_res {A B} (r : res A) (f : A -> res B) : quiet r -> (forall a, quiet (f a)) -> quiet (res_bind r f).
Proof. destruct r as [a|e|p|]; cbn; [eauto|done|done|done]. Qed.
Lemma quiet_digits s : forall acc, quiet (parse_digits acc s).
Proof. induction s as [|c t IH]; intros acc; cbn; [done|]. destruct (digit_val c); [|done]. destruct (_ <? _); [apply IH|done]. Qed.
Lemma quiet_usize s : quiet (parse_usize s).
Proof. destruct s as [|c t]; [done|]. unfold parse_usize. destruct (Ascii.eqb c "+"); [destruct t; [done|apply quiet_digits]|apply quiet_digits]. Qed.
Lemma quiet_num ts : quiet (next_num ts).
Proof. apply quiet_res; [by destruct ts|]. intros [t r]. apply quiet_res; [apply quiet_usize|done]. Qed.
Lemma quiet_inputs l : forall k w s, quiet (fst (rd_inputs l k w s)).
Proof.
  induction k as [|k IH]; intros w; cbn [rd_inputs]; [done|]. apply quiet_bind; [|intros g; apply quiet_bind; [done|intros _; apply IH]].
  intros [gw h]. unfold rd_h, r_input, on_circ, st_bind, get_circ. cbn. destruct (h_circ h !! l); [|done]. by destruct (c_input c).
Qed.
Lemma quiet_groups l : forall ts k sum s, quiet (fst (rd_groups l ts k sum s)).
Proof.
  induction ts as [|t ts IH]; intros k sum; cbn [rd_groups]; destruct (k =? 0); try done.
  apply quiet_bind; [intros s; apply quiet_usize|intros n]. apply quiet_bind; [apply quiet_inputs|intros _; apply IH].
Qed.
Lemma relay_step {A B A'} k (a : A) (b : A') (f : A -> RM B) (g : A' -> RM B) : relay k (f a) (g b) -> relay k (st_bind (st_lift (Ok a)) f) (st_bind (st_lift (Ok b)) g).
Proof. intros H s. apply H. Qed.
(** The source fails on one of the first three lines: as if it ended there, only the error is the source's. *)
Theorem C71_header md l pre k rest s : (List.length pre < 3)%nat -> (forall k', SFail k' ∉ pre) ->
  read_src md l (pre ++ SFail k :: rest) s =
  (let (r, s') := read_src md l pre s in (match r with Err (ENotFoundLine _) => Err (EIo k) | _ => r end, s')).
Proof.
  intros Hl Hn. revert s. change (relay k (read_src md l pre) (read_src md l (pre ++ SFail k :: rest))).
  destruct pre as [|[a|k1] pre]; [done| |by destruct (Hn k1); left]. unfold read_src. cbn [app next_src]. apply relay_step.
  apply relay_bind; [intros; apply quiet_num|intros [? ts]]. apply relay_bind; [intros; apply quiet_num|intros [nw ?]].
  destruct pre as [|[b|k2] pre]; [done| |by destruct (Hn k2); right; left]. cbn [app next_src]. apply relay_step.
  apply relay_bind; [intros; apply quiet_num|intros [ni ts2]]. apply relay_bind; [apply quiet_groups|intros _].
  destruct pre as [|c pre]; [done|]. cbn in Hl. lia.
Qed.
(** The fourth line is skipped unseen: that the source failed on it goes unnoticed. *)
Theorem C71_fourth md l a b c k d rest s : read_src md l (a :: b :: c :: SFail k :: rest) s = read_src md l (a :: b :: c :: SLine d :: rest) s.
Proof. by destruct a, b, c. Qed.

(** The heap without the outputs of the circuit at [l]. *)
Definition sans_outs (c : circuit) : circuit :=
  Circuit (input_map c) ∅ (gate_map c) (c_storage c) (dep_map c) (const_gates c) (input_len c) 0 (num_wire c) (num_gate c) (num_const c) (gate_index c).
Definition sans_at (h : heap) (l : nat) : heap := Heap (alter sans_outs l (h_circ h)) (h_stor h).
Lemma sans_output l g h : sans_at (snd (r_output l g h)) l = sans_at h l.
Proof.
  destruct (h_circ h !! l) as [c|] eqn:E.
  - destruct (r_output_cases h l c E g) as [[_ ->]|(c' & -> & P)]; [done|]. cbn [snd]. unfold sans_at, upd. cbn [h_circ h_stor]. f_equal.
    apply list_eq. intros i. destruct (decide (i = l)) as [-> |Hi].
    + rewrite !list_lookup_alter, list_lookup_insert by (by eapply lookup_lt_Some). rewrite E. cbn. f_equal. by rewrite (po_eq _ _ _ P).
    + by rewrite !list_lookup_alter_ne, list_lookup_insert_ne by done.
  - unfold r_output, on_circ, st_bind, get_circ. by rewrite E.
Qed.
Lemma sans_outputs l : forall k w s, sans_at (snd (snd (rd_outputs l k w s))) l = sans_at (snd s) l /\ fst (snd (rd_outputs l k w s)) = fst s.
Proof.
  induction k as [|k IH]; intros w [gw h]; cbn [rd_outputs]; [done|]. unfold st_bind, rd_map. cbn [fst snd]. destruct (gw !! w) as [g|]; [|done].
  unfold rd_h. cbn [fst snd]. pose proof (sans_output l g h) as H. destruct (r_output l g h) as [[x| | |] h1]; cbn [fst snd] in *; [|done..].
  destruct (IH (w + 1) (gw, h1)) as [-> ->]. done.
Qed.
Lemma rd_src_cut l k rest : forall ls s, (forall k', SFail k' ∉ ls) -> SLine "" ∉ ls ->
  rd_src l (ls ++ SFail k :: rest) s = (rd_src l ls ;; st_err (EIo k)) s.
Proof.
  induction ls as [|[x|k1] ls IH]; intros s Hn He; cbn [rd_src app]; [done| |by destruct (Hn k1); left].
  destruct (String.eqb_spec x "") as [-> |]; [by destruct He; left|]. rewrite bind_assoc. apply bind_ext. intros _ s1. apply IH; [intros k' H; apply (Hn k'); by right|intros H; apply He; by right].
Qed.
Lemma read_gates_cut md l a b c d ls k rest s : (forall k', SFail k' ∉ ls) -> SLine "" ∉ ls ->
  read_gates md l (a :: b :: c :: d :: ls ++ SFail k :: rest) s = (read_gates md l (a :: b :: c :: d :: ls) ;; st_err (EIo k)) s.
Proof.
  intros Hn He. unfold read_gates, st_bind, st_lift. destruct a as [a|]; [|done]. cbn [next_src].
  destruct (next_num (line_tokens a)) as [[? ts]| | |]; [|done..]. destruct (next_num ts) as [[nw ?]| | |]; [|done..].
  destruct b as [b|]; [|done]. cbn [next_src]. destruct (next_num (line_tokens b)) as [[ni ts2]| | |]; [|done..].
  destruct (rd_groups l ts2 ni 0 s) as [[[]| | |] s1]; [|done..]. destruct c as [c|]; [|done]. cbn [next_src].
  destruct (next_num (line_tokens c)) as [[no ts3]| | |]; [|done..]. destruct (rd_sum md ts3 no 0) as [os| | |]; [|done..]. cbn [skip_src].
  rewrite rd_src_cut by done. unfold st_bind. by destruct (rd_src l ls s1) as [[[]| | |] s2].
Qed.
(** The source fails on a gate line. Either the reading had already failed before, with the very same outcome; or the error of the source is returned,
    and everything but the outputs is as after reading the lines before: the gates are there, the outputs of the circuit are the old ones. *)
Theorem C71_gates md l a b c d ls k rest gw h r1 gw1 h1 r2 gw2 h2 : wk h l -> (forall w g, gw !! w = Some g -> has_gate h l g) ->
  (forall k', SFail k' ∉ ls) -> SLine "" ∉ ls ->
  read_src md l (a :: b :: c :: d :: ls) (gw, h) = (r1, (gw1, h1)) ->
  read_src md l (a :: b :: c :: d :: ls ++ SFail k :: rest) (gw, h) = (r2, (gw2, h2)) ->
  (r2 = r1 /\ gw2 = gw1 /\ h2 = h1 /\ r1 <> Ok tt) \/
  (r2 = Err (EIo k) /\ gw2 = gw1 /\ sans_at h2 l = sans_at h1 l /\ outs_at h2 l = outs_at h l /\ (r1 = Ok tt \/ exists p, r1 = Panic p)).
Proof.
  intros W M Hn He E1 E2. rewrite read_split in E1, E2. unfold st_bind at 1 in E1. unfold st_bind at 1 in E2. rewrite read_gates_cut in E2 by done.
  unfold st_bind at 1 in E2. destruct (read_gates md l (a :: b :: c :: d :: ls) (gw, h)) as [r [gw3 h3]] eqn:E.
  destruct (safe_gates md l _ (gw, h) _ _ W M E) as [[K O] R]. destruct r as [[nw os]|e|p|].
  2-4: injection E1 as <- <- <-; injection E2 as <- <- <-; left; done.
  cbn in E2. injection E2 as <- <- <-. right. split; [done|]. unfold st_bind, st_lift in E1.
  destruct (usize_sub md nw os) as [lo|e|p|] eqn:Es.
  - destruct (sans_outputs l (N.to_nat (nw - lo)) lo (gw3, h3)) as [S1 S2]. rewrite E1 in S1, S2. cbn in S1, S2. subst gw1. split; [done|]. split; [done|]. split; [done|].
    destruct (outputs_kept l _ _ _ _ _ (kp_wk _ _ _ K) (kp_map _ _ _ K) E1) as (_ & _ & [-> | ->]); eauto.
  - unfold usize_sub in Es. destruct (_ <=? _); [done|]. by destruct md.
  - injection E1 as <- <- <-. eauto 8.
  - unfold usize_sub in Es. destruct (_ <=? _); [done|]. by destruct md.
Qed.

(** * C72 *)
(** ** Characters *)
Inductive uchar : string -> Prop :=
| uchar1 c : in_range 0 127 c = true -> uchar (String c "")
| uchar2 c d : in_range 0 127 c = false -> lead2 c d = true -> uchar (String c (String d ""))
| uchar3 c d e : in_range 0 127 c = false -> lead2 c d = false -> lead3 c d e = true -> uchar (String c (String d (String e "")))
| uchar4 c d e f : in_range 0 127 c = false -> lead2 c d = false -> lead3 c d e = false -> lead4 c d e f = true ->
    uchar (String c (String d (String e (String f "")))).
Lemma uchars_cons ch t : uchar ch -> uchars (ch ++ t) = cons ch <$> uchars t.
Proof.
  intros [c H|c d H H2|c d e H H2 H3|c d e f H H2 H3 H4].
  - change ((String c "" ++ t)%string) with (String c t). cbn [uchars]. by rewrite H.
  - change ((String c (String d "") ++ t)%string) with (String c (String d t)). cbn [uchars]. by rewrite H, H2.
  - change ((String c (String d (String e "")) ++ t)%string) with (String c (String d (String e t))). cbn [uchars]. by rewrite H, H2, H3.
  - change ((String c (String d (String e (String f ""))) ++ t)%string) with (String c (String d (String e (String f t)))). cbn [uchars]. by rewrite H, H2, H3, H4.
Qed.
Fixpoint glue (cs : list string) : string := match cs with [] => "" | c :: r => (c ++ glue r)%string end.
Lemma uchars_glue cs : Forall uchar cs -> uchars (glue cs) = Some cs.
Proof. induction 1 as [|c cs H _ IH]; [done|]. cbn [glue]. rewrite uchars_cons by done. by rewrite IH. Qed.
Lemma uchars_inv : forall n s cs, (String.length s <= n)%nat -> uchars s = Some cs -> s = glue cs /\ Forall uchar cs.
Proof.
  induction n as [|n IH]; intros s cs Hl H.
  { destruct s; [|cbn in Hl; lia]. injection H as <-. done. }
  destruct s as [|c t]; [injection H as <-; done|]. cbn [uchars] in H. destruct (in_range 0 127 c) eqn:H1.
  { destruct (uchars t) as [r|] eqn:E; [|done]. injection H as <-. destruct (IH t r) as [-> F]; [cbn in Hl; lia|done|]. split; [done|]. constructor; [by constructor|done]. }
  destruct t as [|d u]; [done|]. destruct (lead2 c d) eqn:H2.
  { destruct (uchars u) as [r|] eqn:E; [|done]. injection H as <-. destruct (IH u r) as [-> F]; [cbn in Hl; lia|done|]. split; [done|]. constructor; [by constructor|done]. }
  destruct u as [|e v]; [done|]. destruct (lead3 c d e) eqn:H3.
  { destruct (uchars v) as [r|] eqn:E; [|done]. injection H as <-. destruct (IH v r) as [-> F]; [cbn in Hl; lia|done|]. split; [done|]. constructor; [by constructor|done]. }
  destruct v as [|f w]; [done|]. destruct (lead4 c d e f) eqn:H4; [|done].
  destruct (uchars w) as [r|] eqn:E; [|done]. injection H as <-. destruct (IH w r) as [-> F]; [cbn in Hl; lia|done|]. split; [done|]. constructor; [by constructor|done].
Qed.
(** The bytes of a character of several bytes are above 127. *)
Definition high (c : ascii) : bool := 128 <=? N_of_ascii c.
Ltac ranges := unfold lead2, lead3, lead4, cont, in_range, high in *; cbv zeta in *;
  repeat match goal with
  | H : _ && _ = true |- _ => apply andb_true_iff in H as [? ?]
  | H : _ || _ = true |- _ => apply orb_true_iff in H as [? | ?]
  | H : (_ <=? _) = true |- _ => apply N.leb_le in H
  end.
Lemma uchar_cases ch : uchar ch -> (exists c, ch = String c "" /\ N_of_ascii c < 128) \/
  (all_chars high ch = true /\ exists c d t, ch = String c (String d t)).
Proof.
  intros [c H|c d H H2|c d e H H2 H3|c d e f H H2 H3 H4].
  - left. exists c. split; [done|]. ranges. lia.
  - right. split; [|eauto]. cbn [all_chars]. rewrite !andb_true_iff. ranges; repeat split; apply N.leb_le; lia.
  - right. split; [|eauto]. cbn [all_chars]. clear H2. rewrite !andb_true_iff. ranges; repeat split; apply N.leb_le; lia.
  - right. split; [|eauto]. cbn [all_chars]. clear H2 H3. rewrite !andb_true_iff. ranges; repeat split; apply N.leb_le; lia.
Qed.

(** ** White space by code points *)
(** The code point of an encoded character. *)
Definition code_point (s : string) : N :=
  match map N_of_ascii (list_ascii_of_string s) with
  | [a] => a
  | [a; b] => (a - 192) * 64 + (b - 128)
  | [a; b; c] => (a - 224) * 4096 + (b - 128) * 64 + (c - 128)
  | [a; b; c; d] => (a - 240) * 262144 + (b - 128) * 4096 + (c - 128) * 64 + (d - 128)
  | _ => 0
  end.
(** White_Space in PropList.txt of the Unicode character database. *)
Definition white_space (n : N) : Prop :=
  9 <= n <= 13 \/ n = 32 \/ n = 133 \/ n = 160 \/ n = 5760 \/ 8192 <= n <= 8202 \/ n = 8232 \/ n = 8233 \/ n = 8239 \/ n = 8287 \/ n = 12288.
Ltac breflect := repeat (rewrite andb_true_iff || rewrite orb_true_iff || rewrite N.eqb_eq || rewrite N.leb_le).
Lemma uws_code ch : uchar ch -> is_uws ch = true <-> white_space (code_point ch).
Proof.
  intros [c H|c d H H2|c d e H H2 H3|c d e f H H2 H3 H4]; unfold is_uws, code_point, white_space; cbn [list_ascii_of_string map].
  - breflect. ranges. lia.
  - breflect. clear H. ranges. lia.
  - breflect. clear H H2. ranges; (split; [intros Hw; lia|intros Hw; lia]).
  - clear H H2 H3. ranges; split; [done| |done| |done|]; lia.
Qed.

(** ** UTF-8 by code points *)
(** Unicode scalar values (RFC 3629, section 3) and their encoding. *)
Definition scalar (n : N) : Prop := n < 1114112 /\ ~ (55296 <= n <= 57343).
Definition encode (n : N) : string :=
  let b k := ascii_of_N k in
  if n <? 128 then String (b n) ""
  else if n <? 2048 then String (b (192 + n / 64)) (String (b (128 + n mod 64)) "")
  else if n <? 65536 then String (b (224 + n / 4096)) (String (b (128 + n / 64 mod 64)) (String (b (128 + n mod 64)) ""))
  else String (b (240 + n / 262144)) (String (b (128 + n / 4096 mod 64)) (String (b (128 + n / 64 mod 64)) (String (b (128 + n mod 64)) ""))).
Lemma byte_back n : n < 256 -> N_of_ascii (ascii_of_N n) = n.
Proof. apply N_ascii_embedding. Qed.
Lemma byte_fwd c n : n = N_of_ascii c -> ascii_of_N n = c.
Proof. intros ->. apply ascii_N_embedding. Qed.
Ltac bounds H := apply N.leb_le in H || apply N.leb_gt in H.
Lemma encode_char n : scalar n -> uchar (encode n) /\ code_point (encode n) = n.
Proof.
  intros [Hn Hs]. unfold encode. cbv zeta. destruct (N.ltb_spec n 128) as [H1|H1]; [|destruct (N.ltb_spec n 2048) as [H2|H2]; [|destruct (N.ltb_spec n 65536) as [H3|H3]]].
  - split; [|unfold code_point; cbn [list_ascii_of_string map]; by rewrite byte_back by lia]. apply uchar1. unfold in_range. cbv zeta. rewrite byte_back by lia.
    apply andb_true_iff. rewrite !N.leb_le. lia.
  - pose proof (N.div_mod n 64 ltac:(done)) as D. pose proof (N.mod_lt n 64 ltac:(done)) as L. set (q := n / 64) in *. set (r := n mod 64) in *.
    split; [|unfold code_point; cbn [list_ascii_of_string map]; rewrite !byte_back by lia; lia].
    apply uchar2; unfold in_range, lead2, cont, in_range; cbv zeta; rewrite !byte_back by lia.
    + apply andb_false_iff. rewrite !N.leb_gt. lia.
    + rewrite !andb_true_iff, !N.leb_le. lia.
  - pose proof (N.div_mod n 64 ltac:(done)) as D. pose proof (N.mod_lt n 64 ltac:(done)) as L.
    pose proof (N.div_mod (n / 64) 64 ltac:(done)) as D2. pose proof (N.mod_lt (n / 64) 64 ltac:(done)) as L2. rewrite N.div_div in D2 by done. change (64 * 64) with 4096 in D2.
    set (q := n / 64) in *. set (r := n mod 64) in *. set (q2 := n / 4096) in *. set (r2 := q mod 64) in *.
    split; [|unfold code_point; cbn [list_ascii_of_string map]; rewrite !byte_back by lia; lia].
    apply uchar3; unfold in_range, lead2, lead3, cont, in_range; cbv zeta; rewrite !byte_back by lia.
    + apply andb_false_iff. rewrite !N.leb_gt. lia.
    + rewrite !andb_false_iff, !N.leb_gt. lia.
    + breflect. lia.
  - pose proof (N.div_mod n 64 ltac:(done)) as D. pose proof (N.mod_lt n 64 ltac:(done)) as L.
    pose proof (N.div_mod (n / 64) 64 ltac:(done)) as D2. pose proof (N.mod_lt (n / 64) 64 ltac:(done)) as L2. rewrite N.div_div in D2 by done. change (64 * 64) with 4096 in D2.
    pose proof (N.div_mod (n / 4096) 64 ltac:(done)) as D3. pose proof (N.mod_lt (n / 4096) 64 ltac:(done)) as L3. rewrite N.div_div in D3 by done. change (4096 * 64) with 262144 in D3.
    set (q := n / 64) in *. set (r := n mod 64) in *. set (q2 := n / 4096) in *. set (r2 := q mod 64) in *. set (q3 := n / 262144) in *. set (r3 := q2 mod 64) in *.
    split; [|unfold code_point; cbn [list_ascii_of_string map]; rewrite !byte_back by lia; lia].
    apply uchar4; unfold in_range, lead2, lead3, lead4, cont, in_range; cbv zeta; rewrite !byte_back by lia.
    + apply andb_false_iff. rewrite !N.leb_gt. lia.
    + rewrite !andb_false_iff, !N.leb_gt. lia.
    + rewrite andb_false_iff, !orb_false_iff, !andb_false_iff, !N.leb_gt. lia.
    + breflect. lia.
Qed.
Lemma char_encode ch : uchar ch -> scalar (code_point ch) /\ encode (code_point ch) = ch.
Proof.
  intros [c H|c d H H2|c d e H H2 H3|c d e f H H2 H3 H4]; unfold code_point, scalar; cbn [list_ascii_of_string map].
  - ranges. split; [lia|]. unfold encode. cbv zeta. rewrite (proj2 (N.ltb_lt _ _)) by lia. by rewrite ascii_N_embedding.
  - clear H. ranges. split; [lia|]. unfold encode. cbv zeta. rewrite (proj2 (N.ltb_ge _ _)), (proj2 (N.ltb_lt _ _)) by lia.
    set (a := N_of_ascii c) in *. set (b := N_of_ascii d) in *.
    assert ((a - 192) * 64 + (b - 128) = (b - 128) + (a - 192) * 64) as -> by lia. rewrite N.div_add, N.mod_add, N.div_small, N.mod_small by lia.
    f_equal; [apply byte_fwd; unfold a in *; lia|]. f_equal. apply byte_fwd. unfold b in *. lia.
  - clear H H2. set (a := N_of_ascii c). set (b := N_of_ascii d). set (x := N_of_ascii e).
    assert ((a = 224 /\ 160 <= b <= 191 \/ 225 <= a <= 236 /\ 128 <= b <= 191 \/ a = 237 /\ 128 <= b <= 159 \/ 238 <= a <= 239 /\ 128 <= b <= 191) /\ 128 <= x <= 191) as [Hab Hx].
    { unfold a, b, x. ranges; lia. }
    clear H3. split; [lia|]. unfold encode. cbv zeta. rewrite (proj2 (N.ltb_ge _ 128)), (proj2 (N.ltb_ge _ 2048)), (proj2 (N.ltb_lt _ _)) by lia.
    assert ((a - 224) * 4096 + (b - 128) * 64 + (x - 128) = (x - 128) + ((b - 128) + (a - 224) * 64) * 64) as -> by lia.
    change 4096 with (64 * 64). rewrite <- N.div_div by done. rewrite !N.div_add, !N.mod_add, (N.div_small (x - 128)), (N.mod_small (x - 128)) by lia.
    rewrite !N.add_0_l, N.div_add, N.mod_add, N.div_small, N.mod_small by lia.
    f_equal; [apply byte_fwd; unfold a in *; lia|]. f_equal; [apply byte_fwd; unfold b in *; lia|]. f_equal. apply byte_fwd. unfold x in *. lia.
  - clear H H2 H3. set (a := N_of_ascii c). set (b := N_of_ascii d). set (x := N_of_ascii e). set (y := N_of_ascii f).
    assert ((a = 240 /\ 144 <= b <= 191 \/ 241 <= a <= 243 /\ 128 <= b <= 191 \/ a = 244 /\ 128 <= b <= 143) /\ 128 <= x <= 191 /\ 128 <= y <= 191) as (Hab & Hx & Hy).
    { unfold a, b, x, y. ranges; lia. }
    clear H4. split; [lia|]. unfold encode. cbv zeta. rewrite (proj2 (N.ltb_ge _ 128)), (proj2 (N.ltb_ge _ 2048)), (proj2 (N.ltb_ge _ 65536)) by lia.
    assert ((a - 240) * 262144 + (b - 128) * 4096 + (x - 128) * 64 + (y - 128) = (y - 128) + ((x - 128) + ((b - 128) + (a - 240) * 64) * 64) * 64) as -> by lia.
    change 262144 with (64 * 64 * 64). change 4096 with (64 * 64). rewrite <- !N.div_div by done. rewrite !N.div_add, !N.mod_add, (N.div_small (y - 128)), (N.mod_small (y - 128)) by lia.
    rewrite !N.add_0_l, !N.div_add, !N.mod_add, (N.div_small (x - 128)), (N.mod_small (x - 128)) by lia.
    rewrite !N.add_0_l, N.div_add, N.mod_add, N.div_small, N.mod_small by lia.
    f_equal; [apply byte_fwd; unfold a in *; lia|]. f_equal; [apply byte_fwd; unfold b in *; lia|]. f_equal; [apply byte_fwd; unfold x in *; lia|]. f_equal. apply byte_fwd. unfold y in *. lia.
Qed.

(** ** Tokens *)
(** A character, with a space in place of white space that is not ASCII. *)
Definition plain (ch : string) : string := match ch with String _ (String _ _) => if is_uws ch then " " else ch | _ => ch end.
Definition starts_ws (s : string) : bool := match s with String c _ => is_ws c | EmptyString => true end.
Lemma tokens_word (w t : string) : all_chars (fun c => negb (is_ws c)) w = true -> w <> ""%string ->
  tokens (w ++ t) = if starts_ws t then w :: tokens t else match tokens t with [] => [w] | x :: r => (w ++ x)%string :: r end.
Proof.
  intros Hw Hn. induction w as [|c w IH]; [done|]. cbn [all_chars] in Hw. apply andb_true_iff in Hw as [Hc Hw]. apply negb_true_iff in Hc.
  change ((String c w ++ t)%string) with (String c (w ++ t)). destruct w as [|d w].
  - change (("" ++ t)%string) with t. cbn [tokens]. rewrite Hc. destruct t as [|d t]; [done|]. cbn [starts_ws].
    destruct (is_ws d) eqn:Hd; [done|]. by destruct (tokens (String d t)).
  - specialize (IH Hw ltac:(done)). cbn [all_chars] in Hw. apply andb_true_iff in Hw as [Hd _]. apply negb_true_iff in Hd.
    change ((String d w ++ t)%string) with (String d (w ++ t)) in *. cbn [tokens] in IH |- *. rewrite Hc. rewrite Hd in IH |- *.
    rewrite IH. destruct (starts_ws t); [done|]. by destruct (tokens t).
Qed.
Lemma high_not_ws c : high c = true -> is_ws c = false.
Proof. unfold high, is_ws. intros H%N.leb_le. cbv zeta. apply orb_false_iff. split; [apply andb_false_iff; right; apply N.leb_gt; lia|apply N.eqb_neq; lia]. Qed.
Lemma high_word s : all_chars high s = true -> all_chars (fun c => negb (is_ws c)) s = true.
Proof. induction s as [|c s IH]; [done|]. cbn. rewrite !andb_true_iff. intros [H1 H2]. split; [by rewrite high_not_ws|by apply IH]. Qed.
Lemma plain_cases ch : uchar ch -> (is_uws ch = true /\ exists c, plain ch = String c "" /\ is_ws c = true) \/
  (is_uws ch = false /\ plain ch = ch /\ all_chars (fun c => negb (is_ws c)) ch = true /\ ch <> ""%string).
Proof.
  intros H. destruct (uchar_cases ch H) as [(c & -> & Hc)|[Hh (c & d & t & ->)]].
  - cbn [plain]. assert (is_uws (String c "") = is_ws c) as -> by done. destruct (is_ws c) eqn:E; [left; eauto|right]. cbn. by rewrite E.
  - unfold plain. destruct (is_uws (String c (String d t))); [left; split; [done|]; by exists " "%char|right]. split; [done|]. split; [done|]. split; [by apply high_word|done].
Qed.
Lemma starts_ws_app (a b : string) : a <> ""%string -> starts_ws (a ++ b) = starts_ws a.
Proof. by destruct a. Qed.
Lemma tokens_glue cs : Forall uchar cs -> tokens (glue (map plain cs)) = utokens cs.
Proof.
  induction 1 as [|ch cs H F IH]; [done|]. cbn [map glue utokens]. destruct (plain_cases ch H) as [(E & c & -> & Hc)|(E & -> & Hw & Hn)]; rewrite E.
  - change ((String c "" ++ glue (map plain cs))%string) with (String c (glue (map plain cs))). cbn [tokens]. by rewrite Hc, IH.
  - rewrite tokens_word by done. rewrite IH. destruct cs as [|d cs]; [done|]. cbn [map glue]. apply Forall_cons in F as [Hd _].
    destruct (plain_cases d Hd) as [(Ed & c & -> & Hc)|(Ed & -> & Hwd & Hnd)]; rewrite Ed.
    + rewrite starts_ws_app by done. cbn [starts_ws]. by rewrite Hc.
    + rewrite starts_ws_app by done. destruct d as [|x d]; [done|]. cbn [starts_ws]. cbn [all_chars] in Hwd. apply andb_true_iff in Hwd as [Hx _].
      apply negb_true_iff in Hx. by rewrite Hx.
Qed.

(** ** Lines *)
(** Prepends a piece to the first line. *)
Definition on_first (w : string) (ls : list string) : list string := match ls with [] => [w] | x :: r => (w ++ x)%string :: r end.
Lemma lines_high w t : all_chars high w = true -> w <> ""%string -> lines (w ++ t) = on_first w (lines t).
Proof.
  intros Hw Hn. induction w as [|c w IH]; [done|]. cbn [all_chars] in Hw. apply andb_true_iff in Hw as [Hc Hw].
  change ((String c w ++ t)%string) with (String c (w ++ t)). assert (Ascii.eqb c cLF = false /\ Ascii.eqb c cCR = false) as [H1 H2].
  { unfold high in Hc. apply N.leb_le in Hc. split; apply Ascii.eqb_neq; intros ->; vm_compute in Hc; done. }
  assert (lines (String c (w ++ t)) = on_first (String c "") (lines (w ++ t))) as ->.
  { cbn [lines]. rewrite H1. destruct (w ++ t)%string as [|d u]; [done|]. rewrite H2. cbn [andb]. by destruct (lines (String d u)). }
  destruct w as [|d w]; [done|]. rewrite IH by done. by destruct (lines t).
Qed.
(** The lines of a list of characters. *)
Fixpoint ulines (cs : list string) : list (list string) :=
  match cs with
  | [] => []
  | c :: r => if String.eqb c (String cLF "") then [] :: ulines r
              else match r with
                   | d :: u => if (String.eqb c (String cCR "") && String.eqb d (String cLF ""))%bool then [] :: ulines u
                               else match ulines r with [] => [[c]] | x :: q => (c :: x) :: q end
                   | [] => [[c]]
                   end
  end.
Lemma eqb_one c d : String.eqb (String c "") (String d "") = Ascii.eqb c d.
Proof. cbn. by destruct (Ascii.eqb c d). Qed.
Lemma eqb_wide c d t x : String.eqb (String c (String d t)) (String x "") = false.
Proof. cbn. by destruct (Ascii.eqb c x). Qed.
Lemma lines_glue : forall n cs, (List.length cs <= n)%nat -> Forall uchar cs -> lines (glue cs) = map glue (ulines cs).
Proof.
  induction n as [|n IH]; intros cs Hl F; [destruct cs; [done|cbn in Hl; lia]|]. destruct cs as [|ch cs]; [done|]. cbn [glue ulines].
  apply Forall_cons in F as [H F]. cbn in Hl. destruct (uchar_cases ch H) as [(c & -> & Hc)|[Hh (c & d & t & ->)]].
  - change ((String c "" ++ glue cs)%string) with (String c (glue cs)). cbn [lines]. rewrite !eqb_one.
    destruct (Ascii.eqb c cLF) eqn:E1; [cbn [map glue]; rewrite IH by (done || lia); done|]. destruct cs as [|ch2 cs]; [done|].
    pose proof (IH (ch2 :: cs) ltac:(lia) F) as IHl. apply Forall_cons in F as [H2 F].
    assert (forall x (Hx : glue (ch2 :: cs) = x), match x with
      | EmptyString => [String c ""]
      | String d u => if Ascii.eqb c cCR && Ascii.eqb d cLF then ""%string :: lines u else match lines x with [] => [String c ""] | y :: r => String c y :: r end
      end = map glue (if (Ascii.eqb c cCR && String.eqb ch2 (String cLF ""))%bool then [] :: ulines cs
                      else match ulines (ch2 :: cs) with [] => [[String c ""]] | x :: q => (String c "" :: x) :: q end)) as G.
    { intros x Hx. rewrite <- Hx, IHl. assert (map glue (match ulines (ch2 :: cs) with [] => [[String c ""]] | y :: q => (String c "" :: y) :: q end) =
        match map glue (ulines (ch2 :: cs)) with [] => [String c ""] | y :: r => String c y :: r end) as Hm by (by destruct (ulines (ch2 :: cs))).
      destruct (uchar_cases ch2 H2) as [(c2 & -> & Hc2)|[Hh (c2 & d2 & t2 & ->)]].
      - cbn [glue]. change ((String c2 "" ++ glue cs)%string) with (String c2 (glue cs)). rewrite eqb_one.
        destruct (Ascii.eqb c cCR && Ascii.eqb c2 cLF)%bool; [|done]. cbn [map glue]. by rewrite IH by (done || (cbn in Hl; lia)).
      - cbn [glue]. change ((String c2 (String d2 t2) ++ glue cs)%string) with (String c2 (String d2 t2 ++ glue cs)).
        assert (Ascii.eqb c2 cLF = false) as E2. { cbn [all_chars] in Hh. apply andb_true_iff in Hh as [Hh _]. unfold high in Hh. apply N.leb_le in Hh. apply Ascii.eqb_neq. intros ->. vm_compute in Hh. done. }
        rewrite eqb_wide, E2. by rewrite !andb_false_r. }
    exact (G _ eq_refl).
  - rewrite lines_high by done. rewrite IH by (done || lia).
    rewrite !eqb_wide. cbn [andb]. destruct cs as [|ch2 cs]; [cbn; by rewrite sapp_nil|]. destruct (ulines (ch2 :: cs)); [cbn; by rewrite sapp_nil|done].
Qed.
Lemma plain_char ch : uchar ch -> uchar (plain ch) /\ forall c, String.eqb (plain ch) (String c "") = String.eqb ch (String c "") \/ c = " "%char.
Proof.
  intros H. destruct (uchar_cases ch H) as [(c & -> & Hc)|[Hh (c & d & t & ->)]]; [split; [done|by left]|]. unfold plain. destruct (is_uws _); [|split; [done|by left]].
  split; [by apply uchar1|]. intros x. destruct (decide (x = " "%char)) as [-> |Hx]; [by right|left]. rewrite eqb_wide, eqb_one. by apply Ascii.eqb_neq.
Qed.
Lemma plain_eqb ch c : uchar ch -> c <> " "%char -> String.eqb (plain ch) (String c "") = String.eqb ch (String c "").
Proof. intros H Hc. destruct (plain_char ch H) as [_ Hp]. by destruct (Hp c). Qed.
Lemma ulines_plain : forall n cs, (List.length cs <= n)%nat -> Forall uchar cs -> ulines (map plain cs) = map (map plain) (ulines cs).
Proof.
  induction n as [|n IH]; intros cs Hl F; [destruct cs; [done|cbn in Hl; lia]|]. destruct cs as [|ch cs]; [done|]. apply Forall_cons in F as [H F]. cbn in Hl.
  cbn [map ulines]. rewrite !plain_eqb by done. destruct (String.eqb ch (String cLF "")); [cbn [map]; rewrite IH by (done || lia); done|].
  destruct cs as [|ch2 cs]; [done|]. pose proof (IH (ch2 :: cs) ltac:(lia) F) as I2. apply Forall_cons in F as [H2 F]. cbn [map] in I2 |- *. rewrite plain_eqb by done.
  destruct (_ && _)%bool; [cbn [map]; rewrite IH by (done || (cbn in Hl; lia)); done|]. rewrite I2. by destruct (ulines (ch2 :: cs)).
Qed.
Lemma ulines_chars : forall n cs, (List.length cs <= n)%nat -> Forall uchar cs -> Forall (Forall uchar) (ulines cs).
Proof.
  induction n as [|n IH]; intros cs Hl F; [destruct cs; [constructor|cbn in Hl; lia]|]. destruct cs as [|ch cs]; [constructor|]. apply Forall_cons in F as [H F]. cbn in Hl.
  cbn [ulines]. destruct (String.eqb ch (String cLF "")); [constructor; [done|apply IH; [lia|done]]|].
  destruct cs as [|ch2 cs]; [by repeat constructor|]. pose proof (IH (ch2 :: cs) ltac:(lia) F) as I2. apply Forall_cons in F as [H2 F].
  destruct (_ && _)%bool; [constructor; [done|apply IH; [cbn in Hl; lia|done]]|]. destruct (ulines (ch2 :: cs)) as [|x q]; [by repeat constructor|].
  apply Forall_cons in I2 as [I1 I2]. by repeat constructor.
Qed.
Definition same_line (x y : string) : Prop := line_tokens x = tokens y /\ (x = ""%string <-> y = ""%string).
Lemma rd_src_lines l : forall xs ys s, Forall2 same_line xs ys -> rd_src l (map SLine xs) s = rd_lines l ys s.
Proof.
  intros xs ys s F. revert s. induction F as [|x y xs ys [Ht He] F IH]; intros s; [done|]. cbn [map rd_src rd_lines].
  assert (String.eqb x "" = String.eqb y "") as ->.
  { destruct (String.eqb_spec x ""), (String.eqb_spec y ""); tauto. }
  destruct (String.eqb y ""); [done|]. rewrite Ht. by apply bind_ext.
Qed.
Lemma read_src_lines md l xs text s : Forall2 same_line xs (lines text) -> read_src md l (map SLine xs) s = read md l text s.
Proof.
  intros F. unfold read_src, read. inversion F as [|x1 y1 xs1 ys1 [T1 _] F1 Ex Ey]; [done|]. subst. clear F Ey. cbn [map next_src next_line]. unfold st_bind, st_lift. rewrite T1.
  destruct (next_num (tokens y1)) as [[? ts]| | |]; [|done..]. destruct (next_num ts) as [[nw ?]| | |]; [|done..].
  inversion F1 as [|x2 y2 xs2 ys2 [T2 _] F2]; [done|]. subst. clear F1. cbn [map next_src next_line]. rewrite T2.
  destruct (next_num (tokens y2)) as [[ni ts2]| | |]; [|done..]. destruct (rd_groups l ts2 ni 0 s) as [[[]| | |] s1]; [|done..].
  inversion F2 as [|x3 y3 xs3 ys3 [T3 _] F3]; [done|]. subst. clear F2. cbn [map next_src next_line]. rewrite T3.
  destruct (next_num (tokens y3)) as [[no ts3]| | |]; [|done..]. destruct (rd_sum md ts3 no 0) as [os| | |]; [|done..].
  inversion F3 as [|x4 y4 xs4 ys4 [T4 _] F4]; [done|]. subst. clear F3. cbn [map skip_src next_line]. by rewrite (rd_src_lines l _ _ _ F4).
Qed.
Lemma uchars_ok s cs : uchars s = Some cs -> s = glue cs /\ Forall uchar cs.
Proof. by eapply uchars_inv. Qed.
Lemma glue_empty cs : Forall uchar cs -> glue cs = ""%string <-> cs = [].
Proof.
  intros F. split; [|by intros ->]. destruct cs as [|ch cs]; [done|]. apply Forall_cons in F as [H _]. cbn [glue].
  by destruct (uchar_cases ch H) as [(c & -> & _)|[_ (c & d & t & ->)]].
Qed.

(** White space is what Unicode says, for every character. *)
Theorem C72_white text cs : uchars text = Some cs -> text = glue cs /\ forall ch, ch ∈ cs -> is_uws ch = true <-> white_space (code_point ch).
Proof. intros H. destruct (uchars_ok _ _ H) as [E F]. split; [done|]. intros ch Hc. apply uws_code. exact (proj1 (Forall_forall _ _) F ch Hc). Qed.
(** The characters of a text are the encodings of scalar values, and any sequence of those is a text. *)
Theorem C72_encoding : (forall text cs, uchars text = Some cs -> exists ns, (forall n, n ∈ ns -> scalar n) /\ cs = map encode ns /\ text = glue (map encode ns)) /\
  (forall ns, (forall n, n ∈ ns -> scalar n) -> uchars (glue (map encode ns)) = Some (map encode ns)) /\
  (forall n, scalar n -> is_uws (encode n) = true <-> white_space n).
Proof.
  split; [|split].
  - intros text cs H. destruct (uchars_ok _ _ H) as [-> F]. exists (map code_point cs). assert (map encode (map code_point cs) = cs) as E.
    { rewrite map_map. clear H. induction F as [|ch cs Hc _ IH]; [done|]. cbn [map]. rewrite IH. by rewrite (proj2 (char_encode _ Hc)). }
    rewrite E. split; [|done]. intros n Hn. apply elem_of_list_In, in_map_iff in Hn as (ch & <- & Hch). apply char_encode. apply (proj1 (Forall_forall _ _) F). by apply elem_of_list_In.
  - intros ns Hs. apply uchars_glue. apply Forall_forall. intros ch Hch. apply elem_of_list_In, in_map_iff in Hch as (n & <- & Hn). apply encode_char, Hs. by apply elem_of_list_In.
  - intros n Hn. destruct (encode_char n Hn) as [Hu E]. rewrite uws_code by done. by rewrite E.
Qed.
(** A text in UTF-8 is read like the text that has a space in place of each other white space character outside ASCII. *)
Theorem C72_utf8 md l text cs s : uchars text = Some cs -> read_bytes md l text s = read md l (glue (map plain cs)) s.
Proof.
  intros H. destruct (uchars_ok _ _ H) as [-> F]. unfold read_bytes. rewrite (lines_glue _ cs (le_n _) F).
  assert (map src_of (map glue (ulines cs)) = map SLine (map glue (ulines cs))) as ->.
  { pose proof (ulines_chars _ cs (le_n _) F) as Fu. induction Fu as [|x q Hx _ IH]; [done|]. cbn [map]. rewrite IH. f_equal. unfold src_of. by rewrite uchars_glue. }
  apply read_src_lines. assert (Forall uchar (map plain cs)) as Fp by (rewrite Forall_map; eapply Forall_impl; [exact F|]; intros ch Hc; by apply plain_char).
  rewrite (lines_glue _ _ (le_n _) Fp), (ulines_plain _ cs (le_n _) F). pose proof (ulines_chars _ cs (le_n _) F) as Fu. induction Fu as [|x q Hx _ IH]; [constructor|].
  cbn [map]. constructor; [|done]. split.
  - unfold line_tokens. rewrite uchars_glue by done. by rewrite tokens_glue.
  - rewrite !glue_empty; [by destruct x|rewrite Forall_map; eapply Forall_impl; [exact Hx|]; intros ch Hc; by apply plain_char|done].
Qed.
(** On ASCII texts this is the [read] of C18 to C23. *)
Theorem C72_ascii md l text s : all_chars (fun c => negb (high c)) text = true -> read_bytes md l text s = read md l text s.
Proof.
  intros H. assert (exists cs, uchars text = Some cs /\ map plain cs = cs) as (cs & E & Ep).
  { induction text as [|c t IH]; [by exists []|]. cbn [all_chars] in H. apply andb_true_iff in H as [Hc Ht]. destruct (IH Ht) as (cs & E & Ep).
    exists (String c "" :: cs). cbn [uchars map plain]. unfold high in Hc. apply negb_true_iff, N.leb_gt in Hc.
    assert (in_range 0 127 c = true) as -> by (unfold in_range; cbv zeta; apply andb_true_iff; split; apply N.leb_le; lia). rewrite E. cbn. by rewrite Ep. }
  rewrite (C72_utf8 _ _ _ _ _ E), Ep. by destruct (uchars_ok _ _ E) as [-> _].
Qed.
Lemma rd_src_fails l k rest : forall ls s s', SLine "" ∉ ls -> rd_src l (ls ++ SFail k :: rest) s <> (Ok tt, s').
Proof.
  induction ls as [|[x|k1] ls IH]; intros s s' He; cbn [rd_src app]; [done| |done].
  destruct (String.eqb_spec x "") as [-> |]; [by destruct He; left|]. unfold st_bind. destruct (rd_line l (line_tokens x) s) as [[[]| | |] s1]; [|done..].
  apply IH. intros H. apply He. by right.
Qed.
(** A source that fails never makes a reading succeed, unless on the fourth line or after an empty gate line. *)
Theorem C71_fails md l pre k rest s s' : List.length pre <> 3%nat -> SLine "" ∉ drop 4 pre -> read_src md l (pre ++ SFail k :: rest) s <> (Ok tt, s').
Proof.
  intros Hl He. unfold read_src, st_bind, st_lift. destruct pre as [|[a|] pre]; [done| |done]. cbn [app next_src].
  destruct (next_num (line_tokens a)) as [[? ts]| | |]; [|done..]. destruct (next_num ts) as [[nw ?]| | |]; [|done..].
  destruct pre as [|[b|] pre]; [done| |done]. cbn [app next_src]. destruct (next_num (line_tokens b)) as [[ni ts2]| | |]; [|done..].
  destruct (rd_groups l ts2 ni 0 s) as [[[]| | |] s1]; [|done..]. destruct pre as [|[c|] pre]; [done| |done]. cbn [app next_src].
  destruct (next_num (line_tokens c)) as [[no ts3]| | |]; [|done..]. destruct (rd_sum md ts3 no 0) as [os| | |]; [|done..].
  destruct pre as [|d pre]; [done|]. cbn [app skip_src]. cbn [drop] in He.
  pose proof (fun s' => rd_src_fails l k rest pre s1 s' He) as Hf. destruct (rd_src l (pre ++ SFail k :: rest) s1) as [[[]| | |] s2]; [|done..]. by destruct (Hf s2).
Qed.
(** A line that is not UTF-8 is never read as if it were, with the same two exceptions. *)
Theorem C72_invalid md l text pre x rest s s' : lines text = pre ++ x :: rest -> uchars x = None -> List.length pre <> 3%nat ->
  (forall y, y ∈ drop 4 pre -> y <> ""%string) -> read_bytes md l text s <> (Ok tt, s').
Proof.
  intros El Hx Hl He. unfold read_bytes. rewrite El, map_app. cbn [map]. assert (src_of x = SFail IoInvalidData) as -> by (unfold src_of; by rewrite Hx).
  apply C71_fails; [by rewrite map_length|]. rewrite skipn_map. intros Hin. apply elem_of_list_In, in_map_iff in Hin as (y & Ey & Hy).
  apply (He y); [by apply elem_of_list_In|]. unfold src_of in Ey. destruct (uchars y); [|done]. by injection Ey as ->.
Qed.

(** * Examples *)
Open Scope string_scope.
Definition ha_src (gates : list src_line) : list src_line := SLine "4 6" :: SLine "2 1 1" :: SLine "1 2" :: gates.
Definition ha_head : list src_line := [SLine ""; SLine "1 1 0 2 EQW"; SLine "2 1 2 1 3 XOR"].
Definition ha_tail : list src_line := [SLine "1 1 3 4 EQW"; SLine "2 1 0 1 5 AND"].
Definition sizes (s : rstate) : option (N * N * N) := (fun c => (input_len c, gate_index c, output_len c)) <$> h_circ (snd s) !! 0%nat.
Close Scope string_scope.
(** The hypotheses hold of a new reader and circuit. The half adder: complete; failing after two gate lines (five gates are there, no output); on the
    second line; on the fourth, unnoticed. *)
Example C71_example : wk blank 0 /\ mapped 0 (∅, blank) /\
  (let (r, s) := read_src Debug 0 (ha_src (ha_head ++ ha_tail)) (∅, blank) in r = Ok tt /\ sizes s = Some (2, 8, 2)) /\
  (let (r, s) := read_src Debug 0 (ha_src (ha_head ++ SFail (IoOther 5) :: ha_tail)) (∅, blank) in r = Err (EIo (IoOther 5)) /\ sizes s = Some (2, 5, 0)) /\
  (let (r, s) := read_src Debug 0 (take 1 (ha_src []) ++ [SFail IoInvalidData]) (∅, blank) in r = Err (EIo IoInvalidData) /\ sizes s = Some (0, 0, 0)) /\
  (let (r, s) := read_src Debug 0 (ha_src (SFail (IoOther 5) :: drop 1 ha_head ++ ha_tail)) (∅, blank) in r = Ok tt /\ sizes s = Some (2, 8, 2)).
Proof.
  split; [apply target_wk, blank_target; lia|]. split; [intros w g E; cbn in E; by rewrite lookup_empty in E|]. split; [vm_compute; by split|]. split; [vm_compute; by split|].
  split; [vm_compute; by split|]. vm_compute. by split.
Qed.
Definition byte (n : N) : string := String (ascii_of_N n) "".
Definition nbsp : string := (byte 194 ++ byte 160)%string.
Definition ha_nbsp : string := unlines [("4" ++ nbsp ++ "6")%string; "2 1 1"; (nbsp ++ "1 2")%string; ""; "1 1 0 2 EQW"; "2 1 2 1 3 XOR"; "1 1 3 4 EQW"; "2 1 0 1 5 AND"]%string.
Definition ha_junk (x y : string) : string := unlines ["4 6"; "2 1 1"; "1 2"; x; "1 1 0 2 EQW"; "2 1 2 1 3 XOR"; y; "2 1 0 1 5 AND"]%string.
(** Non-breaking spaces separate the numbers; a byte 255 is accepted on line 4 and refused on a gate line. *)
Example C72_example : is_Some (uchars ha_nbsp) /\ fst (read_bytes Debug 0 ha_nbsp (∅, blank)) = Ok tt /\
  fst (read Debug 0 ha_nbsp (∅, blank)) = Err (EParseInt IntInvalidDigit) /\
  fst (read_bytes Debug 0 (ha_junk (byte 255) "1 1 3 4 EQW") (∅, blank)) = Ok tt /\
  fst (read_bytes Debug 0 (ha_junk "" (byte 255)) (∅, blank)) = Err (EIo IoInvalidData) /\
  white_space (code_point nbsp) /\ uchars (byte 195 ++ byte 40)%string = None.
Proof.
  split; [vm_compute; eauto|]. split; [vm_compute; done|]. split; [vm_compute; done|]. split; [vm_compute; done|]. split; [vm_compute; done|].
  split; [|vm_compute; done]. assert (code_point nbsp = 160) as -> by (vm_compute; done). unfold white_space. lia.
Qed.
