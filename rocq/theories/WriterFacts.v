(** The writer emits a program that computes the gates it records. *)
From Verif Require Export Bristol Writer Counts EvalComplete.
Open Scope N_scope.
Open Scope list_scope.

(** The text of one emitted line. *)
Definition wline (gl : gline) : string := (show_line gl ++ nl)%string.

(** Constant wires seen so far have numbers below [last_const_wire]. *)
Definition cowinv (s : wstate) : Prop := forall w, is_Some (w_cow s !! w) -> w < w_const s.
Definition below (wog : wmap) (n : N) : Prop := forall g w, wog !! g = Some w -> w < n.
(** The environment carries the constants of [cow]. *)
Definition cons_ok (e cow : gmap N bool) : Prop := forall w b, cow !! w = Some b -> e !! w = Some b.
(** The environment has the right value on the wire of each recorded gate. *)
Definition right (h : heap) (l : nat) (ρ : N -> option bool) (e : gmap N bool) (wog : wmap) : Prop :=
  forall g w, wog !! g = Some w -> exists b, e !! w = Some b /\ gv h l ρ g b.
Definition ranged (wog : wmap) (w : N) : Prop := exists g, wog !! g = Some w.
Definition between (a b w : N) : Prop := a <= w /\ w < b.

(** What a part of the writing emits, independently of the circuit it belongs to. *)
Record emit (wog : wmap) (s : wstate) (gls : list gline) (wog' : wmap) (s' : wstate) : Prop := {
  em_c : w_c s' = w_c s;
  em_out : w_out s' = w_out s ++ map wline gls;
  em_num : w_num s' = w_num s + N.of_nat (length gls);
  em_const : w_const s <= w_const s';
  em_cow : cowinv s -> w_cow s ⊆ w_cow s';
  em_dom : forall w, is_Some (w_cow s' !! w) <-> is_Some (w_cow s !! w) \/ between (w_const s) (w_const s') w;
  em_rng : forall w, ranged wog' w -> ranged wog w \/ between (w_const s) (w_const s') w \/ between (w_num s) (w_num s') w;
  em_lines : forall k gl, gls !! k = Some gl -> gl_outs gl = [w_num s + N.of_nat k] /\ gl_kind gl ∈ [KInv; KXor; KAnd; KOr] /\
    (length (gl_ins gl) <= 2)%nat /\
    forall w, w ∈ gl_ins gl -> ranged wog w \/ between (w_const s) (w_const s') w \/ between (w_num s) (w_num s + N.of_nat k) w;
}.
(** The emitted lines are right for the gates of circuit [l]. *)
Definition sound (h : heap) (l : nat) (wog : wmap) (s : wstate) (gls : list gline) (wog' : wmap) (s' : wstate) : Prop :=
  forall q ρ e, cowinv s -> w_const s' <= w_num s -> below wog (w_num s) -> cons_ok e (w_cow s') -> right h l ρ e wog ->
    exists e', exec_lines q e gls = Some e' /\ (forall w, w < w_num s -> e' !! w = e !! w) /\ right h l ρ e' wog'.

Lemma emit_refl wog s : emit wog s [] wog s.
Proof.
  split; try done; try lia.
  - by rewrite app_nil_r.
  - simpl. lia.
  - intros w. unfold between. split; [by left|]. intros [?|?]; [done|lia].
  - intros w ?. by left.
Qed.
Lemma cowinv_emit wog s gls wog' s' : emit wog s gls wog' s' -> cowinv s -> cowinv s'.
Proof. intros H I w Hw. apply (em_dom _ _ _ _ _ H) in Hw as [Hw|[_ Hw]]; [|done]. pose proof (I w Hw). pose proof (em_const _ _ _ _ _ H). lia. Qed.
Lemma below_emit wog s gls wog' s' : emit wog s gls wog' s' -> w_const s' <= w_num s -> below wog (w_num s) -> below wog' (w_num s').
Proof.
  intros H Hc Hb g w Hw. pose proof (em_num _ _ _ _ _ H). destruct (em_rng _ _ _ _ _ H w) as [(g0 & Hg)|[[_ Hw']|[_ Hw'] ] ]; [by exists g| | |].
  - pose proof (Hb _ _ Hg). lia.
  - lia.
  - lia.
Qed.
Lemma emit_trans wog s g1 wog1 s1 g2 wog2 s2 : emit wog s g1 wog1 s1 -> emit wog1 s1 g2 wog2 s2 -> emit wog s (g1 ++ g2) wog2 s2.
Proof.
  intros H1 H2. pose proof (em_num _ _ _ _ _ H1) as N1. pose proof (em_num _ _ _ _ _ H2) as N2.
  pose proof (em_const _ _ _ _ _ H1) as C1. pose proof (em_const _ _ _ _ _ H2) as C2. split.
  - rewrite (em_c _ _ _ _ _ H2). apply H1.
  - rewrite (em_out _ _ _ _ _ H2), (em_out _ _ _ _ _ H1), map_app, app_assoc. done.
  - rewrite app_length. lia.
  - lia.
  - intros I. transitivity (w_cow s1); [by apply H1|]. apply H2. by eapply cowinv_emit.
  - intros w. rewrite (em_dom _ _ _ _ _ H2), (em_dom _ _ _ _ _ H1). unfold between. split.
    + intros [[?|?]|?]; [by left|right; lia|right; lia].
    + intros [?|[? ?]]; [left; by left|]. destruct (decide (w < w_const s1)); [left; right; lia|right; lia].
  - intros w Hw. unfold between in *. destruct (em_rng _ _ _ _ _ H2 w Hw) as [Hw1|[[? ?]|[? ?] ] ].
    + destruct (em_rng _ _ _ _ _ H1 w Hw1) as [?|[[? ?]|[? ?] ] ]; [by left|right; left; lia|right; right; lia].
    + right. left. lia.
    + right. right. lia.
  - intros k gl Hk. apply lookup_app_Some in Hk as [Hk|[Hl Hk] ].
    + destruct (em_lines _ _ _ _ _ H1 k gl Hk) as (O & K & L & I). split; [done|]. split; [done|]. split; [done|]. intros w Hw.
      destruct (I w Hw) as [?|[[? ?]|?] ]; [by left|right; left; unfold between; lia|right; by right].
    + destruct (em_lines _ _ _ _ _ H2 _ gl Hk) as (O & K & L & I). split; [rewrite O; f_equal; lia|]. split; [done|]. split; [done|]. intros w Hw.
      unfold between in *. destruct (I w Hw) as [Hw1|[[? ?]|[? ?] ] ].
      * destruct (em_rng _ _ _ _ _ H1 w Hw1) as [?|[[? ?]|[? ?] ] ]; [by left|right; left; lia|right; right; lia].
      * right. left. lia.
      * right. right. lia.
Qed.
Lemma sound_refl h l wog s : sound h l wog s [] wog s.
Proof. intros q ρ e _ _ _ _ R. exists e. done. Qed.
Lemma cons_ok_keep e e' s' n : cowinv s' -> w_const s' <= n -> (forall w, w < n -> e' !! w = e !! w) -> cons_ok e (w_cow s') -> cons_ok e' (w_cow s').
Proof. intros I Hn H C w b Hw. rewrite H; [by apply C|]. assert (w < w_const s') by (apply I; eauto). lia. Qed.
Lemma sound_trans h l wog s g1 wog1 s1 g2 wog2 s2 : emit wog s g1 wog1 s1 -> emit wog1 s1 g2 wog2 s2 ->
  sound h l wog s g1 wog1 s1 -> sound h l wog1 s1 g2 wog2 s2 -> sound h l wog s (g1 ++ g2) wog2 s2.
Proof.
  intros M1 M2 S1 S2 q ρ e I Hc Hb Hcons R.
  pose proof (em_num _ _ _ _ _ M1) as N1. pose proof (em_const _ _ _ _ _ M2) as C2.
  assert (I1 : cowinv s1) by (by eapply cowinv_emit). assert (I2 : cowinv s2) by (by eapply cowinv_emit).
  destruct (S1 q ρ e) as (e1 & X1 & K1 & R1); try done; [lia| |].
  { intros w b Hw. apply Hcons. eapply lookup_weaken; [exact Hw|]. by apply M2. }
  destruct (S2 q ρ e1) as (e2 & X2 & K2 & R2); try done; [lia| | |].
  { eapply below_emit; eauto. lia. }
  { eapply (cons_ok_keep e); eauto. }
  exists e2. split; [rewrite exec_lines_app, X1; exact X2|]. split; [|done].
  intros w Hw. rewrite K2 by lia. by apply K1.
Qed.

(** * The text of a line *)
Open Scope string_scope.
Lemma sapp_assoc (a b c : string) : ((a ++ b) ++ c = a ++ (b ++ c))%string.
Proof. induction a as [|x a IH]; [done|]. change (String x ((a ++ b) ++ c) = String x (a ++ (b ++ c)))%string. by rewrite IH. Qed.
Lemma sapp_nil (a : string) : (a ++ "" = a)%string.
Proof. induction a as [|x a IH]; [done|]. change (String x (a ++ "") = String x a)%string. by rewrite IH. Qed.
Lemma join_cons2 w x r : Text.join (w :: x :: r) = (w ++ " " ++ Text.join (x :: r))%string.
Proof. done. Qed.
Lemma wires_str_join ws rest : rest <> [] -> (wires_str ws ++ Text.join rest = Text.join (map show_N ws ++ rest)%list)%string.
Proof.
  intros Hr. induction ws as [|w ws IH]; [done|]. cbn [wires_str foldr map app]. fold (wires_str ws).
  assert (exists x r, (map show_N ws ++ rest)%list = x :: r) as (x & r & Ex).
  { destruct ws; [|by eexists _, _]. destruct rest; [done|]. by eexists _, _. }
  rewrite Ex, join_cons2, <- Ex, <- IH, !sapp_assoc. done.
Qed.
Lemma update_text ws o k :
  (show_N (N.of_nat (length ws)) ++ " 1 " ++ wires_str ws ++ show_N o ++ " " ++ kind_name k ++ nl = wline (GLine k ws [o]))%string.
Proof.
  unfold wline, show_line. cbn [gl_ins gl_outs gl_kind length map]. change (N.of_nat 1) with 1%N.
  change ([show_N o] ++ [kind_name k])%list with [show_N o; kind_name k]. rewrite join_cons2.
  assert (exists x r, (map show_N ws ++ [show_N o; kind_name k])%list = x :: r) as (x & r & Ex).
  { destruct ws; by eexists _, _. }
  rewrite Ex, join_cons2, <- Ex, <- wires_str_join by done. rewrite join_cons2. cbn [Text.join]. rewrite !sapp_assoc. done.
Qed.
Close Scope string_scope.

(** * Circuits all of whose gates are needed, and circuits whose outputs end up on the last wires *)
(** Every logic and module gate is needed by some output, here and in the called circuits. *)
Inductive full (h : heap) : nat -> Prop :=
| full_intro l c : h_circ h !! l = Some c ->
    (forall g gt, gate_map c !! g = Some gt -> is_logic gt = true \/ is_module gt = true -> exists k o, output_map c !! k = Some o /\ touch c o g) ->
    (forall l', calls h c l' -> full h l') -> full h l.
(** The outputs are distinct gates without consumers: first (possibly) the whole output vector of one call of a circuit of this kind,
    then logic gates. *)
Inductive tidy (h : heap) : nat -> Prop :=
| tidy_intro l c n : h_circ h !! l = Some c -> n <= output_len c ->
    (forall k o, n <= k -> output_map c !! k = Some o -> exists gt, gate_map c !! o = Some gt /\ is_logic gt = true) ->
    (forall k1 k2 o, output_map c !! k1 = Some o -> output_map c !! k2 = Some o -> k1 = k2) ->
    (forall k o, output_map c !! k = Some o -> deps c o = []) ->
    n = 0 \/ (exists g il ids mid x l', gate_map c !! g = Some (GModule il n ids 0 mid) /\
      (forall j, j < n -> output_map c !! j = Some (g + j)) /\
      h_stor h !! c_storage c = Some x /\ module_map x !! mid = Some l' /\ tidy h l') -> tidy h l.

(** Gate [g] is needed by some output. *)
Definition used (c : circuit) (g : N) : Prop := exists k o, output_map c !! k = Some o /\ touch c o g.
(** Circuit [l], with its calls expanded, has [n] logic gates that are needed by its outputs, and needs [m] constants: [G g] and [K g] are the
    shares of gate [g]. A call counts once (at its first gate) and, when it is needed, by what the called circuit has; the constants of a
    circuit all count. *)
Inductive needs (h : heap) : nat -> N -> N -> Prop :=
| needs_intro l c (G K : N -> N) : h_circ h !! l = Some c ->
    (forall g gt, gate_map c !! g = Some gt -> is_module gt = false ->
      (is_logic gt = true -> used c g -> G g = 1) /\ (is_logic gt = false \/ ~ used c g -> G g = 0) /\ K g = if is_const gt then 1 else 0) ->
    (forall g il ol ids oi mid, gate_map c !! g = Some (GModule il ol ids oi mid) -> oi <> 0 \/ ~ used c g -> G g = 0 /\ K g = 0) ->
    (forall g il ol ids mid x l', gate_map c !! g = Some (GModule il ol ids 0 mid) -> used c g ->
      h_stor h !! c_storage c = Some x -> module_map x !! mid = Some l' -> needs h l' (G g) (K g)) ->
    needs h l (Counts.nsum (map G (nrange (gate_index c)))) (Counts.nsum (map K (nrange (gate_index c)))).

Definition has (wog : wmap) (g : N) : Prop := is_Some (wog !! g).
Global Instance has_dec wog g : Decision (has wog g).
Proof. unfold has. apply _. Defined.

(** What [write_all_gates] does for a called circuit whose input gates, and nothing else, are recorded. *)
Definition wa_spec (h : heap) (fuel : nat) (l' : nat) (m : circuit) : Prop :=
  forall new s, w_c s = l' -> cowinv s -> (forall g, has new g <-> exists w, gate_map m !! g = Some (GInput w)) ->
  exists gls new' s', write_all h (write_single h fuel) new s = (Ok new', s') /\ emit new s gls new' s' /\ sound h l' new s gls new' s' /\
    (forall k o, output_map m !! k = Some o -> has new' o) /\ new ⊆ new' /\
    N.of_nat (length gls) <= num_gate m /\ w_const s' <= w_const s + num_const m /\
    (full h l' -> N.of_nat (length gls) = num_gate m /\ w_const s' = w_const s + num_const m) /\
    (forall n k, needs h l' n k -> N.of_nat (length gls) = n /\ w_const s' = w_const s + k) /\
    (forall g gt, gate_map m !! g = Some gt -> is_logic gt = true \/ is_module gt = true -> (has new' g <-> used m g)) /\
    (tidy h l' -> output_len m <= N.of_nat (length gls) /\ forall k o, output_map m !! k = Some o -> new' !! o = Some (w_num s' - output_len m + k)).

Lemma nsum_pointwise {A} (f g k : A -> N) xs : (forall x, f x = g x + k x) -> Counts.nsum (map f xs) = Counts.nsum (map g xs) + Counts.nsum (map k xs).
Proof. intros H. induction xs as [|x xs IH]; simpl; [done|]. rewrite IH, H. lia. Qed.
Lemma nsum_le {A} (f g : A -> N) xs : (forall x, f x <= g x) -> Counts.nsum (map f xs) <= Counts.nsum (map g xs).
Proof. intros H. induction xs as [|x xs IH]; simpl; [done|]. specialize (H x). lia. Qed.
Lemma nsum_one n k v : k < n -> Counts.nsum (map (fun x => if decide (x = k) then v else 0) (nrange n)) = v.
Proof.
  induction n as [|n IH] using N.peano_ind; [lia|]. intros Hk. rewrite <- N.add_1_r, nrange_succ, map_app, Counts.nsum_app. simpl.
  destruct (decide (n = k)) as [-> |Hn].
  - rewrite Counts.nsum_zero; [lia|]. intros x Hx%elem_of_nrange. rewrite decide_False by lia. done.
  - rewrite IH by lia. lia.
Qed.

Lemma w_key_ok {A} (m : gmap N A) k v s : m !! k = Some v -> w_key m k s = (Ok v, s).
Proof. unfold w_key. by intros ->. Qed.

Section circ.
Context (h : heap) (D : dinv h) (CI : cinv h) (l : nat) (c : circuit) (E : h_circ h !! l = Some c).
Let Hinv : hinv h := di_inv h D.
Let W : cwf c := hi_circ h Hinv l c E.
Let Cd : cdisc h c := di_disc h D l c E.

Definition cost (own : gate -> bool) (f : circuit -> N) (wog : wmap) : N :=
  Counts.nsum (map (fun g => if decide (has wog g) then weight own f h c g else 0) (nrange (gate_index c))).
Definition closed (wog : wmap) : Prop := forall g gt, has wog g -> gate_map c !! g = Some gt ->
  (forall a, a ∈ operands gt -> has wog a) /\ (forall x, x ∈ blk c g -> has wog x).
Definition callees_full : Prop := forall l', calls h c l' -> full h l'.

(** The shares of one gate. *)
Definition rated (G K : N -> N) (g : N) : Prop := forall gt, gate_map c !! g = Some gt ->
  (is_module gt = false -> G g = (if is_logic gt then 1 else 0) /\ K g = if is_const gt then 1 else 0) /\
  (gate_oi gt <> 0 -> G g = 0 /\ K g = 0) /\
  (forall il ol ids mid x l', gt = GModule il ol ids 0 mid -> h_stor h !! c_storage c = Some x -> module_map x !! mid = Some l' -> needs h l' (G g) (K g)).
Definition rate (F : N -> N) (wog : wmap) : N := Counts.nsum (map (fun g => if decide (has wog g) then F g else 0) (nrange (gate_index c))).

Record step (P : N -> Prop) (wog : wmap) (s : wstate) (gls : list gline) (wog' : wmap) (s' : wstate) : Prop := {
  st_emit : emit wog s gls wog' s';
  st_sound : sound h l wog s gls wog' s';
  st_sub : wog ⊆ wog';
  st_closed : closed wog -> closed wog';
  st_touch : forall x, has wog' x -> has wog x \/ P x;
  st_ng : w_num s' + cost is_logic num_gate wog <= w_num s + cost is_logic num_gate wog';
  st_nc : w_const s' + cost is_const num_const wog <= w_const s + cost is_const num_const wog';
  st_ng_full : callees_full -> w_num s' + cost is_logic num_gate wog = w_num s + cost is_logic num_gate wog';
  st_nc_full : callees_full -> w_const s' + cost is_const num_const wog = w_const s + cost is_const num_const wog';
  st_need : forall G K, (forall g, has wog' g -> rated G K g) ->
    w_num s' + rate G wog = w_num s + rate G wog' /\ w_const s' + rate K wog = w_const s + rate K wog';
}.
Lemma step_refl P wog s : step P wog s [] wog s.
Proof. split; try done; [apply emit_refl|apply sound_refl|by left]. Qed.
Lemma step_mono (P Q : N -> Prop) wog s gls wog' s' : (forall x, P x -> Q x) -> step P wog s gls wog' s' -> step Q wog s gls wog' s'.
Proof. intros H []. split; try done. intros x Hx. destruct (st_touch0 x Hx); [by left|right; auto]. Qed.
Lemma step_trans P wog s g1 wog1 s1 g2 wog2 s2 : step P wog s g1 wog1 s1 -> step P wog1 s1 g2 wog2 s2 -> step P wog s (g1 ++ g2) wog2 s2.
Proof.
  intros [] []. split; eauto using emit_trans, sound_trans.
  - by transitivity wog1.
  - intros x Hx. destruct (st_touch1 x Hx) as [?|?]; [auto|by right].
  - lia. - lia. - intros HF. specialize (st_ng_full0 HF). specialize (st_ng_full1 HF). lia.
  - intros HF. specialize (st_nc_full0 HF). specialize (st_nc_full1 HF). lia.
  - intros G K HG. destruct (st_need1 G K HG). destruct (st_need0 G K); [|lia]. intros g [w Hw]. apply HG. exists w. by eapply lookup_weaken.
Qed.
Lemma rate_add F wog wog' g gt : gate_map c !! g = Some gt -> (forall x, has wog' x <-> has wog x \/ x ∈ blk c g) ->
  (forall x, x ∈ blk c g -> ~ has wog x) -> (forall x gx, x ∈ blk c g -> gate_map c !! x = Some gx -> gate_oi gx <> 0 -> F x = 0) ->
  rate F wog' = rate F wog + F (start c g).
Proof.
  intros G H1 H2 H3. destruct (start_gate c W g gt G) as (gs & Gs & Hoi & Hin).
  rewrite <- (nsum_one (gate_index c) (start c g) (F (start c g))) by (eapply gm_lt; eauto).
  unfold rate. apply nsum_pointwise. intros x. destruct (decide (x = start c g)) as [-> |Hx].
  - rewrite decide_True by (apply H1; by right). rewrite decide_False by auto. lia.
  - rewrite N.add_0_r. destruct (decide (has wog x)) as [Hw|Hw].
    + rewrite decide_True by (apply H1; by left). done.
    + destruct (decide (has wog' x)) as [Hw'|Hw']; [|done]. apply H1 in Hw' as [?|Hb]; [done|].
      destruct (blk_member c W g gt x G Hb) as (gx & Gx & _ & _ & _ & Ex & _ & _). apply (H3 x gx Hb Gx). intros H0.
      rewrite H0 in Ex. lia.
Qed.

Lemma cost_add own f wog wog' g gt : gate_map c !! g = Some gt -> (forall x, has wog' x <-> has wog x \/ x ∈ blk c g) ->
  (forall x, x ∈ blk c g -> ~ has wog x) -> cost own f wog' = cost own f wog + weight own f h c (start c g).
Proof.
  intros G H1 H2. destruct (start_gate c W g gt G) as (gs & Gs & Hoi & Hin).
  rewrite <- (nsum_one (gate_index c) (start c g) (weight own f h c (start c g))) by (eapply gm_lt; eauto).
  unfold cost. apply nsum_pointwise. intros x. destruct (decide (x = start c g)) as [-> |Hx].
  - rewrite decide_True by (apply H1; by right). rewrite decide_False by auto. lia.
  - rewrite N.add_0_r. destruct (decide (has wog x)) as [Hw|Hw].
    + rewrite decide_True by (apply H1; by left). done.
    + destruct (decide (has wog' x)) as [Hw'|Hw']; [|done]. apply H1 in Hw' as [?|Hb]; [done|].
      destruct (blk_member c W g gt x G Hb) as (gx & Gx & _ & _ & _ & Ex & _ & _). unfold weight. rewrite Gx.
      destruct gx; simpl in Ex; try (rewrite N.add_0_r in Ex; done). destruct (N.eqb_spec out_index 0); [|done]. lia.
Qed.
Lemma cost_le own f wog : cost own f wog <= Counts.nsum (map (weight own f h c) (nrange (gate_index c))).
Proof. unfold cost. apply nsum_le. intros x. destruct decide; lia. Qed.
Lemma cost_all own f wog : (forall g, g < gate_index c -> ~ has wog g -> weight own f h c g = 0) ->
  cost own f wog = Counts.nsum (map (weight own f h c) (nrange (gate_index c))).
Proof. intros H. apply nsum_ext. intros x Hx%elem_of_nrange. destruct decide; [done|]. by rewrite H. Qed.

(** * One logic gate whose operands are recorded *)
Definition kind_of_gate (gt : gate) : option gkind :=
  match gt with GNot _ => Some KInv | GXor _ _ => Some KXor | GAnd _ _ => Some KAnd | GOr _ _ => Some KOr | _ => None end.
Lemma blk_logic g gt : gate_map c !! g = Some gt -> is_module gt = false -> blk c g = [g].
Proof. intros G H. unfold blk. rewrite G. by destruct gt. Qed.
Lemma start_logic g gt : gate_map c !! g = Some gt -> is_module gt = false -> start c g = g.
Proof. intros G H. unfold start. rewrite G. destruct gt; simpl; lia || done. Qed.

Lemma insert_has wog g w x : has (<[g := w]> wog) x <-> has wog x \/ x ∈ [g].
Proof.
  unfold has. rewrite elem_of_list_singleton. destruct (decide (x = g)) as [-> |Hn].
  - rewrite lookup_insert. split; [by right|]. intros _. by eexists.
  - rewrite lookup_insert_ne by done. split; [by left|]. intros [?|?]; done.
Qed.
Lemma insert_sub wog g w : ~ has wog g -> wog ⊆ <[g := w]> wog.
Proof. intros H. apply insert_subseteq. apply eq_None_not_Some. exact H. Qed.
Lemma has_sub wog wog' g : wog ⊆ wog' -> has wog g -> has wog' g.
Proof. intros H [w Hw]. exists w. by eapply lookup_weaken. Qed.

Definition emitted (s : wstate) (gl : gline) : wstate := WState (w_c s) (w_num s + 1) (w_const s) (w_out s ++ [wline gl]) (w_cow s).

Lemma emit_line wog s g k ws : (length ws <= 2)%nat -> k ∈ [KInv; KXor; KAnd; KOr] -> (forall w, w ∈ ws -> ranged wog w) ->
  emit wog s [GLine k ws [w_num s]] (<[g := w_num s]> wog) (emitted s (GLine k ws [w_num s])).
Proof.
  intros Hl Hk Hw. unfold emitted. split; cbn [w_c w_num w_const w_out w_cow]; try done.
  - intros w. unfold between. split; [by left|]. intros [?|?]; [done|lia].
  - intros w [x Hx]. apply lookup_insert_Some in Hx as [[_ <-]|[_ Hx] ]; [right; right; split; lia|]. left. by exists x.
  - intros i gl Hi. destruct i as [|i]; [|done]. injection Hi as <-. cbn [gl_outs gl_kind gl_ins]. split; [f_equal; lia|]. split; [done|].
    split; [done|]. intros w Hin. left. auto.
Qed.

Lemma logic_sound wog s g gt k ws : gate_map c !! g = Some gt -> kind_of_gate gt = Some k ->
  Forall2 (fun a w => wog !! a = Some w) (operands gt) ws ->
  sound h l wog s [GLine k ws [w_num s]] (<[g := w_num s]> wog) (emitted s (GLine k ws [w_num s])).
Proof.
  intros G K F q ρ e I Hc Hb Hcons R.
  assert (exists bits v, mapM (fun w => e !! w) ws = Some bits /\ kind_fun k bits = Some v /\ gv h l ρ g v) as (bits & v & M & V & Gv).
  { destruct gt as [| |a|a b|a b|a b|]; try done; injection K as <-; cbn [operands] in F.
    - inversion F as [|? w ? ? Ha F1]; subst. inversion F1; subst. destruct (R _ _ Ha) as (x & Ex & Gx).
      exists [x], (negb x). split; [simpl; by rewrite Ex|]. split; [done|]. by eapply gv_not.
    - inversion F as [|? w ? ? Ha F1]; subst. inversion F1 as [|? w' ? ? Hb' F2]; subst. inversion F2; subst.
      destruct (R _ _ Ha) as (x & Ex & Gx). destruct (R _ _ Hb') as (y & Ey & Gy).
      exists [x; y], (xorb x y). split; [simpl; by rewrite Ex; simpl; rewrite Ey|]. split; [done|]. by eapply gv_xor.
    - inversion F as [|? w ? ? Ha F1]; subst. inversion F1 as [|? w' ? ? Hb' F2]; subst. inversion F2; subst.
      destruct (R _ _ Ha) as (x & Ex & Gx). destruct (R _ _ Hb') as (y & Ey & Gy).
      exists [x; y], (andb x y). split; [simpl; by rewrite Ex; simpl; rewrite Ey|]. split; [done|]. by eapply gv_and.
    - inversion F as [|? w ? ? Ha F1]; subst. inversion F1 as [|? w' ? ? Hb' F2]; subst. inversion F2; subst.
      destruct (R _ _ Ha) as (x & Ex & Gx). destruct (R _ _ Hb') as (y & Ey & Gy).
      exists [x; y], (orb x y). split; [simpl; by rewrite Ex; simpl; rewrite Ey|]. split; [done|]. by eapply gv_or. }
  exists (<[w_num s := v]> e). split.
  { cbn [exec_lines]. unfold exec_line, line_value. cbn [gl_kind gl_ins gl_outs].
    assert (K5 : k <> KEq) by (intros ->; by destruct gt). destruct q, k; try done; rewrite M; cbn [mbind option_bind]; by rewrite V. }
  split.
  { intros w Hw. by rewrite lookup_insert_ne by lia. }
  intros x w Hx. apply lookup_insert_Some in Hx as [[<- <-]|[Hn Hx] ].
  - exists v. by rewrite lookup_insert.
  - destruct (R _ _ Hx) as (b & Eb & Gb). exists b. rewrite lookup_insert_ne; [done|]. pose proof (Hb _ _ Hx). lia.
Qed.

Lemma logic_step wog s g gt k ws : gate_map c !! g = Some gt -> kind_of_gate gt = Some k ->
  Forall2 (fun a w => wog !! a = Some w) (operands gt) ws -> ~ has wog g ->
  update_wire g (Some ws) (gate_to_str gt) wog s = (Ok (<[g := w_num s]> wog), emitted s (GLine k ws [w_num s])) /\
  step (touch c g) wog s [GLine k ws [w_num s]] (<[g := w_num s]> wog) (emitted s (GLine k ws [w_num s])).
Proof.
  intros G K F Hg.
  assert (Hm : is_module gt = false) by (by destruct gt).
  assert (Hlg : is_logic gt = true) by (by destruct gt).
  assert (Hcs : is_const gt = false) by (by destruct gt).
  assert (Hlen : (length ws <= 2)%nat) by (rewrite <- (Forall2_length _ _ _ F); destruct gt; simpl; try lia; done).
  assert (Hk : k ∈ [KInv; KXor; KAnd; KOr]) by (destruct gt; try done; injection K as <-; set_solver).
  assert (Hr : forall w, w ∈ ws -> ranged wog w).
  { intros w Hw. apply elem_of_list_lookup in Hw as [i Hi]. destruct (Forall2_lookup_r _ _ _ _ _ F Hi) as (a & _ & Ha). by exists a. }
  split.
  - unfold update_wire, st_bind, w_get, w_write, w_set_num, st_ret. cbn [w_c w_num w_const w_out w_cow].
    replace (gate_to_str gt) with (kind_name k) by (destruct gt; try done; by injection K as <-). rewrite update_text. done.
  - split.
    + by apply emit_line.
    + by eapply logic_sound.
    + by apply insert_sub.
    + intros Hc x gx Hx Gx. apply insert_has in Hx as [Hx|Hx%elem_of_list_singleton].
      * destruct (Hc x gx Hx Gx) as [H1 H2]. split; intros y Hy; apply insert_has; left; auto.
      * subst x. rewrite G in Gx. injection Gx as <-. split.
        -- intros a Ha. apply insert_has. left. apply elem_of_list_lookup in Ha as [i Hi].
           destruct (Forall2_lookup_l _ _ _ _ _ F Hi) as (w & _ & Hw). by exists w.
        -- intros y Hy. apply insert_has. right. by rewrite (blk_logic g gt G Hm) in Hy.
    + intros x Hx. apply insert_has in Hx as [Hx|Hx]; [by left|]. right. apply touch_self. by rewrite (blk_logic g gt G Hm).
    + rewrite (cost_add _ _ wog (<[g := w_num s]> wog) g gt G).
      * rewrite (start_logic g gt G Hm). unfold weight. rewrite G. cbn [emitted w_num]. destruct gt; try done; simpl; lia.
      * intros x. rewrite (blk_logic g gt G Hm). apply insert_has.
      * intros x. rewrite (blk_logic g gt G Hm), elem_of_list_singleton. by intros ->.
    + rewrite (cost_add _ _ wog (<[g := w_num s]> wog) g gt G).
      * cbn [emitted w_const]. lia.
      * intros x. rewrite (blk_logic g gt G Hm). apply insert_has.
      * intros x. rewrite (blk_logic g gt G Hm), elem_of_list_singleton. by intros ->.
    + intros _. rewrite (cost_add _ _ wog (<[g := w_num s]> wog) g gt G).
      * rewrite (start_logic g gt G Hm). unfold weight. rewrite G. cbn [emitted w_num]. destruct gt; try done; simpl; lia.
      * intros x. rewrite (blk_logic g gt G Hm). apply insert_has.
      * intros x. rewrite (blk_logic g gt G Hm), elem_of_list_singleton. by intros ->.
    + intros _. rewrite (cost_add _ _ wog (<[g := w_num s]> wog) g gt G).
      * rewrite (start_logic g gt G Hm). unfold weight. rewrite G. cbn [emitted w_const]. destruct gt; try done; simpl; lia.
      * intros x. rewrite (blk_logic g gt G Hm). apply insert_has.
      * intros x. rewrite (blk_logic g gt G Hm), elem_of_list_singleton. by intros ->.
    + intros F1 F2 HR. destruct (HR g ltac:(apply insert_has; right; left) gt G) as (Hown & _ & _). destruct (Hown Hm) as [HG HC].
      rewrite Hlg in HG. rewrite Hcs in HC.
      assert (Hadd : forall F0, rate F0 (<[g := w_num s]> wog) = rate F0 wog + F0 g).
      { intros F0. rewrite <- (start_logic g gt G Hm) at 2. apply (rate_add F0 wog _ g gt G).
        - intros x. rewrite (blk_logic g gt G Hm). apply insert_has.
        - intros x. rewrite (blk_logic g gt G Hm), elem_of_list_singleton. by intros ->.
        - intros x gx. rewrite (blk_logic g gt G Hm), elem_of_list_singleton. intros -> Gx. rewrite G in Gx. injection Gx as <-. by destruct gt. }
      rewrite !Hadd, HG, HC. cbn [emitted w_num w_const]. lia.
Qed.

(** * One module call whose arguments are recorded *)
Lemma bind_args_ok m wog r : cwf m -> (forall a, a ∈ r -> has wog a) -> forall fuel w new s, (length r <= fuel)%nat ->
  w + N.of_nat (length r) = input_len m ->
  exists new', bind_args fuel m wog r w new s = (Ok new', s) /\
    (forall g, new' !! g = match gate_map m !! g with
       | Some (GInput i) => if w <=? i then r !! N.to_nat (i - w) ≫= fun a => wog !! a else new !! g
       | _ => new !! g end).
Proof using.
  intros Wm. induction r as [|a r IH]; intros Hall fuel w new s Hf Hw.
  - exists new. split; [by destruct fuel|]. intros g. destruct (gate_map m !! g) as [[]|] eqn:G; try done.
    simpl in Hw. destruct (N.leb_spec w w0); [|done]. exfalso.
    pose proof (wf_input_gates m Wm g w0 G) as Hi. rewrite (wf_inputs_none m Wm) in Hi by lia. done.
  - destruct fuel as [|fuel]; [simpl in Hf; lia|]. cbn [bind_args]. cbn [length] in *.
    destruct (wf_inputs m Wm w) as (g & Im & Gm); [lia|]. destruct (Hall a) as [x Hx]; [left|].
    destruct (IH ltac:(intros; apply Hall; by right) fuel (w + 1) (<[g := x]> new) s) as (new' & E' & H'); [lia|lia|].
    exists new'. split.
    { unfold st_bind at 1. unfold c_input_to_gate_id, st_lift. rewrite Im. unfold st_bind. rewrite (w_key_ok wog a x s Hx). exact E'. }
    intros g'. rewrite H'. destruct (decide (g' = g)) as [-> |Hn].
    + rewrite Gm. destruct (N.leb_spec (w + 1) w); [lia|]. rewrite N.leb_refl, N.sub_diag, lookup_insert. simpl. done.
    + rewrite lookup_insert_ne by done. destruct (gate_map m !! g') as [[]|] eqn:G'; try done.
      destruct (N.leb_spec (w + 1) w0), (N.leb_spec w w0); try lia; [|exfalso|done].
      * replace (N.to_nat (w0 - w)) with (Datatypes.S (N.to_nat (w0 - (w + 1)))) by lia. done.
      * assert (w0 = w) as -> by lia. pose proof (wf_input_gates m Wm g' w G') as Hi. rewrite Im in Hi. injection Hi as ->. done.
Qed.

Lemma copy_out_ok m new first ol : cwf m -> ol <= output_len m -> (forall k o, output_map m !! k = Some o -> has new o) -> forall wog s,
  exists wog', st_foldM (copy_out m new first) wog (nrange ol) s = (Ok wog', s) /\
    forall x, wog' !! x = if (first <=? x) && (x <? first + ol) then output_map m !! (x - first) ≫= fun o => new !! o else wog !! x.
Proof using.
  intros Wm. induction ol as [|ol IH] using N.peano_ind; intros Hol Hall wog s.
  - exists wog. split; [done|]. intros x. destruct (N.leb_spec first x), (N.ltb_spec x (first + 0)); try lia; done.
  - destruct (IH ltac:(lia) Hall wog s) as (w1 & E1 & H1). rewrite <- N.add_1_r, nrange_succ.
    destruct (wf_outputs m Wm ol) as (o & Oo & _); [lia|]. destruct (Hall ol o Oo) as [v Hv].
    exists (<[first + ol := v]> w1). split.
    + assert (forall xs ys (a : wmap) b st st', st_foldM (copy_out m new first) a xs st = (Ok b, st') ->
        st_foldM (copy_out m new first) a (xs ++ ys) st = st_foldM (copy_out m new first) b ys st') as Happ.
      { clear. induction xs as [|x xs IH]; intros ys a b st st' H; [by injection H as -> ->|].
        cbn [st_foldM app] in *. unfold st_bind in *. destruct (copy_out m new first a x st) as [[] ?]; try done. by apply IH. }
      rewrite (Happ _ [ol] _ _ _ _ E1). cbn [st_foldM]. unfold copy_out, st_bind, c_output_to_gate_id, st_lift. rewrite Oo, (w_key_ok new o v s Hv). done.
    + intros x. destruct (decide (x = first + ol)) as [-> |Hn].
      * rewrite lookup_insert. destruct (N.leb_spec first (first + ol)); [|lia]. destruct (N.ltb_spec (first + ol) (first + (ol + 1))); [|lia].
        simpl. replace (first + ol - first) with ol by lia. rewrite Oo. done.
      * rewrite lookup_insert_ne by done. rewrite H1.
        destruct (N.leb_spec first x), (N.ltb_spec x (first + ol)), (N.ltb_spec x (first + (ol + 1))); try lia; done.
Qed.

Definition module_rest (fuel : nat) (id oi ol mid : N) (ids : list N) (wog : wmap) : WM wmap :=
  c <- w_circ h ;;
  l' <- (match h_stor h !! c_storage c with
         | Some x => match module_map x !! mid with Some l' => st_ret l' | None => st_err (EUnknownModule mid) end
         | None => st_panic PDangling end) ;;
  m <- (match h_circ h !! l' with Some m => st_ret m | None => st_panic PDangling end) ;;
  new <- bind_args (length ids + size (input_map m) + 1) m wog ids 0 ∅ ;;
  st <- w_get ;;
  w_set_c l' ;;
  new <- write_all h (write_single h fuel) new ;;
  w_set_c (w_c st) ;;
  st_foldM (copy_out m new (id - oi)) wog (nrange ol).

Lemma blk_module g il ol ids oi mid x : gate_map c !! g = Some (GModule il ol ids oi mid) ->
  x ∈ blk c g <-> g - oi <= x < g - oi + ol.
Proof.
  intros G. unfold blk. rewrite G. rewrite elem_of_list_fmap. setoid_rewrite elem_of_nrange. split.
  - intros (y & -> & Hy). lia.
  - intros Hx. exists (x - (g - oi)). lia.
Qed.

Lemma module_step fuel wog s g il ol ids oi mid x l' m : gate_map c !! g = Some (GModule il ol ids oi mid) ->
  h_stor h !! c_storage c = Some x -> module_map x !! mid = Some l' -> h_circ h !! l' = Some m ->
  wa_spec h fuel l' m -> w_c s = l -> cowinv s -> (forall a, a ∈ ids -> has wog a) -> (forall y, y ∈ blk c g -> ~ has wog y) ->
  exists gls wog' s', module_rest fuel g oi ol mid ids wog s = (Ok wog', s') /\ step (touch c g) wog s gls wog' s' /\
    (forall y, y ∈ blk c g -> has wog' y) /\
    (tidy h l' -> ol <= N.of_nat (length gls) /\ forall j, j < ol -> wog' !! (g - oi + j) = Some (w_num s' - ol + j)).
Proof.
  intros G Ex Em El' HW Hc I Hall Hblk.
  pose proof (hi_circ h Hinv l' m El') as Wm.
  destruct (d_arity h c Cd _ _ _ _ _ _ _ _ _ G Ex Em El') as (-> & -> & Hlen).
  destruct (wf_blocks c W _ _ _ _ _ _ G) as (B1 & B2 & B3).
  assert (Hcall : calls h c l'). { exists g, (input_len m), (output_len m), ids, oi, mid, x. done. }
  destruct (bind_args_ok m wog ids Wm Hall (length ids + size (input_map m) + 1) 0 ∅ s) as (new & Eb & Hnew); [lia|lia|].
  set (s1 := WState l' (w_num s) (w_const s) (w_out s) (w_cow s)).
  destruct (HW new s1) as (gls & new' & s2 & Ew & Em2 & So & Ho & Hsub & Hng & Hnc & Hfull & Hneed & _ & Htidy); [done|exact I| |].
  { intros y. unfold has. rewrite Hnew. split.
    - destruct (gate_map m !! y) as [[]|] eqn:Gy; try (rewrite lookup_empty; by intros [? ?]). eauto.
    - intros (w & Gy). rewrite Gy. destruct (N.leb_spec 0 w); [|lia]. rewrite N.sub_0_r.
      assert (w < input_len m). { destruct (decide (w < input_len m)); [done|]. pose proof (wf_input_gates m Wm y w Gy) as Hi.
        rewrite (wf_inputs_none m Wm) in Hi by lia. done. }
      destruct (lookup_lt_is_Some_2 ids (N.to_nat w)) as [a Ha]; [lia|]. rewrite Ha. simpl. apply Hall. by eapply elem_of_list_lookup_2. }
  set (s3 := WState (w_c s) (w_num s2) (w_const s2) (w_out s2) (w_cow s2)).
  destruct (copy_out_ok m new' (g - oi) (output_len m) Wm ltac:(lia) Ho wog s3) as (wog' & Ec & Hw').
  exists gls, wog', s3. split.
  { unfold module_rest. unfold st_bind at 1. unfold w_circ. rewrite Hc, E. unfold st_bind at 1. rewrite Ex, Em. cbn [st_ret].
    unfold st_bind at 1. rewrite El'. cbn [st_ret]. unfold st_bind at 1. rewrite Eb. unfold st_bind at 1. cbn [w_get]. unfold st_bind at 1. cbn [w_set_c].
    fold s1. unfold st_bind at 1. rewrite Ew. unfold st_bind at 1. cbn [w_set_c]. exact Ec. }
  assert (Hout : forall y, y ∈ blk c g -> exists o, output_map m !! (y - (g - oi)) = Some o /\ wog' !! y = new' !! o /\ has new' o).
  { intros y Hy. apply (blk_module _ _ _ _ _ _ _ G) in Hy. destruct (wf_outputs m Wm (y - (g - oi))) as (o & Oo & _); [lia|].
    exists o. split; [done|]. split; [|by eapply Ho]. rewrite Hw'. destruct (N.leb_spec (g - oi) y); [|lia].
    destruct (N.ltb_spec y (g - oi + output_len m)); [|lia]. simpl. by rewrite Oo. }
  assert (Hin : forall y, y ∉ blk c g -> wog' !! y = wog !! y).
  { intros y Hy. rewrite Hw'. destruct (N.leb_spec (g - oi) y); [|done]. destruct (N.ltb_spec y (g - oi + output_len m)); [|done].
    destruct Hy. apply (blk_module _ _ _ _ _ _ _ G). lia. }
  assert (Hhas : forall y, has wog' y <-> has wog y \/ y ∈ blk c g).
  { intros y. destruct (decide (y ∈ blk c g)) as [Hy|Hy].
    - split; [by right|]. intros _. destruct (Hout y Hy) as (o & _ & Eo & Hho). unfold has. by rewrite Eo.
    - unfold has. rewrite Hin by done. split; [by left|]. intros [?|?]; done. }
  assert (Hrn : forall w, ranged new w -> ranged wog w).
  { intros w [y Hy]. rewrite Hnew in Hy. destruct (gate_map m !! y) as [[]|]; try (rewrite lookup_empty in Hy; done).
    destruct (0 <=? w0); [|rewrite lookup_empty in Hy; done]. destruct (ids !! _) as [a|]; [|done]. by exists a. }
  assert (Hemit : emit wog s gls wog' s3).
  { destruct Em2. split; try done.
    - intros w [y Hy]. destruct (decide (y ∈ blk c g)) as [Hb|Hb].
      + destruct (Hout y Hb) as (o & _ & Eo & _). destruct (em_rng0 w) as [?|?]; [exists o; congruence|left; auto|by right].
      + rewrite Hin in Hy by done. left. by exists y.
    - intros k gl Hk. destruct (em_lines0 k gl Hk) as (O1 & O2 & O3 & O4). split; [done|]. split; [done|]. split; [done|]. intros w Hw.
      destruct (O4 w Hw) as [?|?]; [left; auto|by right]. }
  assert (Hcst : forall own f, cost own f wog' = cost own f wog + f m).
  { intros own f. rewrite (cost_add own f wog wog' g _ G Hhas Hblk). f_equal. unfold weight, start. rewrite G. cbn [gate_oi].
    specialize (B3 0 ltac:(lia)). rewrite N.add_0_r in B3. rewrite B3, N.eqb_refl. unfold callee. rewrite Ex, Em, El'. done. }
  pose proof (em_num _ _ _ _ _ Hemit) as HN. subst s1 s3. cbn [w_num w_const] in *.
  split; [split|split].
  - exact Hemit.
  - intros q ρ e I' Hcb Hb Hcons R.
    assert (exists bits, Forall2 (gv h l ρ) ids bits /\ forall i a w, ids !! i = Some a -> wog !! a = Some w -> exists b, bits !! i = Some b /\ e !! w = Some b) as (bits & Fb & Hbits).
    { clear - Hall R. induction ids as [|a r IH]; [exists []; split; [constructor|]; done|].
      destruct IH as (bs & F & H); [intros; apply Hall; by right|]. destruct (Hall a) as [w Hw]; [left|]. destruct (R a w Hw) as (b & Eb & Gb).
      exists (b :: bs). split; [by constructor|]. intros i a' w' Hi Ha'. destruct i as [|i]; [|by eapply H].
      injection Hi as <-. simplify_eq. exists b. done. }
    destruct (So q (fun i => bits !! N.to_nat i) e) as (e' & X & K & R'); try done.
    { intros y w Hy. destruct (Hrn w) as [z Hz]; [by exists y|]. by eapply Hb. }
    { intros y w Hy. rewrite Hnew in Hy. destruct (gate_map m !! y) as [[]|] eqn:Gy; try (rewrite lookup_empty in Hy; done).
      destruct (0 <=? w0); [|rewrite lookup_empty in Hy; done]. rewrite N.sub_0_r in Hy.
      destruct (ids !! N.to_nat w0) as [a|] eqn:Ea; [|done]. simpl in Hy. destruct (Hbits _ _ _ Ea Hy) as (b & Eb' & Ev).
      exists b. split; [done|]. eapply gv_input; eauto. }
    exists e'. split; [done|]. split; [done|]. intros y w Hy. destruct (decide (y ∈ blk c g)) as [Hyb|Hyb].
    + destruct (Hout y Hyb) as (o & Oo & Eo & _). destruct (R' o w) as (b & Eb' & Gb); [congruence|]. exists b. split; [done|].
      pose proof Hyb as Hyb'. apply (blk_module _ _ _ _ _ _ _ G) in Hyb'.
      assert (Gy : gate_map c !! y = Some (GModule (input_len m) (output_len m) ids (y - (g - oi)) mid)).
      { replace y with (g - oi + (y - (g - oi))) at 1 by lia. apply B3. lia. }
      eapply gv_module; eauto.
    + rewrite Hin in Hy by done. destruct (R y w Hy) as (b & Eb' & Gb). exists b. split; [|done]. rewrite K; [done|]. by eapply Hb.
  - apply map_subseteq_spec. intros y w Hy. rewrite Hin; [done|]. intros Hb. apply (Hblk y Hb). by exists w.
  - intros Hcl y gy Hy Gy. apply Hhas in Hy as [Hy|Hy].
    + destruct (Hcl y gy Hy Gy) as [H1 H2]. split; intros z Hz; apply Hhas; left; auto.
    + destruct (blk_member c W g _ y G Hy) as (gy' & Gy' & Op & _ & Bl & _). rewrite Gy in Gy'. injection Gy' as <-.
      split; [rewrite Op; intros a Ha; apply Hhas; left; by apply Hall|]. rewrite Bl. intros z Hz. apply Hhas. by right.
  - intros y Hy. apply Hhas in Hy as [?|?]; [by left|]. right. by apply touch_self.
  - cbn [w_num w_const]. rewrite Hcst. lia.
  - cbn [w_num w_const]. rewrite Hcst. lia.
  - intros HF. destruct (Hfull (HF l' Hcall)). cbn [w_num w_const]. rewrite Hcst. lia.
  - intros HF. destruct (Hfull (HF l' Hcall)). cbn [w_num w_const]. rewrite Hcst. lia.
  - intros F1 F2 HR. cbn [w_num w_const].
    assert (G0 : gate_map c !! (g - oi) = Some (GModule (input_len m) (output_len m) ids 0 mid)).
    { specialize (B3 0 ltac:(lia)). by rewrite N.add_0_r in B3. }
    assert (Hst : start c g = g - oi). { unfold start. rewrite G. done. }
    destruct (HR (g - oi)) with (gt := GModule (input_len m) (output_len m) ids 0 mid) as (_ & _ & HNd); [apply Hhas; right; apply (blk_module _ _ _ _ _ _ _ G); lia|done|].
    destruct (Hneed _ _ (HNd _ _ _ _ x l' eq_refl Ex Em)) as [L1 L2].
    assert (HF : forall F0, F0 = F1 \/ F0 = F2 -> rate F0 wog' = rate F0 wog + F0 (g - oi)).
    { intros F0 HF0. rewrite <- Hst. apply (rate_add F0 wog wog' g _ G Hhas Hblk). intros y gy Hy Gy Hoy.
      destruct (HR y) with (gt := gy) as (_ & HZ & _); [apply Hhas; by right|done|]. destruct (HZ Hoy). by destruct HF0 as [-> | ->]. }
    rewrite !HF by auto. lia.
  - intros y Hy. apply Hhas. by right.
  - intros HT. destruct (Htidy HT) as [T1 T2]. split; [done|]. intros j Hj.
    assert (Hyb : g - oi + j ∈ blk c g) by (apply (blk_module _ _ _ _ _ _ _ G); lia).
    destruct (Hout _ Hyb) as (o & Oo & Eo & _). rewrite Eo. replace (g - oi + j - (g - oi)) with j in Oo by lia. by apply T2.
Qed.

(** * A gate and everything it needs *)
Record pre (wog : wmap) (s : wstate) : Prop := {
  pre_c : w_c s = l;
  pre_cow : cowinv s;
  pre_closed : closed wog;
  pre_base : forall g gt, gate_map c !! g = Some gt -> is_const gt = true \/ (exists w, gt = GInput w) -> has wog g;
}.
Lemma pre_step P wog s gls wog' s' : pre wog s -> step P wog s gls wog' s' -> pre wog' s'.
Proof.
  intros [P1 P2 P3 P4] S. split.
  - by rewrite (em_c _ _ _ _ _ (st_emit _ _ _ _ _ _ S)).
  - eapply cowinv_emit; [apply S|done].
  - by apply S.
  - intros g gt G Hk. eapply has_sub; [apply S|eauto].
Qed.

Context (K : nat).
Context (HK : forall l' m fuel, calls h c l' -> h_circ h !! l' = Some m -> (K <= fuel)%nat -> wa_spec h fuel l' m).

Definition claim (fuel : nat) (g : N) : Prop := forall gt wog s, gate_map c !! g = Some gt -> pre wog s -> ~ has wog g ->
  exists gls wog' s', write_single h fuel g gt wog s = (Ok wog', s') /\ step (touch c g) wog s gls wog' s' /\ has wog' g.

Lemma w_gate_ok s g gt : w_c s = l -> gate_map c !! g = Some gt -> w_gate h g s = (Ok gt, s).
Proof. intros Hs G. unfold w_gate, st_bind, w_circ, c_get_gate, st_lift. rewrite Hs, E, G. done. Qed.

Lemma ensure_ok fuel wog s a : claim fuel a -> pre wog s -> is_Some (gate_map c !! a) ->
  exists gls wog' s', ensure h (write_single h fuel) wog a s = (Ok wog', s') /\ step (touch c a) wog s gls wog' s' /\ has wog' a.
Proof using E.
  intros Hc Hp [gt G]. unfold ensure. destruct (wog !! a) as [w|] eqn:Ea.
  - exists [], wog, s. split; [done|]. split; [apply step_refl|by exists w].
  - destruct (Hc gt wog s G Hp) as (gls & wog' & s' & E1 & S1 & H1).
    { intros [w Hw]. congruence. }
    exists gls, wog', s'. split; [|done]. unfold st_bind. rewrite (w_gate_ok s a gt) by (done || apply Hp). exact E1.
Qed.
Lemma ensure_all_ok fuel ids : (forall a, a ∈ ids -> claim fuel a /\ is_Some (gate_map c !! a)) -> forall wog s, pre wog s ->
  exists gls wog' s', ensure_all h (write_single h fuel) wog ids s = (Ok wog', s') /\
    step (fun x => exists a, a ∈ ids /\ touch c a x) wog s gls wog' s' /\ (forall a, a ∈ ids -> has wog' a).
Proof using E.
  unfold ensure_all. induction ids as [|a r IH]; intros Hall wog s Hp.
  - exists [], wog, s. split; [done|]. split; [apply step_refl|]. intros a Ha. by apply elem_of_nil in Ha.
  - destruct (Hall a) as [Ca Ga]; [left|]. destruct (ensure_ok fuel wog s a Ca Hp Ga) as (g1 & w1 & s1 & E1 & S1 & H1).
    destruct (IH ltac:(intros; apply Hall; by right) w1 s1) as (g2 & w2 & s2 & E2 & S2 & H2); [by eapply pre_step|].
    exists (g1 ++ g2), w2, s2. split; [|split].
    + cbn [st_foldM]. unfold st_bind. rewrite E1. exact E2.
    + eapply step_trans; eapply step_mono; [|exact S1| |exact S2].
      * intros x Hx. exists a. split; [left|done].
      * intros x (a' & Ha' & T). exists a'. split; [by right|done].
    + intros a' [->|Ha']%elem_of_cons; [|auto]. eapply has_sub; [apply S2|done].
Qed.
(** Nothing happens when all are recorded. *)
Lemma ensure_all_id single ids wog s : (forall a, a ∈ ids -> has wog a) -> ensure_all h single wog ids s = (Ok wog, s).
Proof using.
  unfold ensure_all. induction ids as [|a r IH]; intros Hall; [done|]. cbn [st_foldM]. unfold st_bind, ensure.
  destruct (Hall a) as [w Hw]; [left|]. rewrite Hw. cbn [st_ret]. apply IH. intros. apply Hall. by right.
Qed.

(** The part of [write_single_gate] after the operands. *)
Definition rest (fuel : nat) (g : N) (gt : gate) (wog : wmap) : WM wmap :=
  match gt with
  | GNot a => x <- w_key wog a ;; update_wire g (Some [x]) (gate_to_str gt) wog
  | GXor a b | GAnd a b | GOr a b => x <- w_key wog a ;; y <- w_key wog b ;; update_wire g (Some [x; y]) (gate_to_str gt) wog
  | GModule _ ol ids oi mid => module_rest fuel g oi ol mid ids wog
  | _ => st_ret wog
  end.
Lemma single_rest fuel g gt wog s : is_logic gt = true \/ is_module gt = true ->
  write_single h (Datatypes.S fuel) g gt wog s = (wog' <- ensure_all h (write_single h fuel) wog (operands gt) ;; rest fuel g gt wog') s.
Proof using. intros Hk. by destruct gt; destruct Hk. Qed.

Lemma calls_of g il ol ids oi mid : gate_map c !! g = Some (GModule il ol ids oi mid) ->
  exists x l' m, h_stor h !! c_storage c = Some x /\ module_map x !! mid = Some l' /\ h_circ h !! l' = Some m /\ calls h c l'.
Proof.
  intros G. destruct (hi_calls h Hinv _ _ _ _ _ _ _ _ E G) as (x & l' & m & Ex & Em & El' & _). exists x, l', m.
  repeat (split; [done|]). exists g, il, ol, ids, oi, mid, x. done.
Qed.

Lemma rest_ok fuel g gt wog s : gate_map c !! g = Some gt -> is_logic gt = true \/ is_module gt = true -> (K <= fuel)%nat -> pre wog s ->
  (forall a, a ∈ operands gt -> has wog a) -> (forall x, x ∈ blk c g -> ~ has wog x) ->
  exists gls wog' s', rest fuel g gt wog s = (Ok wog', s') /\ step (touch c g) wog s gls wog' s' /\ has wog' g /\
    (is_logic gt = true -> length gls = 1%nat /\ wog' = <[g := w_num s]> wog) /\
    (forall il ol ids oi mid x l', gt = GModule il ol ids oi mid -> h_stor h !! c_storage c = Some x -> module_map x !! mid = Some l' -> tidy h l' ->
      ol <= N.of_nat (length gls) /\ forall j, j < ol -> wog' !! (g - oi + j) = Some (w_num s' - ol + j)).
Proof.
  intros G Hk Hf Hp Hops Hblk. pose proof (blk_self c W g gt G) as Hself.
  assert (Hlog : forall k ws, kind_of_gate gt = Some k -> Forall2 (fun a w => wog !! a = Some w) (operands gt) ws ->
    rest fuel g gt wog s = update_wire g (Some ws) (gate_to_str gt) wog s ->
    exists gls wog' s', rest fuel g gt wog s = (Ok wog', s') /\ step (touch c g) wog s gls wog' s' /\ has wog' g /\
    (is_logic gt = true -> length gls = 1%nat /\ wog' = <[g := w_num s]> wog) /\
    (forall il ol ids oi mid x l', gt = GModule il ol ids oi mid -> h_stor h !! c_storage c = Some x -> module_map x !! mid = Some l' -> tidy h l' ->
      ol <= N.of_nat (length gls) /\ forall j, j < ol -> wog' !! (g - oi + j) = Some (w_num s' - ol + j))).
  { intros k ws Kk F Er. destruct (logic_step wog s g gt k ws G Kk F (Hblk g Hself)) as [E1 S1].
    eexists _, _, _. split; [rewrite Er; exact E1|]. split; [exact S1|]. split; [unfold has; rewrite lookup_insert; by eexists|].
    split; [done|]. intros. subst gt. done. }
  destruct gt as [| |a|a b|a b|a b|il ol ids oi mid]; try (by destruct Hk).
  - destruct (Hops a) as [x Hx]; [left|]. apply (Hlog KInv [x]); [done|by repeat constructor|].
    cbn [rest]. unfold st_bind. by rewrite (w_key_ok wog a x s Hx).
  - destruct (Hops a) as [x Hx]; [left|]. destruct (Hops b) as [y Hy]; [right; left|]. apply (Hlog KXor [x; y]); [done|by repeat constructor|].
    cbn [rest]. unfold st_bind. by rewrite (w_key_ok wog a x s Hx), (w_key_ok wog b y s Hy).
  - destruct (Hops a) as [x Hx]; [left|]. destruct (Hops b) as [y Hy]; [right; left|]. apply (Hlog KAnd [x; y]); [done|by repeat constructor|].
    cbn [rest]. unfold st_bind. by rewrite (w_key_ok wog a x s Hx), (w_key_ok wog b y s Hy).
  - destruct (Hops a) as [x Hx]; [left|]. destruct (Hops b) as [y Hy]; [right; left|]. apply (Hlog KOr [x; y]); [done|by repeat constructor|].
    cbn [rest]. unfold st_bind. by rewrite (w_key_ok wog a x s Hx), (w_key_ok wog b y s Hy).
  - destruct (calls_of _ _ _ _ _ _ G) as (x & l' & m & Ex & Em & El' & Hcall).
    destruct (module_step fuel wog s g il ol ids oi mid x l' m G Ex Em El') as (gls & wog' & s' & E1 & S1 & H1 & T1);
      [by apply HK|apply Hp|apply Hp|done|done|].
    exists gls, wog', s'. split; [done|]. split; [done|]. split; [by apply H1|]. split; [done|].
    intros il2 ol2 ids2 oi2 mid2 x2 l2 Eg Ex2 Em2 HT. simplify_eq. auto.
Qed.

Lemma claim_ok g : forall fuel, (K + N.to_nat g < fuel)%nat -> claim fuel g.
Proof.
  induction (N.lt_wf_0 g) as [g _ IH]. intros fuel Hf gt wog s G Hp Hg.
  destruct fuel as [|fuel]; [lia|].
  assert (Hk : is_logic gt = true \/ is_module gt = true).
  { destruct gt; try (by left); try (by right); destruct Hg; eapply (pre_base _ _ Hp); eauto. }
  assert (Hsl : start c g <= g) by (by eapply start_lt).
  destruct (ensure_all_ok fuel (operands gt)) with (wog := wog) (s := s) as (g1 & w1 & s1 & E1 & S1 & H1); [|done|].
  { intros a Ha. pose proof (operand_lt_start h c Cd g gt a G Ha). split; [|by eapply (operand_exists h l c Hinv E Cd)].
    apply IH; lia. }
  destruct (rest_ok fuel g gt w1 s1 G Hk) as (g2 & w2 & s2 & E2 & S2 & H2 & _); [lia|by eapply pre_step|done| |].
  { intros x Hx Hw. destruct (st_touch _ _ _ _ _ _ S1 x Hw) as [Hw0|(a & Ha & T)].
    - destruct Hg. destruct (blk_member c W g gt x G Hx) as (gx & Gx & _ & _ & Bx & _).
      destruct (pre_closed _ _ Hp x gx Hw0 Gx) as [_ Hb]. apply Hb. rewrite Bx. by eapply blk_self.
    - by eapply (touch_not_blk h l c Hinv E Cd g gt a x). }
  exists (g1 ++ g2), w2, s2. split; [|split; [|done]].
  - rewrite single_rest by done. unfold st_bind. rewrite E1. exact E2.
  - eapply step_trans; [|exact S2]. eapply step_mono; [|exact S1]. intros x (a & Ha & T). by eapply touch_oper.
Qed.

(** * A whole circuit *)
Lemma foldM_app {S A B} (f : B -> A -> ST S B) xs ys a s b s' : st_foldM f a xs s = (Ok b, s') -> st_foldM f a (xs ++ ys) s = st_foldM f b ys s'.
Proof using.
  revert a s. induction xs as [|x xs IH]; intros a s H; [by injection H as -> ->|].
  cbn [st_foldM app] in *. unfold st_bind in *. destruct (f a x s) as [[] ?]; try done. by apply IH.
Qed.

Definition const_at' (x : N) : Prop := exists b, gate_map c !! x = Some (GConst b).
Lemma const_step wog s id b : w_c s = l -> gate_map c !! id = Some (GConst b) -> ~ has wog id ->
  exists s', write_const h wog id s = (Ok (<[id := w_const s]> wog), s') /\ step const_at' wog s [] (<[id := w_const s]> wog) s'.
Proof.
  intros Hs G Hid. eexists. split.
  { unfold write_const, st_bind. rewrite (w_gate_ok s id (GConst b)) by done. cbn [w_get w_set_cow w_set_const st_ret w_c w_num w_const w_out w_cow]. reflexivity. }
  assert (Hbl : blk c id = [id]) by (by eapply blk_logic). assert (Hst : start c id = id) by (by eapply start_logic).
  assert (Hh : forall x, has (<[id := w_const s]> wog) x <-> has wog x \/ x ∈ blk c id) by (intros x; rewrite Hbl; apply insert_has).
  assert (Hn : forall x, x ∈ blk c id -> ~ has wog x) by (intros x; rewrite Hbl, elem_of_list_singleton; by intros ->).
  assert (Hcost : forall own f, cost own f (<[id := w_const s]> wog) = cost own f wog + if own (GConst b) then 1 else 0).
  { intros own f. rewrite (cost_add own f wog _ id _ G Hh Hn), Hst. unfold weight. by rewrite G. }
  split.
  - split; cbn [w_c w_num w_const w_out w_cow]; try done.
    + by rewrite app_nil_r.
    + simpl. lia.
    + lia.
    + intros I. apply insert_subseteq. apply eq_None_not_Some. intros Hw%I. lia.
    + intros w. unfold between. destruct (decide (w = w_const s)) as [-> |Hw].
      * rewrite lookup_insert. split; [intros _; right; lia|]. intros _. by eexists.
      * rewrite lookup_insert_ne by done. split; [by left|]. intros [?|?]; [done|lia].
    + intros w [x Hx]. apply lookup_insert_Some in Hx as [[_ <-]|[_ Hx] ]; [right; left; split; lia|]. left. by exists x.
  - intros q ρ e I Hc Hb Hcons R. exists e. split; [done|]. split; [done|]. cbn [w_cow] in Hcons.
    intros x w Hx. apply lookup_insert_Some in Hx as [[<- <-]|[_ Hx] ]; [|auto].
    exists b. split; [apply Hcons, lookup_insert|]. by eapply gv_const.
  - by apply insert_sub.
  - intros Hcl x gx Hx Gx. apply insert_has in Hx as [Hx|Hx%elem_of_list_singleton].
    + destruct (Hcl x gx Hx Gx) as [H1 H2]. split; intros y Hy; apply insert_has; left; auto.
    + subst x. rewrite G in Gx. injection Gx as <-. split; [intros a Ha; by apply elem_of_nil in Ha|]. intros y. rewrite Hbl. intros Hy. apply insert_has. by right.
  - intros x Hx. apply insert_has in Hx as [Hx|Hx%elem_of_list_singleton]; [by left|]. right. subst x. by exists b.
  - rewrite Hcost. cbn. lia.
  - rewrite Hcost. cbn. lia.
  - intros _. rewrite Hcost. cbn. lia.
  - intros _. rewrite Hcost. cbn. lia.
  - intros F1 F2 HR. destruct (HR id ltac:(apply insert_has; right; left) _ G) as (Hown & _ & _). destruct (Hown eq_refl) as [HG HC]. cbn in HG, HC.
    assert (Hadd : forall F0, rate F0 (<[id := w_const s]> wog) = rate F0 wog + F0 id).
    { intros F0. rewrite <- Hst at 2. apply (rate_add F0 wog _ id _ G Hh Hn). intros x gx. rewrite Hbl, elem_of_list_singleton.
      intros -> Gx. rewrite G in Gx. by injection Gx as <-. }
    rewrite !Hadd, HG, HC. cbn [w_num w_const]. lia.
Qed.
Lemma consts_ok ids : forall wog s, NoDup ids -> w_c s = l -> (forall x, x ∈ ids -> const_at' x /\ ~ has wog x) ->
  exists wog' s', st_foldM (write_const h) wog ids s = (Ok wog', s') /\ step const_at' wog s [] wog' s' /\ (forall x, x ∈ ids -> has wog' x).
Proof.
  induction ids as [|x r IH]; intros wog s Hnd Hs Hall.
  - exists wog, s. split; [done|]. split; [apply step_refl|]. intros x Hx. by apply elem_of_nil in Hx.
  - apply NoDup_cons in Hnd as [Hx Hnd]. destruct (Hall x) as [(b & Gb) Hw]; [left|].
    destruct (const_step wog s x b Hs Gb Hw) as (s1 & E1 & S1).
    destruct (IH (<[x := w_const s]> wog) s1 Hnd) as (w2 & s2 & E2 & S2 & H2).
    { by rewrite (em_c _ _ _ _ _ (st_emit _ _ _ _ _ _ S1)). }
    { intros y Hy. destruct (Hall y) as [Hc Hn]; [by right|]. split; [done|]. intros [H|H%elem_of_list_singleton]%insert_has; [done|]. by subst y. }
    exists w2, s2. split; [cbn [st_foldM]; unfold st_bind; rewrite E1; exact E2|]. split; [by apply (step_trans _ _ _ [] _ _ [] _ _ S1 S2)|].
    intros y [->|Hy]%elem_of_cons; [|auto]. eapply has_sub; [apply S2|]. apply insert_has. right. left.
Qed.

Definition outs_of (ks : list N) (outs : list (N * gate)) : Prop :=
  Forall2 (fun k p => output_map c !! k = Some p.1 /\ gate_map c !! p.1 = Some p.2) ks outs.
Definition under (x : N) : Prop := exists k o gt a, output_map c !! k = Some o /\ gate_map c !! o = Some gt /\ a ∈ operands gt /\ touch c a x.

Lemma pass1_ok fuel : (K + N.to_nat (gate_index c) < fuel)%nat -> forall ks wog s acc, (forall k, k ∈ ks -> k < output_len c) -> pre wog s ->
  exists gls wog' s' outs, st_foldM (write_pass1 h (write_single h fuel)) (wog, acc) ks s = (Ok (wog', acc ++ outs), s') /\
    step under wog s gls wog' s' /\ outs_of ks outs /\ (forall p a, p ∈ outs -> a ∈ operands p.2 -> has wog' a).
Proof.
  intros Hf. induction ks as [|k r IH]; intros wog s acc Hks Hp.
  - exists [], wog, s, []. rewrite app_nil_r. split; [done|]. split; [apply step_refl|]. split; [constructor|]. intros p a Hin. by apply elem_of_nil in Hin.
  - destruct (wf_outputs c W k) as (o & Eo & gt & G); [apply Hks; left|].
    destruct (ensure_all_ok fuel (operands gt)) with (wog := wog) (s := s) as (g1 & w1 & s1 & E1 & S1 & H1); [|done|].
    { intros a Ha. destruct (operand_exists h l c Hinv E Cd o gt a G Ha) as [ga Ga]. split; [|by eexists].
      apply claim_ok. pose proof (gm_lt c a ga W Ga). lia. }
    assert (Hstep : write_pass1 h (write_single h fuel) (wog, acc) k s = (Ok (w1, acc ++ [(o, gt)]), s1)).
    { unfold write_pass1. unfold st_bind at 1. unfold w_circ. rewrite (pre_c _ _ Hp), E. unfold st_bind at 1. unfold c_output_to_gate_id, st_lift. rewrite Eo.
      unfold st_bind at 1. unfold c_get_gate. rewrite G. cbn [fst snd]. destruct gt; unfold st_bind, st_ret; cbn [operands] in E1; rewrite ?E1; try done.
      - by injection E1 as -> ->. - by injection E1 as -> ->. }
    destruct (IH w1 s1 (acc ++ [(o, gt)])) as (g2 & w2 & s2 & outs & E2 & S2 & F2 & H2); [intros; apply Hks; by right|by eapply pre_step|].
    exists (g1 ++ g2), w2, s2, ((o, gt) :: outs). split; [|split; [|split]].
    + cbn [st_foldM]. unfold st_bind. rewrite Hstep, E2. by rewrite <- app_assoc.
    + eapply step_trans; [|exact S2]. eapply step_mono; [|exact S1]. intros x (a & Ha & T). exists k, o, gt, a. done.
    + by constructor.
    + intros p a [->|Hin]%elem_of_cons Ha; [|by eapply H2]. eapply has_sub; [apply S2|]. by apply H1.
Qed.

Definition outside (x : N) : Prop := exists k o, output_map c !! k = Some o /\ touch c o x.
Lemma pass2_ok fuel : (K + N.to_nat (gate_index c) < fuel)%nat -> forall ks outs, outs_of ks outs -> forall wog s, pre wog s ->
  exists gls wog' s', st_foldM (write_pass2 (write_single h fuel)) wog outs s = (Ok wog', s') /\ step outside wog s gls wog' s' /\
    (forall p, p ∈ outs -> has wog' p.1).
Proof.
  intros Hf ks outs F. induction F as [|k p ks outs [Eo G] _ IH]; intros wog s Hp.
  - exists [], wog, s. split; [done|]. split; [apply step_refl|]. intros p Hin. by apply elem_of_nil in Hin.
  - assert (exists g1 w1 s1, write_pass2 (write_single h fuel) wog p s = (Ok w1, s1) /\ step outside wog s g1 w1 s1 /\ has w1 p.1) as (g1 & w1 & s1 & E1 & S1 & H1).
    { unfold write_pass2. destruct (wog !! p.1) as [w|] eqn:Ew.
      - exists [], wog, s. split; [done|]. split; [apply step_refl|by exists w].
      - destruct (claim_ok p.1 fuel) with (gt := p.2) (wog := wog) (s := s) as (g1 & w1 & s1 & E1 & S1 & H1); try done.
        { pose proof (gm_lt c _ _ W G). lia. } { intros [w Hw]. congruence. }
        exists g1, w1, s1. split; [done|]. split; [|done]. eapply step_mono; [|exact S1]. intros x T. exists k, p.1. done. }
    destruct (IH w1 s1) as (g2 & w2 & s2 & E2 & S2 & H2); [by eapply pre_step|].
    exists (g1 ++ g2), w2, s2. split; [cbn [st_foldM]; unfold st_bind; rewrite E1; exact E2|]. split; [by eapply step_trans|].
    intros p' [->|Hin]%elem_of_cons; [|auto]. eapply has_sub; [apply S2|done].
Qed.

(** Logic outputs that are not recorded yet get consecutive numbers. *)
Lemma pass2_tail fuel : (K <= fuel)%nat -> forall outs wog s, pre wog s -> NoDup (map fst outs) ->
  (forall p, p ∈ outs -> gate_map c !! p.1 = Some p.2 /\ is_logic p.2 = true /\ (forall a, a ∈ operands p.2 -> has wog a) /\ ~ has wog p.1) ->
  exists gls wog' s', st_foldM (write_pass2 (write_single h (Datatypes.S fuel))) wog outs s = (Ok wog', s') /\
    step (fun _ => True) wog s gls wog' s' /\ length gls = length outs /\ (forall i p, outs !! i = Some p -> wog' !! p.1 = Some (w_num s + N.of_nat i)).
Proof.
  intros Hf. induction outs as [|p outs IH]; intros wog s Hp Hnd Hall.
  - exists [], wog, s. split; [done|]. split; [apply step_refl|]. done.
  - cbn [map] in Hnd. apply NoDup_cons in Hnd as [Hpn Hnd]. destruct (Hall p) as (G & Hl & Hops & Hn); [left|].
    destruct (rest_ok fuel p.1 p.2 wog s G) as (g1 & w1 & s1 & E1 & S1 & _ & L1 & _); [by left|done|done|done| |].
    { intros x. rewrite (blk_logic p.1 p.2 G) by (by destruct (p.2)). rewrite elem_of_list_singleton. by intros ->. }
    destruct (L1 Hl) as [Hlen ->].
    assert (E1' : write_pass2 (write_single h (Datatypes.S fuel)) wog p s = (Ok (<[p.1 := w_num s]> wog), s1)).
    { unfold write_pass2. destruct (wog !! p.1) as [w|] eqn:Ew; [destruct Hn; by exists w|].
      rewrite single_rest by (by left). unfold st_bind. rewrite ensure_all_id by done. exact E1. }
    destruct (IH (<[p.1 := w_num s]> wog) s1) as (g2 & w2 & s2 & E2 & S2 & L2 & P2); [by eapply pre_step|done| |].
    { intros p' Hp'. destruct (Hall p') as (G' & Hl' & Hops' & Hn'); [by right|]. split; [done|]. split; [done|]. split.
      - intros a Ha. apply insert_has. left. auto.
      - intros [H|H%elem_of_list_singleton]%insert_has; [done|]. apply Hpn. rewrite <- H. apply elem_of_list_fmap. by exists p'. }
    exists (g1 ++ g2), w2, s2. split; [cbn [st_foldM]; unfold st_bind; rewrite E1'; exact E2|]. split; [|split].
    + eapply step_trans; [|exact S2]. eapply step_mono; [|exact S1]. done.
    + rewrite app_length, Hlen, L2. done.
    + pose proof (em_num _ _ _ _ _ (st_emit _ _ _ _ _ _ S1)) as N1. rewrite Hlen in N1. intros i p' Hi. destruct i as [|i].
      * injection Hi as <-. rewrite N.add_0_r. eapply lookup_weaken; [|apply S2]. by rewrite lookup_insert.
      * rewrite (P2 i p' Hi). f_equal. lia.
Qed.
Lemma pass2_skip single outs wog s : (forall p, p ∈ outs -> has wog p.1) -> st_foldM (write_pass2 single) wog outs s = (Ok wog, s).
Proof using.
  induction outs as [|p outs IH]; intros H; [done|]. cbn [st_foldM]. unfold st_bind, write_pass2. destruct (H p) as [w Hw]; [left|].
  rewrite Hw. cbn [st_ret]. apply IH. intros. apply H. by right.
Qed.

Lemma touch_closed' wog g x : closed wog -> has wog g -> touch c g x -> has wog x.
Proof using.
  intros Hc Hg T. induction T as [g x Hx|g gt a x G A T IH].
  - destruct (gate_map c !! g) as [gt|] eqn:G; [by eapply Hc|]. unfold blk in Hx. rewrite G in Hx. by apply elem_of_list_singleton in Hx as ->.
  - apply IH. by apply (proj1 (Hc g gt Hg G)).
Qed.
Lemma touch_inv g x : touch c g x -> x ∈ blk c g \/ exists gt a, gate_map c !! g = Some gt /\ a ∈ operands gt /\ touch c a x.
Proof using. intros T. inversion T; subst; eauto 8. Qed.
(** A gate without consumers is needed by no other. *)
Lemma touch_oper_dep a x d gt : gate_map c !! d = Some gt -> a ∈ operands gt -> touch c a x ->
  exists a' d' gt', gate_map c !! d' = Some gt' /\ a' ∈ operands gt' /\ x ∈ blk c a'.
Proof using.
  intros G A T. revert d gt G A. induction T as [g x Hx|g gt a x G A T IH]; intros d gt' G' A'.
  - by exists g, d, gt'.
  - exact (IH g gt G A).
Qed.
Lemma operand_deps d gt a : gate_map c !! d = Some gt -> a ∈ operands gt -> deps c a <> [].
Proof. intros G A Hd. assert (d ∈ deps c a) as Hin by (apply (deps_in c W); eauto). rewrite Hd in Hin. by apply elem_of_nil in Hin. Qed.

Lemma write_all_ok fuel : (K + N.to_nat (gate_index c) + 1 < fuel)%nat -> wa_spec h fuel l c.
Proof.
  intros Hf new s Hs I Hnew.
  assert (Hcg : forall x, x ∈ const_gates c <-> const_at' x).
  { intros x. rewrite (wf_consts c W), elem_of_list_In, filter_In, <- elem_of_list_In, elem_of_nrange. unfold const_at, const_at'. split.
    - intros [_ H]. destruct (gate_map c !! x) as [[]|]; try done. by eexists.
    - intros [b Gb]. rewrite Gb. split; [by eapply gm_lt|done]. }
  assert (Hcnd : NoDup (const_gates c)). { rewrite (wf_consts c W). apply NoDup_ListNoDup, List.NoDup_filter, NoDup_ListNoDup, NoDup_nrange. }
  destruct (consts_ok (const_gates c) new s Hcnd Hs) as (w1 & s1 & E1 & S1 & H1).
  { intros x Hx. apply Hcg in Hx. split; [done|]. intros [w Gw]%Hnew. destruct Hx as [b Gb]. congruence. }
  assert (Hp1 : pre w1 s1).
  { pose proof (em_c _ _ _ _ _ (st_emit _ _ _ _ _ _ S1)). split.
    - congruence.
    - eapply cowinv_emit; [apply S1|done].
    - apply S1. intros g gt Hg G. apply Hnew in Hg as Hg'. destruct Hg' as [w Gw]. rewrite G in Gw. injection Gw as ->. split.
      + intros a Ha. by apply elem_of_nil in Ha.
      + intros x. rewrite (blk_logic g _ G eq_refl), elem_of_list_singleton. by intros ->.
    - intros g gt G [Hc|[w ->] ].
      + destruct gt; try done. apply H1, Hcg. by eexists.
      + eapply has_sub; [apply S1|]. apply Hnew. by eexists. }
  destruct (pass1_ok fuel ltac:(lia) (nrange (output_len c)) w1 s1 []) as (g2 & w2 & s2 & outs & E2 & S2 & F2 & H2);
    [intros k Hk; by apply elem_of_nrange in Hk|done|].
  assert (Hp2 : pre w2 s2) by (by eapply pre_step).
  destruct (pass2_ok fuel ltac:(lia) _ outs F2 w2 s2 Hp2) as (g3 & w3 & s3 & E3 & S3 & H3).
  assert (Hp3 : pre w3 s3) by (by eapply pre_step).
  assert (Eall : write_all h (write_single h fuel) new s = (Ok w3, s3)).
  { unfold write_all. unfold st_bind at 1. unfold w_circ. rewrite Hs, E. unfold st_bind at 1. unfold c_get_const_gates. rewrite E1.
    unfold st_bind at 1. rewrite E2. cbn [app]. exact E3. }
  assert (S : step (fun _ => True) new s (g2 ++ g3) w3 s3).
  { apply (step_trans _ _ _ [] w1 s1); [by eapply step_mono; [|exact S1]|]. eapply step_trans; [by eapply step_mono; [|exact S2]|by eapply step_mono; [|exact S3]]. }
  assert (Houts : forall k o, output_map c !! k = Some o -> has w3 o).
  { intros k o Ho. assert (k < output_len c). { destruct (decide (k < output_len c)); [done|]. rewrite (wf_outputs_none c W) in Ho by lia. done. }
    destruct (Forall2_lookup_l _ _ _ (N.to_nat k) k F2) as (p & Hp & Eo & _).
    { rewrite nrange_lookup, decide_True by lia. f_equal. lia. }
    simplify_eq. apply H3. by eapply elem_of_list_lookup_2. }
  assert (Hc0 : forall own f, (forall w, own (GInput w) = false) -> cost own f new = 0).
  { intros own f Hown. apply nsum_zero. intros x _. destruct decide as [Hx|]; [|done]. apply Hnew in Hx as [w Gw]. unfold weight. by rewrite Gw, Hown. }
  destruct (CI l c E) as [CG CC].
  exists (g2 ++ g3), w3, s3. split; [exact Eall|]. split; [apply S|]. split; [apply S|]. split; [exact Houts|]. split; [apply S|].
  pose proof (em_num _ _ _ _ _ (st_emit _ _ _ _ _ _ S)) as N3.
  assert (Hg0 : cost is_logic num_gate new = 0) by (by apply Hc0). assert (Hcn0 : cost is_const num_const new = 0) by (by apply Hc0).
  assert (Hused : forall g gt, gate_map c !! g = Some gt -> is_logic gt = true \/ is_module gt = true -> (has w3 g <-> used c g)).
  { intros g gt G Hk. split.
    - intros Hw. destruct (st_touch _ _ _ _ _ _ S3 g Hw) as [Hw2|Hw2]; [|done].
      destruct (st_touch _ _ _ _ _ _ S2 g Hw2) as [Hw1|(k & o & gt' & a & Eo & Go & Ha & T)]; [|exists k, o; split; [done|by eapply touch_oper]].
      destruct (st_touch _ _ _ _ _ _ S1 g Hw1) as [Hw0|[b Gb] ]; [|rewrite G in Gb; injection Gb as ->; by destruct Hk].
      apply Hnew in Hw0 as [w Gw]. rewrite G in Gw. injection Gw as ->. by destruct Hk.
    - intros (k & o & Eo & T). eapply touch_closed'; [apply Hp3|by eapply Houts|done]. }
  split; [|split; [|split; [|split; [|split] ] ] ].
  - pose proof (st_ng _ _ _ _ _ _ S). pose proof (cost_le is_logic num_gate w3). lia.
  - pose proof (st_nc _ _ _ _ _ _ S). pose proof (cost_le is_const num_const w3). lia.
  - intros HF. inversion HF as [l0 c0 E0 HFg HFc Hl0]. subst l0. rewrite E in E0. injection E0 as <-.
    pose proof (st_ng_full _ _ _ _ _ _ S HFc) as SG. pose proof (st_nc_full _ _ _ _ _ _ S HFc) as SC.
    assert (Hhas : forall g gt, gate_map c !! g = Some gt -> is_logic gt = true \/ is_module gt = true -> has w3 g).
    { intros g gt G Hk. destruct (HFg g gt G Hk) as (k & o & Eo & T). eapply touch_closed'; [apply Hp3|by eapply Houts|done]. }
    rewrite (cost_all is_logic num_gate w3) in SG.
    2:{ intros g Hg Hn. unfold weight. destruct (gate_map c !! g) as [[]|] eqn:G; try done; destruct Hn; eapply Hhas; eauto. }
    rewrite (cost_all is_const num_const w3) in SC.
    2:{ intros g Hg Hn. unfold weight. destruct (gate_map c !! g) as [[]|] eqn:G; try done; destruct Hn; [|by eapply Hhas; eauto].
        eapply (pre_base _ _ Hp3); eauto. }
    lia.
  - intros n k HN. inversion HN as [l0 c0 FG FK E0 NA NB NC El0 En Ek]. subst l0. rewrite E in E0. injection E0 as <-.
    assert (Hdense : forall g, g < gate_index c -> is_Some (gate_map c !! g)) by (intros g Hg; by apply (wf_gates c W)).
    destruct (st_need _ _ _ _ _ _ S FG FK) as [SG SC].
    { intros g Hw gt G. split; [|split].
      - intros Hm. destruct (NA g gt G Hm) as (H11 & H12 & H13). split; [|done]. destruct (is_logic gt) eqn:El; [|auto].
        apply H11; [done|]. apply (Hused g gt G); [by left|done].
      - intros Hoi. destruct gt; try done. eapply NB; [done|by left].
      - intros il ol ids mid x l' -> Ex Em. eapply NC; eauto. apply (Hused g _ G); [by right|done]. }
    assert (rate FG new = 0) as Z1.
    { apply nsum_zero. intros x _. destruct decide as [Hx|]; [|done]. apply Hnew in Hx as [w Gw]. apply (NA x _ Gw eq_refl). by left. }
    assert (rate FK new = 0) as Z2.
    { apply nsum_zero. intros x _. destruct decide as [Hx|]; [|done]. apply Hnew in Hx as [w Gw]. apply (NA x _ Gw eq_refl). }
    assert (rate FG w3 = Counts.nsum (map FG (nrange (gate_index c)))) as R1.
    { apply nsum_ext. intros x Hx%elem_of_nrange. destruct decide as [|Hw]; [done|]. destruct (Hdense x Hx) as [gt G].
      destruct (is_module gt) eqn:Em.
      - destruct gt; try done. destruct (NB x _ _ _ _ _ G) as [-> _]; [|done]. right. intros Hu. apply Hw, (Hused x _ G); [by right|done].
      - destruct (NA x gt G Em) as (_ & H12 & _). rewrite H12; [done|]. destruct (is_logic gt) eqn:El; [right|by left].
        intros Hu. apply Hw, (Hused x _ G); [by left|done]. }
    assert (rate FK w3 = Counts.nsum (map FK (nrange (gate_index c)))) as R2.
    { apply nsum_ext. intros x Hx%elem_of_nrange. destruct decide as [|Hw]; [done|]. destruct (Hdense x Hx) as [gt G].
      destruct (is_module gt) eqn:Em.
      - destruct gt; try done. destruct (NB x _ _ _ _ _ G) as [_ ->]; [|done]. right. intros Hu. apply Hw, (Hused x _ G); [by right|done].
      - destruct (NA x gt G Em) as (_ & _ & ->). destruct (is_const gt) eqn:Ek0; [|done]. destruct Hw. eapply (pre_base _ _ Hp3); eauto. }
    lia.
  - exact Hused.
  - intros HT. inversion HT as [l0 c0 n E0 Hn HTl HTd HTu HTm Hl0]. subst l0. rewrite E in E0. injection E0 as <-.
    destruct fuel as [|fuel]; [lia|].
    assert (Hlook : forall i p, outs !! i = Some p -> (N.of_nat i < output_len c) /\ output_map c !! N.of_nat i = Some p.1 /\ gate_map c !! p.1 = Some p.2).
    { intros i p Hi. destruct (Forall2_lookup_r _ _ _ _ _ F2 Hi) as (k & Hk & Eo & G). rewrite nrange_lookup in Hk. destruct decide; [|done].
      injection Hk as <-. done. }
    assert (Hlen : length outs = N.to_nat (output_len c)). { rewrite <- (Forall2_length _ _ _ F2). apply nrange_length. }
    (* no output is recorded before the second pass *)
    assert (Hno : forall k o gt, output_map c !! k = Some o -> gate_map c !! o = Some gt -> is_logic gt = true \/ is_module gt = true ->
      (forall x, x ∈ blk c o -> deps c x = []) -> ~ has w2 o).
    { intros k o gt Eo G Hk Hd Hw. destruct (st_touch _ _ _ _ _ _ S2 o Hw) as [Hw1|(k' & o' & g' & a & Eo' & G' & Ha & T)].
      - destruct (st_touch _ _ _ _ _ _ S1 o Hw1) as [Hw0|[b Gb] ].
        + apply Hnew in Hw0 as [w Gw]. rewrite G in Gw. injection Gw as ->. by destruct Hk.
        + rewrite G in Gb. injection Gb as ->. by destruct Hk.
      - destruct (touch_oper_dep a o o' g' G' Ha T) as (a' & d & gd & Gd & Had & Hob).
        apply (operand_deps d gd a' Gd Had). apply Hd. destruct (operand_exists h l c Hinv E Cd d gd a' Gd Had) as [ga Ga].
        destruct (blk_member c W a' ga o Ga Hob) as (g2' & G2' & _ & _ & Bl & _). rewrite Bl. by eapply blk_self. }
    assert (Hsplit : outs = take (N.to_nat n) outs ++ drop (N.to_nat n) outs) by (by rewrite take_drop).
    assert (exists gm wm sm, st_foldM (write_pass2 (write_single h (Datatypes.S fuel))) w2 (take (N.to_nat n) outs) s2 = (Ok wm, sm) /\
      step outside w2 s2 gm wm sm /\ n <= N.of_nat (length gm) /\ (forall k o, k < n -> output_map c !! k = Some o -> wm !! o = Some (w_num sm - n + k)) /\
      (forall k o, n <= k -> output_map c !! k = Some o -> ~ has wm o)) as (gm & wm & sm & Em & Sm & Lm & Pm & Qm).
    { assert (HQ2 : forall k o, n <= k -> output_map c !! k = Some o -> ~ has w2 o).
      { intros k o Hk Eo. destruct (HTl k o Hk Eo) as (gt & G & Hlg). eapply Hno; eauto. intros x.
        rewrite (blk_logic o gt G) by (by destruct gt). rewrite elem_of_list_singleton. intros ->. by eapply HTu. }
      destruct HTm as [-> |(g & il & ids & mid & x & l' & G & Hblock & Ex & Emm & HT')].
      - exists [], w2, s2. split; [done|]. split; [apply step_refl|]. split; [simpl; lia|]. split; [lia|done].
      - destruct (decide (n = 0)) as [-> |Hn0].
        { exists [], w2, s2. split; [done|]. split; [apply step_refl|]. split; [simpl; lia|]. split; [lia|done]. }
        destruct (outs !! 0%nat) as [p|] eqn:Hp0; [|apply lookup_ge_None in Hp0; lia].
        destruct (Hlook 0%nat p Hp0) as (_ & Eo0 & G0). rewrite Hblock in Eo0 by lia. rewrite N.add_0_r in Eo0. injection Eo0 as Ep.
        rewrite <- Ep, G in G0. injection G0 as Ep2.
        assert (Hbd : forall y, y ∈ blk c g -> deps c y = []).
        { intros y Hy. apply (blk_module _ _ _ _ _ _ _ G) in Hy. apply (HTu (y - g)). rewrite Hblock by lia. f_equal. lia. }
        assert (Hbn : forall y, y ∈ blk c g -> ~ has w2 y).
        { intros y Hy Hw. destruct (blk_member c W g _ y G Hy) as (gy & Gy & _ & _ & By & _ & My & _).
          apply (Hno 0 g _ ltac:(rewrite Hblock by lia; f_equal; lia) G ltac:(by right) Hbd).
          apply (pre_closed _ _ Hp2 y gy Hw Gy). rewrite By. by eapply blk_self. }
        destruct (rest_ok fuel g _ w2 s2 G ltac:(by right) ltac:(lia) Hp2) as (gm & wm & sm & Er & Sr & Hr & _ & Tr); [|done|].
        { intros a Ha. eapply (H2 p a); [by eapply elem_of_list_lookup_2|]. by rewrite <- Ep2. }
        destruct (Tr _ _ _ _ _ x l' eq_refl Ex Emm HT') as [Tl Tp].
        exists gm, wm, sm.
        assert (Htk : take (N.to_nat n) outs = p :: drop 1 (take (N.to_nat n) outs)).
        { destruct outs as [|p0 outs0]; [done|]. injection Hp0 as ->. destruct (N.to_nat n) eqn:En; [lia|]. done. }
        split; [|split; [|split; [done|split]]].
        + rewrite Htk. cbn [st_foldM]. unfold st_bind.
          assert (write_pass2 (write_single h (Datatypes.S fuel)) w2 p s2 = (Ok wm, sm)) as ->.
          { unfold write_pass2. destruct (w2 !! p.1) as [w|] eqn:Ew.
            - exfalso. apply (Hbn g); [by eapply blk_self|]. rewrite Ep. by exists w.
            - rewrite <- Ep, <- Ep2. rewrite single_rest by (by right). unfold st_bind. rewrite ensure_all_id; [exact Er|].
              intros a Ha. eapply (H2 p a); [by eapply elem_of_list_lookup_2|]. by rewrite <- Ep2. }
          apply pass2_skip. intros p' Hp'. apply elem_of_list_lookup in Hp' as [i Hi]. rewrite lookup_drop in Hi.
          apply lookup_take_Some in Hi as [Hi Hlt].
          destruct (Hlook _ _ Hi) as (_ & Eo' & _). rewrite Hblock in Eo' by lia. injection Eo' as Ep'. rewrite <- Ep'.
          assert (has wm (g - 0 + N.of_nat (1 + i))) as Hh. { unfold has. rewrite Tp by lia. by eexists. }
          by rewrite N.sub_0_r in Hh.
        + eapply step_mono; [|exact Sr]. intros y T. exists 0, g. split; [rewrite Hblock by lia; f_equal; lia|done].
        + intros k o Hk Eo. rewrite Hblock in Eo by done. injection Eo as <-. rewrite <- (Tp k Hk). f_equal. lia.
        + intros k o Hk Eo Hw. destruct (st_touch _ _ _ _ _ _ Sr o Hw) as [Hw2|T]; [by eapply HQ2|].
          destruct (touch_inv _ _ T) as [Hx|(gt' & a & G' & Ha & T')].
          * apply (blk_module _ _ _ _ _ _ _ G) in Hx. assert (output_map c !! (o - g) = Some o) as Eo2. { rewrite Hblock by lia. f_equal. lia. }
            pose proof (HTd _ _ _ Eo Eo2). lia.
          * destruct (HTl k o Hk Eo) as (gt & Go & Hlg).
            destruct (touch_oper_dep a o g gt' G' Ha T') as (a' & d & gd & Gd & Had & Hob).
            destruct (operand_exists h l c Hinv E Cd d gd a' Gd Had) as [ga Ga].
            destruct (blk_member c W a' ga o Ga Hob) as (g2' & G2' & _ & _ & Bl & _ & Mo & Mo').
            rewrite Go in G2'. injection G2' as <-. assert (is_module gt = false) as Hmf by (by destruct gt). rewrite Hmf in Mo.
            assert (o ∈ blk c a') as Hob' by done. rewrite (blk_logic a' ga Ga (eq_sym Mo)), elem_of_list_singleton in Hob'. subst a'.
            apply (operand_deps d gd o Gd Had). by eapply HTu. }
    assert (Hpm : pre wm sm) by exact (pre_step _ _ _ _ _ _ Hp2 Sm).
    destruct (pass2_tail fuel ltac:(lia) (drop (N.to_nat n) outs) wm sm Hpm) as (gt & wt & st' & Et & Stt & Lt & Pt).
    { apply NoDup_alt. intros i j y Hi Hj. rewrite list_lookup_fmap in Hi, Hj. rewrite lookup_drop in Hi, Hj.
      destruct (outs !! (N.to_nat n + i)%nat) as [pi|] eqn:Ei; [|done]. destruct (outs !! (N.to_nat n + j)%nat) as [pj|] eqn:Ej; [|done].
      destruct (Hlook _ _ Ei) as (_ & Oi & _). destruct (Hlook _ _ Ej) as (_ & Oj & _). simpl in Hi, Hj. injection Hi as Hi. injection Hj as Hj.
      rewrite Hi in Oi. rewrite Hj in Oj. pose proof (HTd _ _ _ Oi Oj). lia. }
    { intros p Hin. apply elem_of_list_lookup in Hin as [i Hi]. rewrite lookup_drop in Hi. destruct (Hlook _ _ Hi) as (_ & Oi & Gi).
      destruct (HTl (N.of_nat (N.to_nat n + i)) p.1 ltac:(lia) Oi) as (gt & G & Hlg). rewrite Gi in G. injection G as <-. split; [done|]. split; [done|]. split.
      - intros a Ha. eapply has_sub; [apply Sm|]. eapply H2; [by eapply elem_of_list_lookup_2|done].
      - eapply Qm; [|exact Oi]. lia. }
    assert (Efin : st_foldM (write_pass2 (write_single h (Datatypes.S fuel))) w2 outs s2 = (Ok wt, st')).
    { rewrite Hsplit. erewrite foldM_app by exact Em. exact Et. }
    rewrite E3 in Efin. injection Efin as <- <-.
    pose proof (em_num _ _ _ _ _ (st_emit _ _ _ _ _ _ Sm)) as Nm. pose proof (em_num _ _ _ _ _ (st_emit _ _ _ _ _ _ Stt)) as Nt.
    pose proof (em_num _ _ _ _ _ (st_emit _ _ _ _ _ _ S2)) as N2. pose proof (em_num _ _ _ _ _ (st_emit _ _ _ _ _ _ S1)) as N1. simpl in N1.
    assert (Ld : N.of_nat (length (drop (N.to_nat n) outs)) = output_len c - n). { rewrite drop_length. lia. }
    split; [lia|]. intros k o Eo.
    destruct (decide (k < n)) as [Hk|Hk].
    + pose proof (Pm k o Hk Eo) as Hw. replace (w_num s3 - output_len c + k) with (w_num sm - n + k) by lia.
      eapply lookup_weaken; [exact Hw|apply Stt].
    + assert (k < output_len c). { destruct (decide (k < output_len c)); [done|]. rewrite (wf_outputs_none c W) in Eo by lia. done. }
      destruct (outs !! N.to_nat k) as [p|] eqn:Ep; [|apply lookup_ge_None in Ep; lia].
      destruct (Hlook _ _ Ep) as (_ & Eo' & _). rewrite N2Nat.id in Eo'. rewrite Eo in Eo'. injection Eo' as ->.
      rewrite (Pt (N.to_nat (k - n)) p) by (rewrite lookup_drop; rewrite <- Ep; f_equal; lia). f_equal. lia.
Qed.
End circ.

Theorem wa_total h : dinv h -> cinv h -> forall l c, h_circ h !! l = Some c -> exists F, forall fuel, (F <= fuel)%nat -> wa_spec h fuel l c.
Proof.
  intros D CI. destruct (di_rank h D) as [rank Hrank].
  assert (forall n l c, (rank l < n)%nat -> h_circ h !! l = Some c -> exists F, forall fuel, (F <= fuel)%nat -> wa_spec h fuel l c) as Hn.
  2:{ intros l c E. apply (Hn (S (rank l)) l c); [lia|done]. }
  induction n as [|n IH]; intros l c Hr E; [lia|].
  set (P := fun (g : N) (k : nat) => forall il ol ids oi mid x l', gate_map c !! g = Some (GModule il ol ids oi mid) ->
    h_stor h !! c_storage c = Some x -> module_map x !! mid = Some l' -> forall fuel m, h_circ h !! l' = Some m -> (k <= fuel)%nat -> wa_spec h fuel l' m).
  destruct (bounded_choice P (gate_index c)) as [K HK].
  { intros g k k' HP Hle il ol ids oi mid x l' G S M fuel m El' Hf. eapply HP; eauto. lia. }
  { intros g _. destruct (gate_map c !! g) as [gt|] eqn:G; [|exists O; intros ????????; congruence].
    destruct gt as [| | | | | |il ol ids oi mid]; try (exists O; intros ????????; congruence).
    destruct (hi_calls h (di_inv h D) _ _ _ _ _ _ _ _ E G) as (x & l' & m & Ex & Em & El' & _).
    assert (Hcall : calls h c l') by (exists g, il, ol, ids, oi, mid, x; done).
    destruct (IH l' m) as [F HF]; [pose proof (Hrank l c l' E Hcall); lia|done|].
    exists F. intros il2 ol2 ids2 oi2 mid2 x2 l2 G2 Ex2 Em2 fuel m2 El2 Hf. simplify_eq. by apply HF. }
  exists (K + N.to_nat (gate_index c) + 2)%nat. intros fuel Hf. apply (write_all_ok h D CI l c E K); [|lia].
  intros l' m fu (g & il & ol & ids & oi & mid & x & G & Ex & Em) El' Hf'.
  assert (Hlt : g < gate_index c) by (eapply gm_lt; [exact (hi_circ h (di_inv h D) l c E)|exact G]).
  by eapply (HK g Hlt il ol ids oi mid x l' G Ex Em).
Qed.

Lemma inputs_ok h l c : cwf c -> h_circ h !! l = Some c -> forall k fuel f w wog s, (k <= f)%nat -> w_c s = l -> w + N.of_nat k = input_len c ->
  exists wog', write_inputs h f (write_single h (S fuel)) k w wog s = (Ok wog', WState (w_c s) (w_num s + N.of_nat k) (w_const s) (w_out s) (w_cow s)) /\
    forall g, wog' !! g = match gate_map c !! g with Some (GInput i) => if w <=? i then Some (w_num s + (i - w)) else wog !! g | _ => wog !! g end.
Proof.
  intros W E. induction k as [|k IH]; intros fuel f w wog s Hf Hs Hw.
  - exists wog. split; [destruct f; cbn [write_inputs]; rewrite N.add_0_r; by destruct s|]. intros g.
    destruct (gate_map c !! g) as [[]|] eqn:G; try done. destruct (N.leb_spec w w0); [|done]. exfalso.
    pose proof (wf_input_gates c W g w0 G) as Hi. rewrite (wf_inputs_none c W) in Hi by lia. done.
  - destruct f as [|f]; [lia|]. destruct (wf_inputs c W w) as (g & Im & Gm); [lia|].
    set (s1 := WState (w_c s) (w_num s + 1) (w_const s) (w_out s) (w_cow s)).
    destruct (IH fuel f (w + 1) (<[g := w_num s]> wog) s1) as (wog' & E' & H'); [lia|done|lia|].
    exists wog'. split.
    { cbn [write_inputs]. unfold st_bind at 1. unfold w_circ. rewrite Hs, E. unfold st_bind at 1. unfold c_input_to_gate_id, st_lift. rewrite Im.
      unfold st_bind at 1. unfold c_get_gate. rewrite Gm.
      assert (write_single h (S fuel) g (GInput w) wog s = (Ok (<[g := w_num s]> wog), s1)) as Ei by reflexivity.
      unfold st_bind at 1. rewrite Ei, E'. unfold s1. cbn [w_c w_num w_const w_out w_cow]. replace (w_num s + 1 + N.of_nat k) with (w_num s + N.of_nat (S k)) by lia. by rewrite Hs. }
    intros g'. rewrite H'. cbn [s1 w_num]. destruct (decide (g' = g)) as [-> |Hn].
    + rewrite Gm. destruct (N.leb_spec (w + 1) w); [lia|]. rewrite N.leb_refl, lookup_insert. f_equal. lia.
    + rewrite lookup_insert_ne by done. destruct (gate_map c !! g') as [[]|] eqn:G'; try done.
      destruct (N.leb_spec (w + 1) w0), (N.leb_spec w w0); try lia; [f_equal; lia|exfalso|done].
      assert (w0 = w) as -> by lia. pose proof (wf_input_gates c W g' w G') as Hi. rewrite Im in Hi. injection Hi as ->. done.
Qed.

Lemma mapM_key_ok {A} (m : gmap N A) ks s : (forall k, k ∈ ks -> is_Some (m !! k)) ->
  exists vs, st_mapM (w_key m) ks s = (Ok vs, s) /\ Forall2 (fun k v => m !! k = Some v) ks vs.
Proof.
  induction ks as [|k ks IH]; intros H; [exists []; split; [done|constructor]|].
  destruct (H k) as [v Hv]; [left|]. destruct IH as (vs & E & F); [intros; apply H; by right|].
  exists (v :: vs). split; [|by constructor]. cbn [st_mapM]. unfold st_bind. rewrite (w_key_ok m k v s Hv), E. done.
Qed.

(** The program a writer announces and emits for circuit [c]. *)
Definition wprog (c : circuit) (first : N) (gls : list gline) : prog :=
  Prog (num_gate c) (input_len c + num_gate c + 2 * num_const c) [first; input_len c + num_const c - first] [output_len c] gls.
Open Scope string_scope.
Definition header (c : circuit) (first : N) : list string :=
  [show_N (num_gate c) ++ " " ++ show_N (input_len c + num_gate c + 2 * num_const c) ++ nl;
   "2 " ++ show_N first ++ " " ++ show_N (input_len c + num_const c - first) ++ nl; "1 " ++ show_N (output_len c) ++ nl; nl].
Lemma concat_app (xs ys : list string) : String.concat "" (xs ++ ys)%list = String.concat "" xs ++ String.concat "" ys.
Proof.
  assert (Hc : forall x (r : list string), String.concat "" (x :: r) = x ++ String.concat "" r).
  { intros x r. cbn [String.concat]. destruct r; [by rewrite sapp_nil|]. done. }
  induction xs as [|x xs IH]; [done|]. change ((x :: xs) ++ ys)%list with (x :: (xs ++ ys)%list). rewrite !Hc, IH, sapp_assoc. done.
Qed.
Lemma concat_lines gls : String.concat "" (map wline gls) = unlines (map show_line gls).
Proof.
  assert (Hc : forall x (r : list string), String.concat "" (x :: r) = x ++ String.concat "" r).
  { intros x r. cbn [String.concat]. destruct r; [by rewrite sapp_nil|]. done. }
  induction gls as [|gl gls IH]; [done|]. cbn [map unlines]. rewrite Hc, IH. unfold wline. rewrite sapp_assoc. done.
Qed.
Lemma header_text c first gls : String.concat "" (header c first ++ map wline gls)%list = show_prog (wprog c first gls).
Proof.
  rewrite concat_app, concat_lines. unfold header, show_prog, wprog. cbn [String.concat pr_gates pr_wires pr_in pr_out pr_lines unlines].
  unfold show_counted. cbn [map length]. change (N.of_nat 2) with 2%N. change (N.of_nat 1) with 1%N. rewrite !join_cons2. cbn [Text.join].
  rewrite !sapp_assoc. unfold nl. reflexivity.
Qed.
Close Scope string_scope.

(** The writing of circuit [l] by a writer that already gave out [n0] wire numbers. *)
Record written_ok (h : heap) (l : nat) (c : circuit) (n0 : N) (gls : list gline) (vals : list bool) (wog : wmap) : Prop := {
  wr_lines : forall k gl, gls !! k = Some gl -> gl_outs gl = [n0 + input_len c + num_const c + N.of_nat k] /\ gl_kind gl ∈ [KInv; KXor; KAnd; KOr] /\
    (length (gl_ins gl) <= 2)%nat /\ forall w, w ∈ gl_ins gl -> between n0 (n0 + input_len c) w \/
      between (input_len c) (input_len c + N.of_nat (length vals)) w \/
      between (n0 + input_len c + num_const c) (n0 + input_len c + num_const c + N.of_nat k) w;
  wr_gates : N.of_nat (length gls) <= num_gate c;
  wr_consts : N.of_nat (length vals) <= num_const c;
  wr_full : full h l -> N.of_nat (length gls) = num_gate c /\ N.of_nat (length vals) = num_const c;
  wr_need : forall n m, needs h l n m -> N.of_nat (length gls) = n /\ N.of_nat (length vals) = m;
  wr_used : forall g gt, gate_map c !! g = Some gt -> is_logic gt = true \/ is_module gt = true -> (has wog g <-> used c g);
  wr_outs : forall k o, output_map c !! k = Some o -> has wog o;
  wr_inputs : forall g i, gate_map c !! g = Some (GInput i) -> wog !! g = Some (n0 + i);
  wr_rng : forall g w, wog !! g = Some w -> w < n0 + input_len c + num_const c + N.of_nat (length gls);
  wr_tidy : tidy h l -> output_len c <= N.of_nat (length gls) /\
    forall k o, output_map c !! k = Some o -> wog !! o = Some (n0 + input_len c + num_const c + N.of_nat (length gls) - output_len c + k);
  wr_sound : forall q inputs e, N.of_nat (length inputs) = input_len c ->
    (forall i b, inputs !! i = Some b -> e !! (n0 + N.of_nat i) = Some b) ->
    (forall i b, vals !! i = Some b -> e !! (input_len c + N.of_nat i) = Some b) ->
    exists e', exec_lines q e gls = Some e' /\ (forall w, w < n0 + input_len c + num_const c -> e' !! w = e !! w) /\
      forall g w, wog !! g = Some w -> exists b, e' !! w = Some b /\ gv h l (env_of inputs) g b;
}.

Theorem write_ok h l c : dinv h -> cinv h -> h_circ h !! l = Some c ->
  exists F, forall fuel st first, (F <= fuel)%nat -> w_c st = l -> first <= input_len c + num_const c ->
    exists gls vals wog st', write h fuel first ∅ st = (Ok (vals, wog), st') /\
      w_out st' = w_out st ++ header c first ++ map wline gls /\ w_c st' = l /\
      w_num st' = w_num st + input_len c + num_const c + N.of_nat (length gls) /\ written_ok h l c (w_num st) gls vals wog.
Proof.
  intros D CI E. pose proof (hi_circ h (di_inv h D) l c E) as W. destruct (wa_total h D CI l c E) as [F HF].
  exists (F + 1)%nat. intros fuel st first Hf Hc Hfirst. destruct fuel as [|fuel]; [lia|].
  set (s1 := WState (w_c st) (w_num st) (w_const st) (w_out st ++ header c first) ∅).
  destruct (inputs_ok h l c W E (N.to_nat (input_len c)) fuel (N.to_nat (input_len c) + size (input_map c) + 1) 0 ∅ s1) as (w1 & E1 & H1);
    [lia|done|lia|].
  rewrite N2Nat.id in E1. cbn [s1 w_c w_num w_const w_out w_cow] in E1.
  set (s3 := WState (w_c st) (w_num st + input_len c + num_const c) (input_len c) (w_out st ++ header c first) ∅).
  assert (H1' : forall g w, w1 !! g = Some w <-> exists i, gate_map c !! g = Some (GInput i) /\ w = w_num st + i).
  { intros g w. rewrite H1. cbn [s1 w_num]. split.
    - destruct (gate_map c !! g) as [[]|]; try (by rewrite lookup_empty). destruct (N.leb_spec 0 w0); [|lia]. intros [= <-]. exists w0. split; [done|lia].
    - intros (i & Gi & ->). rewrite Gi. destruct (N.leb_spec 0 i); [|lia]. f_equal. lia. }
  destruct (HF (S fuel) ltac:(lia) w1 s3) as (gls & w4 & s4 & E4 & Em & So & Ho & Hsub & Hg & Hcn & Hfull & Hneed & Hused & Htidy).
  { exact Hc. } { intros w [b Hb]. cbn in Hb. by rewrite lookup_empty in Hb. }
  { intros g. unfold has. split.
    - intros [w Hw]. apply H1' in Hw as (i & Gi & _). eauto.
    - intros [i Gi]. exists (w_num st + i). apply H1'. eauto. }
  pose proof (em_num _ _ _ _ _ Em) as N4. pose proof (em_const _ _ _ _ _ Em) as C4. cbn [s3 w_num w_const] in N4, C4.
  destruct (mapM_key_ok (w_cow s4) (map (fun i => input_len c + i) (nrange (w_const s4 - input_len c))) s4) as (vals & E5 & F5).
  { intros k Hk. apply elem_of_list_fmap in Hk as (i & -> & Hi%elem_of_nrange). apply (em_dom _ _ _ _ _ Em). right. cbn [s3 w_const]. split; lia. }
  assert (Lv : N.of_nat (length vals) = w_const s4 - input_len c). { rewrite <- (Forall2_length _ _ _ F5), map_length, nrange_length. lia. }
  assert (Hvals : forall i b, vals !! i = Some b <-> w_cow s4 !! (input_len c + N.of_nat i) = Some b /\ N.of_nat i < w_const s4 - input_len c).
  { intros i b. split.
    - intros Hi. destruct (Forall2_lookup_r _ _ _ _ _ F5 Hi) as (k & Hk & Hw). rewrite list_lookup_fmap, nrange_lookup in Hk.
      destruct decide; [|done]. simpl in Hk. injection Hk as <-. done.
    - intros [Hw Hlt]. destruct (lookup_lt_is_Some_2 vals i) as [b' Hb']; [lia|].
      destruct (Forall2_lookup_r _ _ _ _ _ F5 Hb') as (k & Hk & Hw'). rewrite list_lookup_fmap, nrange_lookup in Hk.
      rewrite decide_True in Hk by done. simpl in Hk. injection Hk as <-. congruence. }
  exists gls, vals, w4, s4. split; [|split; [|split; [|split]]].
  - unfold write. unfold st_bind at 1. unfold w_circ. rewrite Hc, E. cbn zeta.
    rewrite (proj2 (N.leb_le first (input_len c + num_const c)) Hfirst).
    assert (Z.to_N (num_wire c) + num_const c = input_len c + num_gate c + 2 * num_const c) as ->.
    { rewrite (wf_wires c W), N2Z.id. lia. }
    do 6 (unfold st_bind at 1; cbn [w_write w_set_cow st_ret w_c w_num w_const w_out w_cow]).
    rewrite <- !app_assoc. cbn [app]. change (w_out st ++ _) with (w_out st ++ header c first).
    unfold st_bind at 1. unfold s1 in E1. rewrite E1. do 3 (unfold st_bind at 1; cbn [w_set_const w_get w_set_num w_c w_num w_const w_out w_cow]).
    unfold st_bind at 1. unfold s3 in E4. rewrite E4. unfold st_bind at 1. cbn [w_get]. unfold st_bind at 1. rewrite E5. done.
  - rewrite (em_out _ _ _ _ _ Em). cbn [s3 w_out]. by rewrite app_assoc.
  - rewrite (em_c _ _ _ _ _ Em). exact Hc.
  - exact N4.
  - assert (Hr1 : forall w, ranged w1 w -> between (w_num st) (w_num st + input_len c) w).
    { intros w [g Hw]. apply H1' in Hw as (i & Gi & ->). assert (i < input_len c); [|split; lia].
      destruct (decide (i < input_len c)); [done|]. pose proof (wf_input_gates c W g i Gi) as Hi. rewrite (wf_inputs_none c W) in Hi by lia. done. }
    cbn [s3 w_num w_const] in *. split.
    + intros k gl Hk. destruct (em_lines _ _ _ _ _ Em k gl Hk) as (O1 & O2 & O3 & O4). cbn [s3 w_num w_const] in *.
      split; [done|]. split; [done|]. split; [done|]. intros w Hw. destruct (O4 w Hw) as [?|[[? ?]|?] ]; [left; auto|right; left; split; lia|by right; right].
    + lia. + lia.
    + intros HFu. destruct (Hfull HFu). split; lia.
    + intros n m HN. destruct (Hneed n m HN). split; lia.
    + exact Hused.
    + done.
    + intros g i Gi. eapply lookup_weaken; [|exact Hsub]. apply H1'. eauto.
    + intros g w Hw. destruct (em_rng _ _ _ _ _ Em w) as [Hr|[[? ?]|[? ?] ] ]; [by exists g| | |]; cbn [s3 w_num w_const] in *.
      * destruct (Hr1 w Hr). lia. * lia. * lia.
    + intros HT. destruct (Htidy HT) as [T1 T2]. split; [done|]. intros k o Ek. rewrite (T2 k o Ek). rewrite N4. done.
    + intros q inputs e Hl Hin Hv. destruct (So q (env_of inputs) e) as (e' & X & Kp & R).
      { intros w [b Hb]. cbn in Hb. by rewrite lookup_empty in Hb. }
      { cbn [s3 w_num]. lia. }
      { intros g w Hw. cbn [s3 w_num]. destruct (Hr1 w) as [? ?]; [by exists g|]. lia. }
      { intros w b Hb. assert (between (input_len c) (w_const s4) w) as [B1 B2].
        { assert (is_Some (w_cow s4 !! w)) as Hs by eauto. apply (em_dom _ _ _ _ _ Em) in Hs as [Hs|Hs]; [|exact Hs]. cbn in Hs. rewrite lookup_empty in Hs. by destruct Hs. }
        replace w with (input_len c + N.of_nat (N.to_nat (w - input_len c))) by lia. apply Hv, Hvals.
        replace (input_len c + N.of_nat (N.to_nat (w - input_len c))) with w by lia. split; [done|lia]. }
      { intros g w Hw. apply H1' in Hw as (i & Gi & ->). assert (i < input_len c).
        { destruct (decide (i < input_len c)); [done|]. pose proof (wf_input_gates c W g i Gi) as Hi. rewrite (wf_inputs_none c W) in Hi by lia. done. }
        destruct (lookup_lt_is_Some_2 inputs (N.to_nat i)) as [b Hb]; [lia|]. exists b. split.
        - replace i with (N.of_nat (N.to_nat i)) by lia. by apply Hin.
        - eapply gv_input; eauto. }
      exists e'. split; [done|]. split; [done|]. exact R.
Qed.
