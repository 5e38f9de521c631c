(** Property C90: the map of the caller. [write] takes a map from gates to wires, which need not be empty. *)
From Verif Require Export Prop_Depth Prop_Writer.
Open Scope N_scope.
Open Scope list_scope.

(** * Specification *)
(** [x] is [g], or another output of the same call. *)
Definition together (c : circuit) (g x : N) : Prop :=
  x = g \/ exists il ol ids oi mid j, gate_map c !! g = Some (GModule il ol ids oi mid) /\ j < ol /\ x = g - oi + j.
(** The writer has no reason to write the gate: the caller says on which wire its value is. The outputs of a call are written together. *)
Definition settled (given : wmap) (c : circuit) (g : N) : Prop :=
  (exists gt, gate_map c !! g = Some gt /\ (is_logic gt = true \/ is_module gt = true)) /\ forall x, together c g x -> is_Some (given !! x).
(** The value of [g] follows from those of its operands; [ν] gives the values. *)
Definition obeys (h : heap) (c : circuit) (inputs : list bool) (ν : N -> bool) (g : N) : Prop :=
  match gate_map c !! g with
  | Some (GInput w) => inputs !! N.to_nat w = Some (ν g)
  | Some (GConst b) => ν g = b
  | Some (GNot a) => ν g = negb (ν a)
  | Some (GXor a b) => ν g = xorb (ν a) (ν b)
  | Some (GAnd a b) => ν g = andb (ν a) (ν b)
  | Some (GOr a b) => ν g = orb (ν a) (ν b)
  | Some (GModule _ _ ids oi mid) => exists x l', h_stor h !! c_storage c = Some x /\ module_map x !! mid = Some l' /\ outv h l' (env_of (map ν ids)) oi (ν g)
  | None => True
  end.

(** * The writer, from a map that already has entries *)
Section circ.
Context (h : heap) (D : dinv h) (CI : cinv h) (l : nat) (c : circuit) (E : h_circ h !! l = Some c) (given : wmap).
Let Hinv : hinv h := di_inv h D.
Let W : cwf c := hi_circ h Hinv l c E.
Let Cd : cdisc h c := di_disc h D l c E.

Definition whole (wog : wmap) (g : N) : Prop := Forall (has wog) (blk c g).
Definition share (own : gate -> bool) (f : circuit -> N) (wog : wmap) : N :=
  Counts.nsum (map (fun g => if decide (whole wog g) then weight own f h c g else 0) (nrange (gate_index c))).
Definition none (_ : gate) : bool := false.
Definition obeying (inputs : list bool) (ν : N -> bool) : Prop := forall g, is_Some (gate_map c !! g) -> ~ settled given c g -> obeys h c inputs ν g.
Definition okw (ν : N -> bool) (e : gmap N bool) (wog : wmap) : Prop := forall g w, is_Some (gate_map c !! g) -> wog !! g = Some w -> e !! w = Some (ν g).
Definition under_num (wog : wmap) (n : N) : Prop := forall g w, is_Some (gate_map c !! g) -> wog !! g = Some w -> w < n.
Definition vsound (wog : wmap) (s : wstate) (gls : list gline) (wog' : wmap) (s' : wstate) : Prop :=
  forall inputs ν q e, obeying inputs ν -> cowinv s -> w_const s' <= w_num s -> under_num wog (w_num s) -> cons_ok e (w_cow s') -> okw ν e wog ->
    exists e', exec_lines q e gls = Some e' /\ (forall w, w < w_num s -> e' !! w = e !! w) /\ okw ν e' wog' /\ under_num wog' (w_num s').

Record vstep (P : N -> Prop) (wog : wmap) (s : wstate) (gls : list gline) (wog' : wmap) (s' : wstate) : Prop := {
  vs_emit : emit wog s gls wog' s';
  vs_sound : vsound wog s gls wog' s';
  vs_ext : forall x, has wog x -> has wog' x;
  vs_same : forall x, wog' !! x = wog !! x \/ P x /\ ~ whole wog x;
  vs_ng : w_num s' + share is_logic num_gate wog <= w_num s + share is_logic num_gate wog';
  vs_nc : w_const s' + share none num_const wog <= w_const s + share none num_const wog';
}.
Lemma whole_ext wog wog' x : (forall y, has wog y -> has wog' y) -> whole wog x -> whole wog' x.
Proof using. intros H Hw. eapply Forall_impl; [exact Hw|exact H]. Qed.
Lemma vstep_refl P wog s : vstep P wog s [] wog s.
Proof using.
  split; try done; [apply emit_refl| |by left]. intros inputs ν q e _ _ _ Hb _ R. by exists e.
Qed.
Lemma vstep_mono (P Q : N -> Prop) wog s gls wog' s' : (forall x, P x -> Q x) -> vstep P wog s gls wog' s' -> vstep Q wog s gls wog' s'.
Proof using. intros H []. split; try done. intros x. destruct (vs_same0 x) as [?|[? ?] ]; [by left|right; auto]. Qed.
Lemma vstep_trans P wog s g1 wog1 s1 g2 wog2 s2 : vstep P wog s g1 wog1 s1 -> vstep P wog1 s1 g2 wog2 s2 -> vstep P wog s (g1 ++ g2) wog2 s2.
Proof using.
  intros [M1 S1 X1 P1 G1 C1] [M2 S2 X2 P2 G2 C2]. split; [by eapply emit_trans| |auto| |lia|lia].
  - intros inputs ν q e Ho I Hc Hb Hcons R.
    pose proof (em_num _ _ _ _ _ M1) as N1. pose proof (em_const _ _ _ _ _ M2) as K2.
    assert (I1 : cowinv s1) by (by eapply cowinv_emit). assert (I2 : cowinv s2) by (by eapply cowinv_emit).
    destruct (S1 inputs ν q e) as (e1 & X1' & Kp1 & R1 & B1); try done; [lia| |].
    { intros w b Hw. apply Hcons. eapply lookup_weaken; [exact Hw|]. by apply (em_cow _ _ _ _ _ M2). }
    destruct (S2 inputs ν q e1) as (e2 & X2' & Kp2 & R2 & B2); try done; [lia| |].
    { eapply cons_ok_keep; [exact I2| |exact Kp1|exact Hcons]. lia. }
    exists e2. split; [rewrite exec_lines_app, X1'; exact X2'|]. split; [|done]. intros w Hw. rewrite Kp2 by lia. by apply Kp1.
  - intros x. destruct (P2 x) as [E2|[H2 N2] ].
    + destruct (P1 x) as [E1|?]; [left; congruence|by right].
    + right. split; [done|]. intros Hw. apply N2. eapply whole_ext; [|exact Hw]. done.
Qed.

(** What a block adds. *)
Lemma share_add own f wog wog' g gt : gate_map c !! g = Some gt -> (forall x, has wog' x <-> has wog x \/ x ∈ blk c g) -> ~ has wog g ->
  share own f wog + weight own f h c (start c g) <= share own f wog'.
Proof using D E.
  intros G H1 H2. destruct (start_gate c W g gt G) as (gs & Gs & Hoi & Hin). destruct (blk_member c W g gt _ G Hin) as (_ & _ & _ & _ & Bs & _).
  rewrite <- (nsum_one (gate_index c) (start c g) (weight own f h c (start c g))) by (eapply gm_lt; eauto).
  unfold share. rewrite <- (nsum_pointwise (fun x => (if decide (whole wog x) then weight own f h c x else 0) + if decide (x = start c g) then weight own f h c (start c g) else 0)) by done.
  apply nsum_le. intros x. destruct (decide (x = start c g)) as [->|Hx].
  - rewrite decide_False. { rewrite decide_True; [lia|]. unfold whole. rewrite Bs. apply Forall_forall. intros y Hy. apply H1. by right. }
    unfold whole. rewrite Bs. intros Hw. apply H2. rewrite Forall_forall in Hw. by apply Hw, (blk_self c W g gt).
  - destruct (decide (whole wog x)) as [Hw|]; [|lia]. rewrite decide_True; [lia|]. eapply whole_ext; [|exact Hw]. intros y Hy. apply H1. by left.
Qed.
Lemma unsettled wog g x : (forall y, has given y -> has wog y) -> ~ has wog g -> together c x g -> ~ settled given c x.
Proof using. intros H Hg Ht [_ Hs]. apply Hg, H, Hs, Ht. Qed.
Lemma blk_together g gt x : gate_map c !! g = Some gt -> x ∈ blk c g -> together c x g.
Proof using D E.
  intros G Hx. destruct gt as [| | | | | |il ol ids oi mid]; try (rewrite (blk_logic c g _ G eq_refl) in Hx; apply elem_of_list_singleton in Hx as ->; by left).
  apply (blk_module c _ _ _ _ _ _ _ G) in Hx. destruct (wf_blocks c W _ _ _ _ _ _ G) as (B1 & B2 & B3).
  right. exists il, ol, ids, (x - (g - oi)), mid, oi. split; [|split; lia]. specialize (B3 (x - (g - oi)) ltac:(lia)).
  by replace (g - oi + (x - (g - oi))) with x in B3 by lia.
Qed.
Lemma together_blk g gt x : gate_map c !! g = Some gt -> together c g x -> x ∈ blk c g.
Proof using D E.
  intros G [->|(il & ol & ids & oi & mid & j & G' & Hj & ->)]; [by eapply (blk_self c W)|].
  apply (blk_module c _ _ _ _ _ _ _ G'). destruct (wf_blocks c W _ _ _ _ _ _ G') as (B1 & B2 & _). lia.
Qed.

(** One logic gate. *)
Lemma vlogic_step wog s g gt k ws : gate_map c !! g = Some gt -> kind_of_gate gt = Some k ->
  Forall2 (fun a w => wog !! a = Some w) (operands gt) ws -> (forall y, has given y -> has wog y) -> ~ has wog g ->
  update_wire g (Some ws) (gate_to_str gt) wog s = (Ok (<[g := w_num s]> wog), emitted s (GLine k ws [w_num s])) /\
  vstep (touch c g) wog s [GLine k ws [w_num s]] (<[g := w_num s]> wog) (emitted s (GLine k ws [w_num s])).
Proof using D CI E.
  intros G K F Hgv Hg. destruct (logic_step h D CI l c E wog s g gt k ws G K F Hg) as [E1 S1]. split; [exact E1|].
  assert (Hm : is_module gt = false) by (by destruct gt).
  assert (Hbl : blk c g = [g]) by (by eapply blk_logic). assert (Hst : start c g = g) by (by eapply start_logic).
  split.
  - apply S1.
  - intros inputs ν q e Ho I Hc Hb Hcons R.
    assert (Hob : obeys h c inputs ν g). { apply Ho; [by eexists|]. eapply unsettled; [exact Hgv|exact Hg|by left]. }
    assert (Hop : forall a, a ∈ operands gt -> is_Some (gate_map c !! a)) by (intros a Ha; by eapply (operand_exists h l c Hinv E Cd)).
    assert (exists bits, mapM (fun w => e !! w) ws = Some bits /\ kind_fun k bits = Some (ν g)) as (bits & M & V).
    { unfold obeys in Hob. rewrite G in Hob.
      destruct gt as [| |a|a b|a b|a b|]; try done; injection K as <-; cbn [operands] in F, Hop.
      - inversion F as [|? w ? ? Ha F1]; subst. inversion F1; subst. exists [ν a]. split; [|simpl; by rewrite Hob].
        simpl. by rewrite (R a w) by (done || apply Hop; left).
      - inversion F as [|? w ? ? Ha F1]; subst. inversion F1 as [|? w' ? ? Hb' F2]; subst. inversion F2; subst. exists [ν a; ν b].
        split; [|simpl; by rewrite Hob]. simpl. rewrite (R a w) by (done || apply Hop; left). simpl. by rewrite (R b w') by (done || apply Hop; right; left).
      - inversion F as [|? w ? ? Ha F1]; subst. inversion F1 as [|? w' ? ? Hb' F2]; subst. inversion F2; subst. exists [ν a; ν b].
        split; [|simpl; by rewrite Hob]. simpl. rewrite (R a w) by (done || apply Hop; left). simpl. by rewrite (R b w') by (done || apply Hop; right; left).
      - inversion F as [|? w ? ? Ha F1]; subst. inversion F1 as [|? w' ? ? Hb' F2]; subst. inversion F2; subst. exists [ν a; ν b].
        split; [|simpl; by rewrite Hob]. simpl. rewrite (R a w) by (done || apply Hop; left). simpl. by rewrite (R b w') by (done || apply Hop; right; left). }
    exists (<[w_num s := ν g]> e). split.
    { cbn [exec_lines]. unfold exec_line, line_value. cbn [gl_kind gl_ins gl_outs].
      assert (K5 : k <> KEq) by (intros ->; by destruct gt). destruct q, k; try done; rewrite M; cbn [mbind option_bind]; by rewrite V. }
    split; [intros w Hw; by rewrite lookup_insert_ne by lia|]. split.
    + intros x w Gx Hx. apply lookup_insert_Some in Hx as [[<- <-]|[_ Hx] ]; [by rewrite lookup_insert|].
      rewrite lookup_insert_ne; [by apply R|]. pose proof (Hb x w Gx Hx). lia.
    + intros x w Gx Hx. cbn [emitted w_num]. apply lookup_insert_Some in Hx as [[_ <-]|[_ Hx] ]; [lia|]. pose proof (Hb x w Gx Hx). lia.
  - intros x Hx. apply insert_has. by left.
  - intros x. destruct (decide (x = g)) as [->|Hx]; [|left; by rewrite lookup_insert_ne]. right. split; [apply touch_self; rewrite Hbl; left|].
    unfold whole. rewrite Hbl. rewrite Forall_forall. intros H. apply Hg, H. left.
  - pose proof (share_add is_logic num_gate wog (<[g := w_num s]> wog) g gt G ltac:(intros x; rewrite Hbl; apply insert_has) Hg) as HS.
    rewrite Hst in HS. unfold weight in HS. rewrite G in HS. assert (is_logic gt = true) as El by (by destruct gt). cbn [emitted w_num].
    destruct gt; try done; rewrite ?El in HS; lia.
  - pose proof (share_add none num_const wog (<[g := w_num s]> wog) g gt G ltac:(intros x; rewrite Hbl; apply insert_has) Hg) as HS. cbn [emitted w_const]. lia.
Qed.

(** One call. *)
Lemma vmodule_step fuel wog s g il ol ids oi mid x l' m : gate_map c !! g = Some (GModule il ol ids oi mid) ->
  h_stor h !! c_storage c = Some x -> module_map x !! mid = Some l' -> h_circ h !! l' = Some m ->
  wa_spec h fuel l' m -> w_c s = l -> cowinv s -> (forall a, a ∈ ids -> has wog a) -> (forall y, has given y -> has wog y) -> ~ has wog g ->
  exists gls wog' s', module_rest h fuel g oi ol mid ids wog s = (Ok wog', s') /\ vstep (touch c g) wog s gls wog' s' /\ has wog' g.
Proof using D E.
  intros G Ex Em El' HW Hc I Hall Hgv Hg.
  pose proof (hi_circ h Hinv l' m El') as Wm.
  destruct (d_arity h c Cd _ _ _ _ _ _ _ _ _ G Ex Em El') as (-> & -> & Hlen).
  destruct (wf_blocks c W _ _ _ _ _ _ G) as (B1 & B2 & B3).
  destruct (bind_args_ok m wog ids Wm Hall (length ids + size (input_map m) + 1) 0 ∅ s) as (new & Eb & Hnew); [lia|lia|].
  set (s1 := WState l' (w_num s) (w_const s) (w_out s) (w_cow s)).
  destruct (HW new s1) as (gls & new' & s2 & Ew & Em2 & So & Ho & Hsub & Hng & Hnc & _); [done|exact I| |].
  { intros y. unfold has. rewrite Hnew. split.
    - destruct (gate_map m !! y) as [[]|] eqn:Gy; try (rewrite lookup_empty; by intros [? ?]). eauto.
    - intros (w & Gy). rewrite Gy. destruct (N.leb_spec 0 w); [|lia]. rewrite N.sub_0_r.
      assert (w < input_len m). { destruct (decide (w < input_len m)); [done|]. pose proof (wf_input_gates m Wm y w Gy) as Hi.
        rewrite (wf_inputs_none m Wm) in Hi by lia. done. }
      destruct (lookup_lt_is_Some_2 ids (N.to_nat w)) as [a Ha]; [lia|]. rewrite Ha. simpl. apply Hall. by eapply elem_of_list_lookup_2. }
  set (s3 := WState (w_c s) (w_num s2) (w_const s2) (w_out s2) (w_cow s2)).
  destruct (copy_out_ok m new' (g - oi) (output_len m) Wm ltac:(lia) Ho wog s3) as (wog' & Ec & Hw').
  exists gls, wog', s3. split.
  { unfold module_rest. unfold st_bind at 1. unfold w_circ. rewrite Hc, E. unfold st_bind at 1. rewrite Ex, Em. cbn [st_ret].
    unfold st_bind at 1. rewrite El'. cbn [st_ret]. unfold st_bind at 1. rewrite Eb. unfold st_bind at 1. cbn [w_get]. unfold st_bind at 1. cbn [w_set_c].
    fold s1. unfold st_bind at 1. rewrite Ew. unfold st_bind at 1. cbn [w_set_c]. exact Ec. }
  assert (Hout : forall y, y ∈ blk c g -> exists o, output_map m !! (y - (g - oi)) = Some o /\ wog' !! y = new' !! o /\ has new' o).
  { intros y Hy. apply (blk_module c _ _ _ _ _ _ _ G) in Hy. destruct (wf_outputs m Wm (y - (g - oi))) as (o & Oo & _); [lia|].
    exists o. split; [done|]. split; [|by eapply Ho]. rewrite Hw'. destruct (N.leb_spec (g - oi) y); [|lia].
    destruct (N.ltb_spec y (g - oi + output_len m)); [|lia]. simpl. by rewrite Oo. }
  assert (Hin : forall y, y ∉ blk c g -> wog' !! y = wog !! y).
  { intros y Hy. rewrite Hw'. destruct (N.leb_spec (g - oi) y); [|done]. destruct (N.ltb_spec y (g - oi + output_len m)); [|done].
    destruct Hy. apply (blk_module c _ _ _ _ _ _ _ G). lia. }
  assert (Hhas : forall y, has wog' y <-> has wog y \/ y ∈ blk c g).
  { intros y. destruct (decide (y ∈ blk c g)) as [Hy|Hy].
    - split; [by right|]. intros _. destruct (Hout y Hy) as (o & _ & Eo & Hho). unfold has. by rewrite Eo.
    - unfold has. rewrite Hin by done. split; [by left|]. intros [?|?]; done. }
  assert (Hrn : forall w, ranged new w -> exists a, a ∈ ids /\ wog !! a = Some w).
  { intros w [y Hy]. rewrite Hnew in Hy. destruct (gate_map m !! y) as [[]|]; try (rewrite lookup_empty in Hy; done).
    destruct (0 <=? w0); [|rewrite lookup_empty in Hy; done]. destruct (ids !! _) as [a|] eqn:Ea; [|done]. exists a. split; [by eapply elem_of_list_lookup_2|done]. }
  assert (Hemit : emit wog s gls wog' s3).
  { pose proof Em2 as [? ? ? ? ? ? em_rng0 em_lines0]. split; try done.
    - intros w [y Hy]. destruct (decide (y ∈ blk c g)) as [Hb|Hb].
      + destruct (Hout y Hb) as (o & _ & Eo & _). destruct (em_rng0 w) as [Hr|?]; [exists o; congruence| |by right]. left. destruct (Hrn w Hr) as (a & _ & Ha). by exists a.
      + rewrite Hin in Hy by done. left. by exists y.
    - intros k gl Hk. destruct (em_lines0 k gl Hk) as (O1 & O2 & O3 & O4). split; [done|]. split; [done|]. split; [done|]. intros w Hw.
      destruct (O4 w Hw) as [Hr|?]; [|by right]. left. destruct (Hrn w Hr) as (a & _ & Ha). by exists a. }
  assert (Hcst : forall own f, share own f wog + f m <= share own f wog').
  { intros own f. pose proof (share_add own f wog wog' g _ G Hhas Hg) as HS. unfold weight, start in HS. rewrite G in HS. cbn [gate_oi] in HS.
    specialize (B3 0 ltac:(lia)). rewrite N.add_0_r in B3. rewrite B3, N.eqb_refl in HS. unfold callee in HS. rewrite Ex, Em, El' in HS. done. }
  pose proof (em_num _ _ _ _ _ Hemit) as HN. subst s1 s3. cbn [w_num w_const] in *.
  assert (Hself : g ∈ blk c g) by (by eapply (blk_self c W)).
  assert (Hop : forall a, a ∈ ids -> is_Some (gate_map c !! a)) by (intros a Ha; by eapply (operand_exists h l c Hinv E Cd g _ a G)).
  split; [split|].
  - exact Hemit.
  - intros inputs ν q e Hob I' Hcb Hb Hcons R.
    destruct (So q (env_of (map ν ids)) e) as (e' & X & K & R'); try done.
    { intros y w Hy. destruct (Hrn w) as (z & Hz & Ez); [by exists y|]. eapply Hb; [|exact Ez]. by apply Hop. }
    { intros y w Hy. rewrite Hnew in Hy. destruct (gate_map m !! y) as [[]|] eqn:Gy; try (rewrite lookup_empty in Hy; done).
      destruct (0 <=? w0); [|rewrite lookup_empty in Hy; done]. rewrite N.sub_0_r in Hy.
      destruct (ids !! N.to_nat w0) as [a|] eqn:Ea; [|done]. simpl in Hy. exists (ν a). split.
      - apply R; [|exact Hy]. apply Hop. by eapply elem_of_list_lookup_2.
      - eapply gv_input; eauto. unfold env_of. by rewrite list_lookup_fmap, Ea. }
    exists e'. split; [done|]. split; [done|].
    assert (forall y w, is_Some (gate_map c !! y) -> y ∈ blk c g -> wog' !! y = Some w -> e' !! w = Some (ν y)) as Hblk.
    { intros y w Gy Hyb Hy. destruct (Hout y Hyb) as (o & Oo & Eo & _). destruct (R' o w) as (b & Eb' & Gb); [congruence|]. rewrite Eb'. f_equal.
      pose proof Hyb as Hyb'. apply (blk_module c _ _ _ _ _ _ _ G) in Hyb'.
      assert (Gy' : gate_map c !! y = Some (GModule (input_len m) (output_len m) ids (y - (g - oi)) mid)).
      { replace y with (g - oi + (y - (g - oi))) at 1 by lia. apply B3. lia. }
      assert (obeys h c inputs ν y) as Hoy. { apply Hob; [done|]. eapply unsettled; [exact Hgv|exact Hg|]. by eapply blk_together. }
      unfold obeys in Hoy. rewrite Gy' in Hoy. destruct Hoy as (x2 & l2 & Ex2 & Em2' & Hv). assert (x2 = x) as -> by congruence. assert (l2 = l') as -> by congruence.
      eapply outv_det; [|exact Hv]. by exists m, o. }
    split.
    + intros y w Gy Hy. destruct (decide (y ∈ blk c g)) as [Hyb|Hyb]; [by apply Hblk|].
      rewrite Hin in Hy by done. rewrite K; [by apply R|]. by eapply Hb.
    + intros y w Gy Hy. cbn [w_num]. destruct (decide (y ∈ blk c g)) as [Hyb|Hyb].
      * destruct (Hout y Hyb) as (o & Oo & Eo & _). destruct (em_rng _ _ _ _ _ Em2 w) as [Hr|[[_ Hr]|[_ Hr] ] ]; [exists o; congruence| | |]; cbn [w_num w_const] in *.
        -- destruct (Hrn w Hr) as (a & Ha & Ea). pose proof (Hb a w (Hop a Ha) Ea). lia.
        -- lia.
        -- lia.
      * rewrite Hin in Hy by done. pose proof (Hb y w Gy Hy). lia.
  - intros y Hy. apply Hhas. by left.
  - intros y. destruct (decide (y ∈ blk c g)) as [Hyb|Hyb]; [|left; by apply Hin]. right. split; [by apply touch_self|].
    destruct (blk_member c W g _ y G Hyb) as (_ & _ & _ & _ & By & _). unfold whole. rewrite By, Forall_forall. intros Hw. apply Hg. by apply Hw.
  - cbn [w_num w_const]. pose proof (Hcst is_logic num_gate). lia.
  - cbn [w_num w_const]. pose proof (Hcst none num_const). lia.
  - apply Hhas. by right.
Qed.

(** * A gate and everything it needs *)
Record vpre (wog : wmap) (s : wstate) : Prop := {
  vp_c : w_c s = l;
  vp_cow : cowinv s;
  vp_given : forall x, has given x -> has wog x;
  vp_base : forall g gt, gate_map c !! g = Some gt -> is_const gt = true \/ (exists w, gt = GInput w) -> has wog g;
}.
Lemma vpre_step P wog s gls wog' s' : vpre wog s -> vstep P wog s gls wog' s' -> vpre wog' s'.
Proof using.
  intros [P1 P2 P3 P4] S. split.
  - by rewrite (em_c _ _ _ _ _ (vs_emit _ _ _ _ _ _ S)).
  - eapply cowinv_emit; [apply S|done].
  - intros x Hx. apply S. auto.
  - intros g gt G Hk. apply S. eauto.
Qed.
Context (K : nat).
Context (HK : forall l' m fuel, calls h c l' -> h_circ h !! l' = Some m -> (K <= fuel)%nat -> wa_spec h fuel l' m).
Definition vclaim (fuel : nat) (g : N) : Prop := forall gt wog s, gate_map c !! g = Some gt -> vpre wog s -> ~ has wog g ->
  exists gls wog' s', write_single h fuel g gt wog s = (Ok wog', s') /\ vstep (touch c g) wog s gls wog' s' /\ has wog' g.

Lemma vensure_ok fuel wog s a : vclaim fuel a -> vpre wog s -> is_Some (gate_map c !! a) ->
  exists gls wog' s', ensure h (write_single h fuel) wog a s = (Ok wog', s') /\ vstep (touch c a) wog s gls wog' s' /\ has wog' a.
Proof using E.
  intros Hc Hp [gt G]. unfold ensure. destruct (wog !! a) as [w|] eqn:Ea.
  - exists [], wog, s. split; [done|]. split; [apply vstep_refl|by exists w].
  - destruct (Hc gt wog s G Hp) as (gls & wog' & s' & E1 & S1 & H1).
    { intros [w Hw]. congruence. }
    exists gls, wog', s'. split; [|done]. unfold st_bind. rewrite (w_gate_ok h l c E s a gt (vp_c _ _ Hp) G). exact E1.
Qed.
Lemma vensure_all_ok fuel ids : (forall a, a ∈ ids -> vclaim fuel a /\ is_Some (gate_map c !! a)) -> forall wog s, vpre wog s ->
  exists gls wog' s', ensure_all h (write_single h fuel) wog ids s = (Ok wog', s') /\
    vstep (fun x => exists a, a ∈ ids /\ touch c a x) wog s gls wog' s' /\ (forall a, a ∈ ids -> has wog' a).
Proof using E.
  unfold ensure_all. induction ids as [|a r IH]; intros Hall wog s Hp.
  - exists [], wog, s. split; [done|]. split; [apply vstep_refl|]. intros a Ha. by apply elem_of_nil in Ha.
  - destruct (Hall a) as [Ca Ga]; [left|]. destruct (vensure_ok fuel wog s a Ca Hp Ga) as (g1 & w1 & s1 & E1 & S1 & H1).
    destruct (IH ltac:(intros; apply Hall; by right) w1 s1) as (g2 & w2 & s2 & E2 & S2 & H2); [by eapply vpre_step|].
    exists (g1 ++ g2), w2, s2. split; [cbn [st_foldM]; unfold st_bind; rewrite E1; exact E2|]. split.
    + eapply vstep_trans.
      * eapply vstep_mono; [|exact S1]. intros x T. exists a. split; [left|done].
      * eapply vstep_mono; [|exact S2]. intros x (b & Hb & T). exists b. split; [by right|done].
    + intros b [->|Hb]%elem_of_cons; [|auto]. by apply S2.
Qed.
Lemma vrest_ok fuel g gt wog s : gate_map c !! g = Some gt -> is_logic gt = true \/ is_module gt = true -> (K <= fuel)%nat -> vpre wog s ->
  (forall a, a ∈ operands gt -> has wog a) -> ~ has wog g ->
  exists gls wog' s', rest h fuel g gt wog s = (Ok wog', s') /\ vstep (touch c g) wog s gls wog' s' /\ has wog' g.
Proof using D CI E HK.
  intros G Hk Hf Hp Hops Hg.
  assert (Hlog : forall k ws, kind_of_gate gt = Some k -> Forall2 (fun a w => wog !! a = Some w) (operands gt) ws ->
    rest h fuel g gt wog s = update_wire g (Some ws) (gate_to_str gt) wog s ->
    exists gls wog' s', rest h fuel g gt wog s = (Ok wog', s') /\ vstep (touch c g) wog s gls wog' s' /\ has wog' g).
  { intros k ws Kk F Er. destruct (vlogic_step wog s g gt k ws G Kk F (vp_given _ _ Hp) Hg) as [E1 S1].
    eexists _, _, _. split; [rewrite Er; exact E1|]. split; [exact S1|]. unfold has; rewrite lookup_insert; by eexists. }
  destruct gt as [| |a|a b|a b|a b|il ol ids oi mid]; try (by destruct Hk).
  - destruct (Hops a) as [x Hx]; [left|]. apply (Hlog KInv [x]); [done|by repeat constructor|].
    cbn [rest]. unfold st_bind. by rewrite (w_key_ok wog a x s Hx).
  - destruct (Hops a) as [x Hx]; [left|]. destruct (Hops b) as [y Hy]; [right; left|]. apply (Hlog KXor [x; y]); [done|by repeat constructor|].
    cbn [rest]. unfold st_bind. by rewrite (w_key_ok wog a x s Hx), (w_key_ok wog b y s Hy).
  - destruct (Hops a) as [x Hx]; [left|]. destruct (Hops b) as [y Hy]; [right; left|]. apply (Hlog KAnd [x; y]); [done|by repeat constructor|].
    cbn [rest]. unfold st_bind. by rewrite (w_key_ok wog a x s Hx), (w_key_ok wog b y s Hy).
  - destruct (Hops a) as [x Hx]; [left|]. destruct (Hops b) as [y Hy]; [right; left|]. apply (Hlog KOr [x; y]); [done|by repeat constructor|].
    cbn [rest]. unfold st_bind. by rewrite (w_key_ok wog a x s Hx), (w_key_ok wog b y s Hy).
  - destruct (calls_of h D l c E _ _ _ _ _ _ G) as (x & l' & m & Ex & Em & El' & Hcall).
    apply (vmodule_step fuel wog s g il ol ids oi mid x l' m G Ex Em El'); [by apply HK|apply Hp|apply Hp|done|apply Hp|done].
Qed.
Lemma vclaim_ok g : forall fuel, (K + N.to_nat g < fuel)%nat -> vclaim fuel g.
Proof using D CI E HK.
  induction (N.lt_wf_0 g) as [g _ IH]. intros fuel Hf gt wog s G Hp Hg.
  destruct fuel as [|fuel]; [lia|].
  assert (Hk : is_logic gt = true \/ is_module gt = true).
  { destruct gt; try (by left); try (by right); destruct Hg; eapply (vp_base _ _ Hp); eauto. }
  assert (Hsl : start c g <= g) by (by eapply start_lt).
  destruct (vensure_all_ok fuel (operands gt)) with (wog := wog) (s := s) as (g1 & w1 & s1 & E1 & S1 & H1); [|done|].
  { intros a Ha. pose proof (operand_lt_start h c Cd g gt a G Ha). split; [|by eapply (operand_exists h l c Hinv E Cd)].
    apply IH; lia. }
  destruct (vrest_ok fuel g gt w1 s1 G Hk) as (g2 & w2 & s2 & E2 & S2 & H2); [lia|by eapply vpre_step|done| |].
  { unfold has. destruct (vs_same _ _ _ _ _ _ S1 g) as [->|((a & Ha & T) & _)]; [exact Hg|].
    exfalso. eapply (touch_not_blk h l c Hinv E Cd g gt a g G Ha T). by eapply (blk_self c W). }
  exists (g1 ++ g2), w2, s2. split; [|split; [|done]].
  - rewrite single_rest by done. unfold st_bind. rewrite E1. exact E2.
  - eapply vstep_trans; [|exact S2]. eapply vstep_mono; [|exact S1]. intros x (a & Ha & T). by eapply touch_oper.
Qed.

(** * The two loops over the outputs *)
Lemma vpass1_ok fuel : (K + N.to_nat (gate_index c) < fuel)%nat -> forall ks wog s acc, (forall k, k ∈ ks -> k < output_len c) -> vpre wog s ->
  exists gls wog' s' outs, st_foldM (write_pass1 h (write_single h fuel)) (wog, acc) ks s = (Ok (wog', acc ++ outs), s') /\
    vstep (used c) wog s gls wog' s' /\ outs_of c ks outs.
Proof using D CI E HK.
  intros Hf. induction ks as [|k r IH]; intros wog s acc Hks Hp.
  - exists [], wog, s, []. rewrite app_nil_r. split; [done|]. split; [apply vstep_refl|constructor].
  - destruct (wf_outputs c W k) as (o & Eo & gt & G); [apply Hks; left|].
    destruct (vensure_all_ok fuel (operands gt)) with (wog := wog) (s := s) as (g1 & w1 & s1 & E1 & S1 & H1); [|done|].
    { intros a Ha. destruct (operand_exists h l c Hinv E Cd o gt a G Ha) as [ga Ga]. split; [|by eexists].
      apply vclaim_ok. pose proof (gm_lt c a ga W Ga). lia. }
    assert (Hstep : write_pass1 h (write_single h fuel) (wog, acc) k s = (Ok (w1, acc ++ [(o, gt)]), s1)).
    { unfold write_pass1. unfold st_bind at 1. unfold w_circ. rewrite (vp_c _ _ Hp), E. unfold st_bind at 1. unfold c_output_to_gate_id, st_lift. rewrite Eo.
      unfold st_bind at 1. unfold c_get_gate. rewrite G. cbn [fst snd]. destruct gt; unfold st_bind, st_ret; cbn [operands] in E1; rewrite ?E1; try done.
      - by injection E1 as -> ->. - by injection E1 as -> ->. }
    destruct (IH w1 s1 (acc ++ [(o, gt)])) as (g2 & w2 & s2 & outs & E2 & S2 & F2); [intros; apply Hks; by right|by eapply vpre_step|].
    exists (g1 ++ g2), w2, s2, ((o, gt) :: outs). split; [|split].
    + cbn [st_foldM]. unfold st_bind. rewrite Hstep, E2. by rewrite <- app_assoc.
    + eapply vstep_trans; [|exact S2]. eapply vstep_mono; [|exact S1]. intros x (a & Ha & T). exists k, o. split; [done|]. by eapply touch_oper.
    + by constructor.
Qed.
Lemma vpass2_ok fuel : (K + N.to_nat (gate_index c) < fuel)%nat -> forall ks outs, outs_of c ks outs -> forall wog s, vpre wog s ->
  exists gls wog' s', st_foldM (write_pass2 (write_single h fuel)) wog outs s = (Ok wog', s') /\ vstep (used c) wog s gls wog' s' /\
    (forall p, p ∈ outs -> has wog' p.1).
Proof using D CI E HK.
  intros Hf ks outs F. induction F as [|k p ks outs [Eo G] _ IH]; intros wog s Hp.
  - exists [], wog, s. split; [done|]. split; [apply vstep_refl|]. intros p Hin. by apply elem_of_nil in Hin.
  - assert (exists g1 w1 s1, write_pass2 (write_single h fuel) wog p s = (Ok w1, s1) /\ vstep (used c) wog s g1 w1 s1 /\ has w1 p.1) as (g1 & w1 & s1 & E1 & S1 & H1).
    { unfold write_pass2. destruct (wog !! p.1) as [w|] eqn:Ew.
      - exists [], wog, s. split; [done|]. split; [apply vstep_refl|by exists w].
      - destruct (vclaim_ok p.1 fuel) with (gt := p.2) (wog := wog) (s := s) as (g1 & w1 & s1 & E1 & S1 & H1); try done.
        { pose proof (gm_lt c _ _ W G). lia. } { intros [w Hw]. congruence. }
        exists g1, w1, s1. split; [done|]. split; [|done]. eapply vstep_mono; [|exact S1]. intros x T. exists k, p.1. done. }
    destruct (IH w1 s1) as (g2 & w2 & s2 & E2 & S2 & H2); [by eapply vpre_step|].
    exists (g1 ++ g2), w2, s2. split; [cbn [st_foldM]; unfold st_bind; rewrite E1; exact E2|]. split; [by eapply vstep_trans|].
    intros p' [->|Hin]%elem_of_cons; [|auto]. by apply S2.
Qed.

(** * The constants *)
Lemma vconsts_ok ids : forall wog s, NoDup ids -> w_c s = l -> (forall x, x ∈ ids -> const_at' c x) ->
  exists wog' s', st_foldM (write_const h) wog ids s = (Ok wog', s') /\ emit wog s [] wog' s' /\ w_const s' = w_const s + N.of_nat (length ids) /\
    (forall x, x ∉ ids -> wog' !! x = wog !! x) /\
    forall j x, ids !! j = Some x -> wog' !! x = Some (w_const s + N.of_nat j) /\
      forall b, gate_map c !! x = Some (GConst b) -> w_cow s' !! (w_const s + N.of_nat j) = Some b.
Proof using E.
  induction ids as [|x r IH]; intros wog s Hnd Hs Hall.
  - exists wog, s. split; [done|]. split; [apply emit_refl|]. split; [simpl; lia|]. done.
  - apply NoDup_cons in Hnd as [Hx Hnd]. destruct (Hall x) as [b Gb]; [left|].
    set (s1 := WState (w_c s) (w_num s) (w_const s + 1) (w_out s) (<[w_const s := b]> (w_cow s))).
    assert (E1 : write_const h wog x s = (Ok (<[x := w_const s]> wog), s1)).
    { unfold write_const, st_bind. rewrite (w_gate_ok h l c E s x (GConst b)) by done. reflexivity. }
    assert (M1 : emit wog s [] (<[x := w_const s]> wog) s1).
    { split; cbn [s1 w_c w_num w_const w_out w_cow]; try done.
      + by rewrite app_nil_r.
      + simpl. lia.
      + lia.
      + intros I. apply insert_subseteq. apply eq_None_not_Some. intros Hw%I. lia.
      + intros w. unfold WriterFacts.between. destruct (decide (w = w_const s)) as [-> |Hw].
        * rewrite lookup_insert. split; [intros _; right; lia|]. intros _. by eexists.
        * rewrite lookup_insert_ne by done. split; [by left|]. intros [?|?]; [done|lia].
      + intros w [y Hy]. apply lookup_insert_Some in Hy as [[_ <-]|[_ Hy] ]; [right; left; split; lia|]. left. by exists y. }
    destruct (IH (<[x := w_const s]> wog) s1 Hnd) as (w2 & s2 & E2 & M2 & L2 & O2 & H2); [done|intros y Hy; apply Hall; by right|].
    assert (Hkeep : w_cow s2 !! w_const s = w_cow s1 !! w_const s).
    { clear - E2 E Hs Hall. assert (forall ids wog s wog' s', st_foldM (write_const h) wog ids s = (Ok wog', s') -> forall w, w < w_const s -> w_cow s' !! w = w_cow s !! w) as Hgen.
      { clear. induction ids as [|y r' IH']; intros wog s wog' s' H w Hw; [by injection H as _ <-|].
        cbn [st_foldM] in H. unfold st_bind in H. destruct (write_const h wog y s) as [[w1| | |] s1] eqn:E1; try done.
        unfold write_const, st_bind in E1. destruct (w_gate h y s) as [[gt| | |] s0] eqn:E0; try done.
        assert (s0 = s) as ->. { unfold w_gate, st_bind, w_circ, st_lift in E0. destruct (h_circ h !! w_c s) as [c0|]; [|done]. by injection E0. }
        destruct gt; try (injection E1 as <- <-; by eapply IH'). cbn in E1. injection E1 as <- <-. erewrite IH'; [|exact H|cbn; lia]. cbn. by rewrite lookup_insert_ne by lia. }
      eapply Hgen; [exact E2|]. cbn. lia. }
    exists w2, s2. split; [cbn [st_foldM]; unfold st_bind; rewrite E1; exact E2|]. split; [apply (emit_trans _ _ [] _ _ [] _ _ M1 M2)|]. cbn [s1 w_const] in *.
    split; [cbn [length]; lia|]. split.
    + intros y Hy. apply not_elem_of_cons in Hy as [Hy1 Hy2]. rewrite O2 by done. by rewrite lookup_insert_ne.
    + intros [|j] y Hj.
      * injection Hj as <-. rewrite N.add_0_r. split; [rewrite O2 by done; by rewrite lookup_insert|]. intros b' Gb'. rewrite Hkeep. cbn [s1 w_cow]. rewrite lookup_insert. congruence.
      * destruct (H2 j y Hj) as [H3 H4]. replace (w_const s + N.of_nat (Datatypes.S j)) with (w_const s + 1 + N.of_nat j) by lia. done.
Qed.
End circ.

(** What [write] does for circuit [l] with the map [given], when the writer already gave out [n0] wire numbers. *)
Record given_ok (h : heap) (c : circuit) (given : wmap) (n0 : N) (gls : list gline) (vals : list bool) (wog : wmap) : Prop := {
  gk_lines : forall k gl, gls !! k = Some gl -> gl_outs gl = [n0 + input_len c + num_const c + N.of_nat k];
  gk_gates : N.of_nat (length gls) + share h c is_logic num_gate given <= num_gate c;
  gk_consts : N.of_nat (length vals) <= num_const c;
  gk_ext : forall g, is_Some (given !! g) -> is_Some (wog !! g);
  gk_outs : forall k o, output_map c !! k = Some o -> is_Some (wog !! o);
  gk_inputs : forall g i, gate_map c !! g = Some (GInput i) -> wog !! g = Some (n0 + i);
  gk_const : forall j g, const_gates c !! j = Some g -> wog !! g = Some (input_len c + N.of_nat j);
  gk_same : forall g, settled given c g \/ gate_map c !! g = None -> wog !! g = given !! g;
  gk_new : forall g gt, gate_map c !! g = Some gt -> is_logic gt = true \/ is_module gt = true -> ~ used c g -> wog !! g = given !! g;
  gk_sound : forall q inputs ν e, N.of_nat (length inputs) = input_len c ->
    (forall g, is_Some (gate_map c !! g) -> ~ settled given c g -> obeys h c inputs ν g) ->
    (forall i b, inputs !! i = Some b -> e !! (n0 + N.of_nat i) = Some b) ->
    (forall i b, vals !! i = Some b -> e !! (input_len c + N.of_nat i) = Some b) ->
    (forall g gt w, given !! g = Some w -> gate_map c !! g = Some gt -> is_logic gt = true \/ is_module gt = true ->
      w < n0 + input_len c + num_const c /\ e !! w = Some (ν g)) ->
    exists e', exec_lines q e gls = Some e' /\ (forall w, w < n0 + input_len c + num_const c -> e' !! w = e !! w) /\
      forall g w, is_Some (gate_map c !! g) -> wog !! g = Some w -> e' !! w = Some (ν g);
}.
Lemma own_consts h c : cwf c -> Counts.nsum (map (weight is_const num_const h c) (nrange (gate_index c))) =
  Counts.nsum (map (weight none num_const h c) (nrange (gate_index c))) + N.of_nat (length (const_gates c)).
Proof.
  intros W. rewrite (wf_consts c W).
  rewrite (nsum_pointwise (weight is_const num_const h c) (weight none num_const h c) (fun x => if const_at (gate_map c) x then 1 else 0)).
  - f_equal. generalize (nrange (gate_index c)) as xs. induction xs as [|x xs IH]; [done|]. cbn [map List.filter]. simpl. rewrite IH.
    destruct (const_at (gate_map c) x); cbn [length]; lia.
  - intros x. unfold weight, const_at. destruct (gate_map c !! x) as [[]|]; cbn; lia.
Qed.
Lemma depth_of_calls h l c : dinv h -> cinv h -> h_circ h !! l = Some c ->
  exists K, forall l' m fuel, calls h c l' -> h_circ h !! l' = Some m -> (K <= fuel)%nat -> wa_spec h fuel l' m.
Proof.
  intros D CI E.
  set (P := fun (g : N) (k : nat) => forall il ol ids oi mid x l', gate_map c !! g = Some (GModule il ol ids oi mid) ->
    h_stor h !! c_storage c = Some x -> module_map x !! mid = Some l' -> forall fuel m, h_circ h !! l' = Some m -> (k <= fuel)%nat -> wa_spec h fuel l' m).
  destruct (bounded_choice P (gate_index c)) as [K HK].
  { intros g k k' HP Hle il ol ids oi mid x l' G S M fuel m El' Hf. eapply HP; eauto. lia. }
  { intros g _. destruct (gate_map c !! g) as [gt|] eqn:G; [|exists O; intros ????????; congruence].
    destruct gt as [| | | | | |il ol ids oi mid]; try (exists O; intros ????????; congruence).
    destruct (hi_calls h (di_inv h D) _ _ _ _ _ _ _ _ E G) as (x & l' & m & Ex & Em & El' & _).
    destruct (wa_total h D CI l' m El') as [F HF].
    exists F. intros il2 ol2 ids2 oi2 mid2 x2 l2 G2 Ex2 Em2 fuel m2 El2 Hf. simplify_eq. by apply HF. }
  exists K. intros l' m fu (g & il & ol & ids & oi & mid & x & G & Ex & Em) El' Hf'.
  assert (Hlt : g < gate_index c) by (eapply gm_lt; [exact (hi_circ h (di_inv h D) l c E)|exact G]).
  by eapply (HK g Hlt il ol ids oi mid x l' G Ex Em).
Qed.
Lemma write_given h l c : dinv h -> cinv h -> h_circ h !! l = Some c ->
  exists F, forall fuel st first given, (F <= fuel)%nat -> w_c st = l -> first <= input_len c + num_const c ->
    exists gls vals wog st', write h fuel first given st = (Ok (vals, wog), st') /\
      w_out st' = w_out st ++ header c first ++ map wline gls /\ w_c st' = l /\
      w_num st' = w_num st + input_len c + num_const c + N.of_nat (length gls) /\ given_ok h c given (w_num st) gls vals wog.
Proof.
  intros D CI E. pose proof (hi_circ h (di_inv h D) l c E) as W. destruct (depth_of_calls h l c D CI E) as [K HK].
  exists (K + N.to_nat (gate_index c) + 2)%nat. intros fuel st first given Hf Hc Hfirst. destruct fuel as [|fuel]; [lia|].
  set (s1 := WState (w_c st) (w_num st) (w_const st) (w_out st ++ header c first) ∅).
  destruct (inputs_ok h l c W E (N.to_nat (input_len c)) fuel (N.to_nat (input_len c) + size (input_map c) + 1) 0 given s1) as (w1 & E1 & H1);
    [lia|done|lia|].
  rewrite N2Nat.id in E1. cbn [s1 w_c w_num w_const w_out w_cow] in E1.
  set (s3 := WState (w_c st) (w_num st + input_len c + num_const c) (input_len c) (w_out st ++ header c first) ∅).
  assert (Hcg : forall x, x ∈ const_gates c <-> const_at' c x).
  { intros x. rewrite (wf_consts c W), elem_of_list_In, filter_In, <- elem_of_list_In, elem_of_nrange. unfold const_at, const_at'. split.
    - intros [_ H]. destruct (gate_map c !! x) as [[]|]; try done. by eexists.
    - intros [b Gb]. rewrite Gb. split; [by eapply gm_lt|done]. }
  assert (Hcnd : NoDup (const_gates c)). { rewrite (wf_consts c W). apply NoDup_ListNoDup, List.NoDup_filter, NoDup_ListNoDup, NoDup_nrange. }
  destruct (vconsts_ok h l c E (const_gates c) w1 s3 Hcnd Hc ltac:(intros x; by apply Hcg)) as (w2 & s4 & E2 & M2 & L2 & O2 & V2).
  assert (Hin : forall g i, gate_map c !! g = Some (GInput i) -> w1 !! g = Some (w_num st + i)).
  { intros g i G. rewrite H1, G. cbn [s1 w_num]. destruct (N.leb_spec 0 i); [|lia]. f_equal. lia. }
  assert (Hgate : forall g, (forall gt, gate_map c !! g = Some gt -> is_logic gt = true \/ is_module gt = true) -> w2 !! g = given !! g).
  { intros g Hk. rewrite O2. { rewrite H1. destruct (gate_map c !! g) as [[]|] eqn:G; try done. by destruct (Hk _ eq_refl). }
    intros [b Gb]%Hcg. by destruct (Hk _ Gb). }
  assert (Hin2 : forall g i, gate_map c !! g = Some (GInput i) -> w2 !! g = Some (w_num st + i)).
  { intros g i G. rewrite O2; [by apply Hin|]. intros [b Gb]%Hcg. congruence. }
  assert (Hext2 : forall x, has given x -> has w2 x).
  { intros x Hx. unfold has. destruct (decide (x ∈ const_gates c)) as [Hxc|Hxc].
    - apply elem_of_list_lookup in Hxc as [j Hj]. destruct (V2 j x Hj) as [-> _]. by eexists.
    - rewrite O2 by done. rewrite H1. destruct (gate_map c !! x) as [[]|]; try done. destruct (0 <=? w); [by eexists|done]. }
  assert (Hp : vpre l c given w2 s4).
  { split.
    - rewrite (em_c _ _ _ _ _ M2). exact Hc.
    - eapply cowinv_emit; [exact M2|]. intros w [b Hb]. cbn in Hb. by rewrite lookup_empty in Hb.
    - exact Hext2.
    - intros g gt G [Hk|[w ->] ].
      + destruct gt; try done. assert (g ∈ const_gates c) as Hgc by (apply Hcg; by eexists). apply elem_of_list_lookup in Hgc as [j Hj].
        destruct (V2 j g Hj) as [Hw _]. rewrite Hw || unfold has; rewrite Hw; by eexists.
      + unfold has. rewrite (Hin2 g w G). by eexists. }
  destruct (vpass1_ok h D CI l c E given K HK (Datatypes.S fuel) ltac:(lia) (nrange (output_len c)) w2 s4 []) as (g2 & w3 & s5 & outs & E3 & S3 & F3);
    [intros k Hk; by apply elem_of_nrange in Hk|done|].
  assert (Hp3 : vpre l c given w3 s5) by (by eapply vpre_step).
  destruct (vpass2_ok h D CI l c E given K HK (Datatypes.S fuel) ltac:(lia) _ outs F3 w3 s5 Hp3) as (g3 & w4 & s6 & E4 & S4 & H4).
  pose proof (vstep_trans _ _ _ _ _ _ _ _ _ _ _ _ S3 S4) as S.
  set (gls := g2 ++ g3) in *.
  assert (Eall : write_all h (write_single h (Datatypes.S fuel)) w1 s3 = (Ok w4, s6)).
  { unfold write_all. unfold st_bind at 1. unfold w_circ. assert (w_c s3 = l) as -> by exact Hc. rewrite E. unfold st_bind at 1. unfold c_get_const_gates.
    rewrite E2. unfold st_bind at 1. rewrite E3. cbn [app]. exact E4. }
  pose proof (emit_trans _ _ [] _ _ _ _ _ M2 (vs_emit _ _ _ _ _ _ _ _ _ S)) as Em. cbn [app] in Em.
  pose proof (em_num _ _ _ _ _ Em) as N4. pose proof (em_const _ _ _ _ _ Em) as C4. cbn [s3 w_num w_const] in N4, C4.
  assert (Hnum : w_num s4 = w_num st + input_len c + num_const c). { rewrite (em_num _ _ _ _ _ M2). cbn [s3 w_num length]. lia. }
  assert (Hshare : share h c is_logic num_gate w2 = share h c is_logic num_gate given).
  { apply nsum_ext. intros x _. unfold weight. destruct (gate_map c !! x) as [gt|] eqn:G; [|by destruct (decide _), (decide _)].
    destruct (is_logic gt || is_module gt) eqn:Hk.
    - assert (whole c w2 x <-> whole c given x) as Hiff.
      { unfold whole. rewrite !Forall_forall. split; intros H y Hy; specialize (H y Hy); unfold has in *.
        - rewrite Hgate in H; [done|]. intros gy Gy. destruct (blk_member c W x gt y G Hy) as (gy' & Gy' & _ & _ & _ & _ & Hm & Hl). rewrite Gy in Gy'. injection Gy' as <-.
          rewrite Hm. destruct (is_module gt) eqn:Em'; [by right|]. rewrite (Hl eq_refl). apply orb_true_iff in Hk. tauto.
        - rewrite Hgate; [done|]. intros gy Gy. destruct (blk_member c W x gt y G Hy) as (gy' & Gy' & _ & _ & _ & _ & Hm & Hl). rewrite Gy in Gy'. injection Gy' as <-.
          rewrite Hm. destruct (is_module gt) eqn:Em'; [by right|]. rewrite (Hl eq_refl). apply orb_true_iff in Hk. tauto. }
      destruct (decide (whole c w2 x)), (decide (whole c given x)); tauto.
    - destruct gt; try done; by destruct (decide _), (decide _). }
  destruct (CI l c E) as [CG CC].
  assert (Hng : N.of_nat (length gls) + share h c is_logic num_gate given <= num_gate c).
  { pose proof (vs_ng _ _ _ _ _ _ _ _ _ S) as HG. rewrite Hshare in HG.
    assert (share h c is_logic num_gate w4 <= num_gate c). { rewrite CG. apply nsum_le. intros x. destruct decide; lia. }
    lia. }
  assert (Hnc : w_const s6 <= input_len c + num_const c).
  { pose proof (vs_nc _ _ _ _ _ _ _ _ _ S) as HG. rewrite own_consts in CC by done.
    assert (share h c none num_const w4 <= Counts.nsum (map (weight none num_const h c) (nrange (gate_index c)))). { apply nsum_le. intros x. destruct decide; lia. }
    cbn [s3 w_const] in L2. lia. }
  destruct (mapM_key_ok (w_cow s6) (map (fun i => input_len c + i) (nrange (w_const s6 - input_len c))) s6) as (vals & E5 & F5).
  { intros k Hk. apply elem_of_list_fmap in Hk as (i & -> & Hi%elem_of_nrange). apply (em_dom _ _ _ _ _ Em). right. cbn [s3 w_const]. split; lia. }
  assert (Lv : N.of_nat (length vals) = w_const s6 - input_len c). { rewrite <- (Forall2_length _ _ _ F5), map_length, nrange_length. lia. }
  assert (Hvals : forall i b, vals !! i = Some b <-> w_cow s6 !! (input_len c + N.of_nat i) = Some b /\ N.of_nat i < w_const s6 - input_len c).
  { intros i b. split.
    - intros Hi. destruct (Forall2_lookup_r _ _ _ _ _ F5 Hi) as (k & Hk & Hw). rewrite list_lookup_fmap, nrange_lookup in Hk.
      destruct decide; [|done]. simpl in Hk. injection Hk as <-. done.
    - intros [Hw Hlt]. destruct (lookup_lt_is_Some_2 vals i) as [b' Hb']; [lia|].
      destruct (Forall2_lookup_r _ _ _ _ _ F5 Hb') as (k & Hk & Hw'). rewrite list_lookup_fmap, nrange_lookup in Hk.
      rewrite decide_True in Hk by done. simpl in Hk. injection Hk as <-. congruence. }
  exists gls, vals, w4, s6. split; [|split; [|split; [|split]]].
  - unfold write. unfold st_bind at 1. unfold w_circ. rewrite Hc, E. cbn zeta.
    rewrite (proj2 (N.leb_le first (input_len c + num_const c)) Hfirst).
    assert (Z.to_N (num_wire c) + num_const c = input_len c + num_gate c + 2 * num_const c) as ->.
    { rewrite (wf_wires c W), N2Z.id. lia. }
    do 6 (unfold st_bind at 1; cbn [w_write w_set_cow st_ret w_c w_num w_const w_out w_cow]).
    rewrite <- !app_assoc. cbn [app]. change (w_out st ++ _) with (w_out st ++ header c first).
    unfold st_bind at 1. unfold s1 in E1. rewrite E1. do 3 (unfold st_bind at 1; cbn [w_set_const w_get w_set_num w_c w_num w_const w_out w_cow]).
    unfold st_bind at 1. unfold s3 in Eall. rewrite Eall. unfold st_bind at 1. cbn [w_get]. unfold st_bind at 1. rewrite E5. done.
  - rewrite (em_out _ _ _ _ _ Em). cbn [s3 w_out]. by rewrite app_assoc.
  - rewrite (em_c _ _ _ _ _ Em). exact Hc.
  - exact N4.
  - assert (Hkeep : forall g, whole c w2 g \/ ~ used c g -> w4 !! g = w2 !! g).
    { intros g Hg. destruct (vs_same _ _ _ _ _ _ _ _ _ S g) as [?|[Hu Hn] ]; [done|]. by destruct Hg. }
    assert (Hbase : forall g gt, gate_map c !! g = Some gt -> is_module gt = false -> is_Some (w2 !! g) -> w4 !! g = w2 !! g).
    { intros g gt G Hm Hw. apply Hkeep. left. unfold whole. rewrite (blk_logic c g gt G Hm). constructor; [done|constructor]. }
    split.
    + intros k gl Hk. destruct (em_lines _ _ _ _ _ Em k gl Hk) as (O1 & _). exact O1.
    + exact Hng.
    + lia.
    + intros g Hg. apply (vs_ext _ _ _ _ _ _ _ _ _ S). by apply Hext2.
    + intros k o Ho. assert (k < output_len c). { destruct (decide (k < output_len c)); [done|]. rewrite (wf_outputs_none c W) in Ho by lia. done. }
      destruct (Forall2_lookup_l _ _ _ (N.to_nat k) k F3) as (p & Hpk & Eo & _).
      { rewrite nrange_lookup, decide_True by lia. f_equal. lia. }
      rewrite Ho in Eo. injection Eo as ->. apply H4. by eapply elem_of_list_lookup_2.
    + intros g i G. rewrite (Hbase g _ G eq_refl); [by apply Hin2|]. rewrite (Hin2 g i G). by eexists.
    + intros j g Hj. destruct (V2 j g Hj) as [Hw _]. cbn [s3 w_const] in Hw. destruct (proj1 (Hcg g) (elem_of_list_lookup_2 _ _ _ Hj)) as [b G].
      rewrite (Hbase g _ G eq_refl); [done|]. rewrite Hw. by eexists.
    + intros g [ [(gt & G & Hk) Hs]|G].
      * rewrite Hkeep. { apply Hgate. intros gt' G'. rewrite G in G'. by injection G' as <-. }
        left. apply Forall_forall. intros x Hx. apply Hext2, Hs. destruct gt as [| | | | | |il ol ids oi mid];
          try (rewrite (blk_logic c g _ G eq_refl) in Hx; apply elem_of_list_singleton in Hx as ->; by left).
        right. apply (blk_module c _ _ _ _ _ _ _ G) in Hx. exists il, ol, ids, oi, mid, (x - (g - oi)). split; [done|]. lia.
      * rewrite Hkeep. { apply Hgate. intros gt' G'. congruence. }
        right. intros (k & o & Eo & T). assert (is_Some (gate_map c !! o)) as Hso.
        { assert (k < output_len c). { destruct (decide (k < output_len c)); [done|]. rewrite (wf_outputs_none c W) in Eo by lia. done. }
          destruct (wf_outputs c W k) as (o' & Eo' & Hs); [lia|]. congruence. }
        assert (is_Some (gate_map c !! g)) as [? ?]; [|congruence]. clear - T Hso E D W. induction T as [a x Hx|a gt a' x Ga Ha T IH].
        -- destruct Hso as [gt Gt]. destruct (blk_member c W a gt x Gt Hx) as (gx & -> & _). by eexists.
        -- apply IH. by eapply (operand_exists h l c (di_inv h D) E (di_disc h D l c E)).
    + intros g gt G Hk Hu. rewrite Hkeep by (by right). apply Hgate. intros gt' G'. rewrite G in G'. by injection G' as <-.
    + intros q inputs ν e Hl Hob Hi Hv Hg.
      assert (Hcons : cons_ok e (w_cow s6)).
      { intros w b Hb. assert (WriterFacts.between (input_len c) (w_const s6) w) as [B1 B2].
        { assert (is_Some (w_cow s6 !! w)) as Hs by eauto. apply (em_dom _ _ _ _ _ Em) in Hs as [Hs|Hs]; [|exact Hs]. cbn in Hs. rewrite lookup_empty in Hs. by destruct Hs. }
        replace w with (input_len c + N.of_nat (N.to_nat (w - input_len c))) by lia. apply Hv, Hvals.
        replace (input_len c + N.of_nat (N.to_nat (w - input_len c))) with w by lia. split; [done|lia]. }
      assert (Hill : forall g i, gate_map c !! g = Some (GInput i) -> i < input_len c).
      { intros g i G. destruct (decide (i < input_len c)); [done|]. pose proof (wf_input_gates c W g i G) as Hx. rewrite (wf_inputs_none c W) in Hx by lia. done. }
      assert (Hns : forall g gt, gate_map c !! g = Some gt -> is_logic gt = false -> is_module gt = false -> obeys h c inputs ν g).
      { intros g gt G K1 K2. apply Hob; [by eexists|]. intros [(gt' & G' & Hk) _]. rewrite G in G'. injection G' as <-. destruct Hk; congruence. }
      destruct (vs_sound _ _ _ _ _ _ _ _ _ S inputs ν q e Hob) as (e' & X & Kp & R & _).
      { apply Hp. }
      { rewrite Hnum. lia. }
      { intros g w [gt G] Hw. rewrite Hnum. destruct gt as [i|b| | | | |].
        - rewrite (Hin2 g i G) in Hw. injection Hw as <-. pose proof (Hill g i G). lia.
        - assert (g ∈ const_gates c) as Hgc by (apply Hcg; by eexists). apply elem_of_list_lookup in Hgc as [j Hj].
          destruct (V2 j g Hj) as [Hw' _]. rewrite Hw in Hw'. injection Hw' as ->. cbn [s3 w_const] in L2 |- *. apply lookup_lt_Some in Hj. pose proof (em_const _ _ _ _ _ (vs_emit _ _ _ _ _ _ _ _ _ S)). lia.
        - rewrite Hgate in Hw by (intros gt' G'; rewrite G in G'; injection G' as <-; by left). by apply (Hg g _ w Hw G ltac:(by left)).
        - rewrite Hgate in Hw by (intros gt' G'; rewrite G in G'; injection G' as <-; by left). by apply (Hg g _ w Hw G ltac:(by left)).
        - rewrite Hgate in Hw by (intros gt' G'; rewrite G in G'; injection G' as <-; by left). by apply (Hg g _ w Hw G ltac:(by left)).
        - rewrite Hgate in Hw by (intros gt' G'; rewrite G in G'; injection G' as <-; by left). by apply (Hg g _ w Hw G ltac:(by left)).
        - rewrite Hgate in Hw by (intros gt' G'; rewrite G in G'; injection G' as <-; by right). by apply (Hg g _ w Hw G ltac:(by right)). }
      { exact Hcons. }
      { intros g w [gt G] Hw. destruct gt as [i|b| | | | |].
        - rewrite (Hin2 g i G) in Hw. injection Hw as <-. pose proof (Hns g _ G eq_refl eq_refl) as Ho. unfold obeys in Ho. rewrite G in Ho.
          apply Hi in Ho. rewrite N2Nat.id in Ho. exact Ho.
        - assert (g ∈ const_gates c) as Hgc by (apply Hcg; by eexists). apply elem_of_list_lookup in Hgc as [j Hj].
          destruct (V2 j g Hj) as [Hw' Hb]. rewrite Hw in Hw'. injection Hw' as ->. pose proof (Hns g _ G eq_refl eq_refl) as Ho. unfold obeys in Ho. rewrite G in Ho.
          rewrite Ho. apply Hcons. eapply lookup_weaken; [by apply Hb|]. apply (em_cow _ _ _ _ _ (vs_emit _ _ _ _ _ _ _ _ _ S)). apply Hp.
        - rewrite Hgate in Hw by (intros gt' G'; rewrite G in G'; injection G' as <-; by left). by apply (Hg g _ w Hw G ltac:(by left)).
        - rewrite Hgate in Hw by (intros gt' G'; rewrite G in G'; injection G' as <-; by left). by apply (Hg g _ w Hw G ltac:(by left)).
        - rewrite Hgate in Hw by (intros gt' G'; rewrite G in G'; injection G' as <-; by left). by apply (Hg g _ w Hw G ltac:(by left)).
        - rewrite Hgate in Hw by (intros gt' G'; rewrite G in G'; injection G' as <-; by left). by apply (Hg g _ w Hw G ltac:(by left)).
        - rewrite Hgate in Hw by (intros gt' G'; rewrite G in G'; injection G' as <-; by right). by apply (Hg g _ w Hw G ltac:(by right)). }
      exists e'. split; [exact X|]. split; [intros w Hw; apply Kp; lia|exact R].
Qed.

(** * Values *)
(** Every gate of a disciplined circuit has a value. *)
Lemma gv_all h : dinv h -> forall l c inputs, h_circ h !! l = Some c -> N.of_nat (length inputs) = input_len c ->
  forall g, is_Some (gate_map c !! g) -> exists b, gv h l (env_of inputs) g b.
Proof.
  intros D. destruct (di_rank h D) as [rank Hrank].
  assert (forall n l c inputs, (rank l < n)%nat -> h_circ h !! l = Some c -> N.of_nat (length inputs) = input_len c ->
    forall g, is_Some (gate_map c !! g) -> exists b, gv h l (env_of inputs) g b) as Hn.
  2:{ intros l c inputs. apply (Hn (Datatypes.S (rank l))). lia. }
  induction n as [|n IHn]; intros l c inputs Hr E Hl g; [lia|]. pose proof (hi_circ h (di_inv h D) l c E) as W. pose proof (di_disc h D l c E) as Cd.
  induction (N.lt_wf_0 g) as [g _ IH]. intros [gt G].
  assert (forall a, a ∈ operands gt -> exists b, gv h l (env_of inputs) a b) as Hop.
  { intros a Ha. apply IH; [|by eapply (operand_exists h l c (di_inv h D) E Cd)]. pose proof (operand_lt_start h c Cd g gt a G Ha). pose proof (start_lt c g gt G). lia. }
  destruct gt as [i|b|a|a b|a b|a b|il ol ids oi mid]; cbn [operands] in Hop.
  - assert (i < input_len c). { destruct (decide (i < input_len c)); [done|]. pose proof (wf_input_gates c W g i G) as Hx. rewrite (wf_inputs_none c W) in Hx by lia. done. }
    destruct (lookup_lt_is_Some_2 inputs (N.to_nat i)) as [b Hb]; [lia|]. exists b. by eapply gv_input.
  - exists b. by eapply gv_const.
  - destruct (Hop a) as [x Hx]; [left|]. eexists. by eapply gv_not.
  - destruct (Hop a) as [x Hx]; [left|]. destruct (Hop b) as [y Hy]; [right; left|]. eexists. by eapply gv_xor.
  - destruct (Hop a) as [x Hx]; [left|]. destruct (Hop b) as [y Hy]; [right; left|]. eexists. by eapply gv_and.
  - destruct (Hop a) as [x Hx]; [left|]. destruct (Hop b) as [y Hy]; [right; left|]. eexists. by eapply gv_or.
  - destruct (hi_calls h (di_inv h D) _ _ _ _ _ _ _ _ E G) as (x & l' & m & Ex & Em & El' & _).
    destruct (d_arity h c Cd _ _ _ _ _ _ _ _ _ G Ex Em El') as (-> & -> & Hlen). destruct (wf_blocks c W _ _ _ _ _ _ G) as (B1 & _).
    assert (exists bits, Forall2 (gv h l (env_of inputs)) ids bits) as [bits F].
    { clear - Hop. induction ids as [|a r IH]; [by exists []|]. destruct IH as [bs F]; [intros; apply Hop; by right|]. destruct (Hop a) as [b Hb]; [left|].
      exists (b :: bs). by constructor. }
    destruct (wf_outputs m (hi_circ h (di_inv h D) l' m El') oi B1) as (o & Oo & Go).
    destruct (IHn l' m bits) with (g := o) as [b Hb]; [|done| |done|].
    + assert (calls h c l') as Hcall by (exists g, (input_len m), (output_len m), ids, oi, mid, x; done). pose proof (Hrank l c l' E Hcall). lia.
    + rewrite <- (Forall2_length _ _ _ F). lia.
    + exists b. eapply gv_module; eauto.
Qed.
Lemma together_dec (given : wmap) c g : Decision (forall x, together c g x -> is_Some (given !! x)).
Proof.
  destruct (gate_map c !! g) as [gt|] eqn:G.
  - destruct (decide (Forall (fun x => is_Some (given !! x)) (g :: match gt with GModule il ol ids oi mid => map (fun j => g - oi + j) (nrange ol) | _ => [] end))) as [H|H].
    + left. rewrite Forall_forall in H. intros x [->|(il & ol & ids & oi & mid & j & G' & Hj & ->)]; [apply H; left|].
      rewrite G in G'. injection G' as ->. apply H. right. apply elem_of_list_fmap. exists j. split; [done|]. by apply elem_of_nrange.
    + right. intros H2. apply H. apply Forall_forall. intros x [->|Hx]%elem_of_cons; [apply H2; by left|]. apply H2.
      destruct gt as [| | | | | |il ol ids oi mid]; try (by apply elem_of_nil in Hx). apply elem_of_list_fmap in Hx as (j & -> & Hj%elem_of_nrange).
      right. by exists il, ol, ids, oi, mid, j.
  - destruct (given !! g) as [w|] eqn:Eg.
    + left. intros x [->|(il & ol & ids & oi & mid & j & G' & _)]; [by eexists|congruence].
    + right. intros H. destruct (H g) as [w Hw]; [by left|congruence].
Defined.
Lemma settled_dec given c g : settled given c g \/ ~ settled given c g.
Proof.
  destruct (together_dec given c g) as [H|H]; [|right; by intros [_ ?]].
  destruct (gate_map c !! g) as [gt|] eqn:G; [|right; intros [(gt & G' & _) _]; congruence].
  destruct (is_logic gt || is_module gt) eqn:K.
  - left. split; [|done]. exists gt. split; [done|]. by apply orb_true_iff in K.
  - right. intros [(gt' & G' & Hk) _]. rewrite G in G'. injection G' as <-. apply orb_false_iff in K as [K1 K2]. destruct Hk; congruence.
Qed.
Lemma obeys_ext h c inputs ν ν' g : ν g = ν' g -> (forall gt a, gate_map c !! g = Some gt -> a ∈ operands gt -> ν a = ν' a) ->
  obeys h c inputs ν g -> obeys h c inputs ν' g.
Proof.
  intros Hg Ho. unfold obeys. destruct (gate_map c !! g) as [gt|]; [|done]. specialize (Ho gt).
  destruct gt as [i|b|a|a b|a b|a b|il ol ids oi mid]; rewrite <- Hg; cbn [operands] in Ho; try done.
  - by rewrite <- (Ho a eq_refl ltac:(left)).
  - by rewrite <- (Ho a eq_refl ltac:(left)), <- (Ho b eq_refl ltac:(right; left)).
  - by rewrite <- (Ho a eq_refl ltac:(left)), <- (Ho b eq_refl ltac:(right; left)).
  - by rewrite <- (Ho a eq_refl ltac:(left)), <- (Ho b eq_refl ltac:(right; left)).
  - assert (map ν ids = map ν' ids) as ->; [|done]. apply map_ext_in. intros a Ha. apply Ho; [done|]. by apply elem_of_list_In.
Qed.
Lemma values_exist h l c : dinv h -> h_circ h !! l = Some c -> forall given inputs β, N.of_nat (length inputs) = input_len c ->
  exists ν : N -> bool, (forall g, settled given c g -> ν g = β g) /\ forall g, is_Some (gate_map c !! g) -> ~ settled given c g -> obeys h c inputs ν g.
Proof.
  intros D E given inputs β Hl. pose proof (hi_circ h (di_inv h D) l c E) as W. pose proof (di_disc h D l c E) as Cd.
  assert (forall n, exists ν : N -> bool, forall g, g < n -> (settled given c g -> ν g = β g) /\ (is_Some (gate_map c !! g) -> ~ settled given c g -> obeys h c inputs ν g)) as Hn.
  2:{ destruct (Hn (gate_index c)) as [ν Hν]. exists ν. split.
      - intros g Hs. apply Hν; [|done]. destruct Hs as [(gt & G & _) _]. by eapply gm_lt.
      - intros g Hg. apply Hν; [|done]. by apply (wf_gates c W). }
  induction n as [|n [ν Hν] ] using N.peano_ind; [exists (fun _ => false); lia|].
  assert (exists b, (settled given c n -> b = β n) /\ (is_Some (gate_map c !! n) -> ~ settled given c n -> forall ν' : N -> bool, (forall a, a < n -> ν' a = ν a) -> ν' n = b -> obeys h c inputs ν' n)) as (b & Hb1 & Hb2).
  { destruct (settled_dec given c n) as [Hs|Hs]; [by exists (β n)|].
    destruct (gate_map c !! n) as [gt|] eqn:G; [|exists false; split; [done|by intros [? ?] ] ].
    assert (forall a, a ∈ operands gt -> a < n) as Hop.
    { intros a Ha. pose proof (operand_lt_start h c Cd n gt a G Ha). pose proof (start_lt c n gt G). lia. }
    destruct gt as [i|b|a|a b|a b|a b|il ol ids oi mid]; cbn [operands] in Hop.
    - assert (i < input_len c). { destruct (decide (i < input_len c)); [done|]. pose proof (wf_input_gates c W n i G) as Hx. rewrite (wf_inputs_none c W) in Hx by lia. done. }
      destruct (lookup_lt_is_Some_2 inputs (N.to_nat i)) as [b Hb]; [lia|]. exists b. split; [done|]. intros _ _ ν' _ Hx. unfold obeys. rewrite G. by rewrite Hx.
    - exists b. split; [done|]. intros _ _ ν' _ Hx. unfold obeys. by rewrite G.
    - exists (negb (ν a)). split; [done|]. intros _ _ ν' H Hx. unfold obeys. rewrite G, Hx, H; [done|apply Hop; left].
    - exists (xorb (ν a) (ν b)). split; [done|]. intros _ _ ν' H Hx. unfold obeys. rewrite G, Hx, !H; [done|apply Hop; right; left|apply Hop; left].
    - exists (andb (ν a) (ν b)). split; [done|]. intros _ _ ν' H Hx. unfold obeys. rewrite G, Hx, !H; [done|apply Hop; right; left|apply Hop; left].
    - exists (orb (ν a) (ν b)). split; [done|]. intros _ _ ν' H Hx. unfold obeys. rewrite G, Hx, !H; [done|apply Hop; right; left|apply Hop; left].
    - destruct (hi_calls h (di_inv h D) _ _ _ _ _ _ _ _ E G) as (x & l' & m & Ex & Em & El' & _).
      destruct (d_arity h c Cd _ _ _ _ _ _ _ _ _ G Ex Em El') as (-> & -> & Hlen). destruct (wf_blocks c W _ _ _ _ _ _ G) as (B1 & _).
      destruct (wf_outputs m (hi_circ h (di_inv h D) l' m El') oi B1) as (o & Oo & Go).
      destruct (gv_all h D l' m (map ν ids) El' ltac:(rewrite map_length; lia) o Go) as [b Hb].
      exists b. split; [done|]. intros _ _ ν' H Hx. unfold obeys. rewrite G, Hx. exists x, l'. split; [done|]. split; [done|].
      assert (map ν' ids = map ν ids) as ->. { apply map_ext_in. intros a Ha%elem_of_list_In. by apply H, Hop. } by exists m, o. }
  exists (fun g => if decide (g = n) then b else ν g). intros g Hg. destruct (decide (g = n)) as [->|Hgn].
  - split; [by intros; apply Hb1|]. intros G Hs. apply (Hb2 G Hs); [|by rewrite decide_True]. intros a Ha. by rewrite decide_False by lia.
  - destruct (Hν g ltac:(lia)) as [H1 H2]. split; [exact H1|]. intros G Hs. eapply obeys_ext; [..|by apply H2].
    + by rewrite decide_False.
    + intros gt a Gt Ha. pose proof (operand_lt_start h c Cd g gt a Gt Ha). pose proof (start_lt c g gt Gt). by rewrite decide_False by lia.
Qed.

(** * Property C90 *)
(** The call of [write] with the map [given], from the writer state [st]: what it returns, leaves in the map, appends to the output, and the state after it;
    at every sufficient call depth. *)
Definition writes_with (h : heap) (first : N) (given : wmap) (st : wstate) (vals : list bool) (wog : wmap) (text : string) (st' : wstate) : Prop :=
  exists F, forall fuel, (F <= fuel)%nat -> write h fuel first given st = (Ok (vals, wog), st') /\ written st' = (written st ++ text)%string.
(** With any map, [write] succeeds on a disciplined circuit. It announces the same numbers as with an empty map. [given_ok] says which wires the lines
    define, how many lines are saved, what the map holds afterwards, and what the lines compute. *)
Theorem C90_write md ops l c first given st : disciplined md heap_empty ops -> let h := run md ops in h_circ h !! l = Some c -> w_c st = l ->
  first <= input_len c + num_const c ->
  exists gls vals wog st', writes_with h first given st vals wog (show_prog (wprog c first gls)) st' /\ w_c st' = l /\
    w_num st' = w_num st + input_len c + num_const c + N.of_nat (length gls) /\ given_ok h c given (w_num st) gls vals wog.
Proof.
  intros Hd h E Hc Hf. destruct (write_given h l c (dinv_run md ops Hd) (cinv_run md ops Hd) E) as [F HF].
  destruct (HF F st first given ltac:(lia) Hc Hf) as (gls & vals & wog & st' & Ew & Ho & Hc' & Hn & Ok').
  exists gls, vals, wog, st'. split; [|done]. exists F. intros fuel Hfuel. split.
  - eapply write_mono; [exact Hfuel|exact Ew|done].
  - unfold written. rewrite Ho, WriterFacts.concat_app. by rewrite header_text.
Qed.
(** Whatever the values of the settled gates, the other gates have values that follow from them, so that [gk_sound] always applies. *)
Theorem C90_values md ops l c given inputs β : disciplined md heap_empty ops -> let h := run md ops in h_circ h !! l = Some c ->
  N.of_nat (length inputs) = input_len c ->
  exists ν : N -> bool, (forall g, settled given c g -> ν g = β g) /\ forall g, is_Some (gate_map c !! g) -> ~ settled given c g -> obeys h c inputs ν g.
Proof. intros Hd h E. apply (values_exist h l c (dinv_run md ops Hd) E). Qed.
Lemma true_values h l c inputs : dinv h -> h_circ h !! l = Some c -> N.of_nat (length inputs) = input_len c ->
  exists ν : N -> bool, forall g, is_Some (gate_map c !! g) -> gv h l (env_of inputs) g (ν g) /\ obeys h c inputs ν g.
Proof.
  intros D E Hl. pose proof (hi_circ h (di_inv h D) l c E) as W. pose proof (di_disc h D l c E) as Cd.
  destruct (list_choice (fun g b => gv h l (env_of inputs) g b) (gate_index c)) as (bs & Lb & Hb).
  { intros g Hg. apply (gv_all h D l c inputs E Hl). by apply (wf_gates c W). }
  assert (exists ν : N -> bool, forall g, is_Some (gate_map c !! g) -> gv h l (env_of inputs) g (ν g)) as [ν Hv].
  { exists (fun g => default false (bs !! N.to_nat g)).
    intros g Hg%(wf_gates c W). destruct (lookup_lt_is_Some_2 bs (N.to_nat g)) as [b Eb]; [lia|]. rewrite Eb. cbn. apply Hb in Eb. by rewrite N2Nat.id in Eb. }
  exists ν. intros g [gt G]. split; [apply Hv; by eexists|].
  assert (Hop : forall a, a ∈ operands gt -> gv h l (env_of inputs) a (ν a)) by (intros a Ha; apply Hv; by eapply (operand_exists h l c (di_inv h D) E Cd)).
  pose proof (Hv g ltac:(by eexists)) as Hg. unfold obeys. rewrite G. destruct gt as [i|b|a|a b|a b|a b|il ol ids oi mid]; cbn [operands] in Hop.
  - by apply (gv_input_iff h l c E _ _ _ i G) in Hg.
  - by apply (gv_const_iff h l c E _ _ _ b G) in Hg.
  - apply (gv_not_iff h l c E _ _ _ a G) in Hg. rewrite (gv_det _ _ _ _ _ _ (Hop a ltac:(left)) Hg). by rewrite negb_involutive.
  - apply (gv_xor_iff h l c E _ _ _ a b G) in Hg as (x & y & Hx & Hy & ->). by rewrite (gv_det _ _ _ _ _ _ (Hop a ltac:(left)) Hx), (gv_det _ _ _ _ _ _ (Hop b ltac:(right; left)) Hy).
  - apply (gv_and_iff h l c E _ _ _ a b G) in Hg as (x & y & Hx & Hy & ->). by rewrite (gv_det _ _ _ _ _ _ (Hop a ltac:(left)) Hx), (gv_det _ _ _ _ _ _ (Hop b ltac:(right; left)) Hy).
  - apply (gv_or_iff h l c E _ _ _ a b G) in Hg as (x & y & Hx & Hy & ->). by rewrite (gv_det _ _ _ _ _ _ (Hop a ltac:(left)) Hx), (gv_det _ _ _ _ _ _ (Hop b ltac:(right; left)) Hy).
  - inversion Hg as [| | | | | |? ? ? ? il2 ol2 ids2 oi2 mid2 x l' m o bits b E2 G2 Ex Em El' Oo F V]; subst; simplify_eq.
    exists x, l'. split; [done|]. split; [done|]. exists m, o. split; [done|]. split; [done|].
    assert (map ν ids = bits) as ->; [|done]. clear - F Hop. induction F as [|a b ids bits Hab F IH]; [done|]. cbn. f_equal.
    + eapply gv_det; [|exact Hab]. apply Hop. left.
    + apply IH. intros. apply Hop. by right.
Qed.
(** In particular, when the wires of the caller's map carry the values the gates have, the wires of the final map do too. *)
Theorem C90_true md ops l c given n0 gls vals wog q inputs e : disciplined md heap_empty ops -> let h := run md ops in h_circ h !! l = Some c ->
  given_ok h c given n0 gls vals wog -> N.of_nat (length inputs) = input_len c ->
  (forall i b, inputs !! i = Some b -> e !! (n0 + N.of_nat i) = Some b) ->
  (forall i b, vals !! i = Some b -> e !! (input_len c + N.of_nat i) = Some b) ->
  (forall g gt w, given !! g = Some w -> gate_map c !! g = Some gt -> is_logic gt = true \/ is_module gt = true ->
    w < n0 + input_len c + num_const c /\ exists b, e !! w = Some b /\ gv h l (env_of inputs) g b) ->
  exists e', exec_lines q e gls = Some e' /\ (forall w, w < n0 + input_len c + num_const c -> e' !! w = e !! w) /\
    (forall g w, is_Some (gate_map c !! g) -> wog !! g = Some w -> exists b, e' !! w = Some b /\ gv h l (env_of inputs) g b) /\
    forall k o, output_map c !! k = Some o -> exists w b, wog !! o = Some w /\ e' !! w = Some b /\ outv h l (env_of inputs) k b.
Proof.
  intros Hd h E Hk Hl Hi Hc Hg. pose proof (dinv_run md ops Hd) as D. fold h in D. destruct (true_values h l c inputs D E Hl) as [ν Hν].
  destruct (gk_sound _ _ _ _ _ _ _ Hk q inputs ν e Hl) as (e' & X & Kp & R); [intros g G _; by apply Hν|done|done| |].
  { intros g gt w Hw G Hkd. destruct (Hg g gt w Hw G Hkd) as (Hb & b & Eb & Vb). split; [done|]. rewrite Eb. f_equal. eapply gv_det; [exact Vb|]. apply Hν. by eexists. }
  exists e'. split; [done|]. split; [done|].
  assert (forall g w, is_Some (gate_map c !! g) -> wog !! g = Some w -> exists b, e' !! w = Some b /\ gv h l (env_of inputs) g b) as Hv.
  { intros g w G Hw. exists (ν g). split; [by apply R|]. by apply Hν. }
  split; [exact Hv|]. intros k o Eo. destruct (gk_outs _ _ _ _ _ _ _ Hk k o Eo) as [w Hw].
  destruct (Hv o w) as (b & Eb & Vb); [|done|].
  - pose proof (hi_circ h (di_inv h D) l c E) as W. assert (k < output_len c). { destruct (decide (k < output_len c)); [done|]. rewrite (wf_outputs_none c W) in Eo by lia. done. }
    destruct (wf_outputs c W k) as (o' & Eo' & Hs); [lia|]. rewrite Eo in Eo'. injection Eo' as <-. exact Hs.
  - exists w, b. split; [done|]. split; [done|]. by exists c, o.
Qed.

(** ** Examples *)
(** Inputs 0 and 1, gates 2 (and), 3 (xor of 2 and 0), 4 (or of 3 and 2), which is the output; below a call with two outputs, 2 and 3. *)
Definition three : list op := [OpNewStorage; OpNewCircuit 0; OpInput 0; OpInput 0; OpAnd 0 0 1; OpXor 0 2 0; OpOr 0 3 2; OpOutput 0 4; OpNewCircuit 0].
Definition halves : list op := [OpNewStorage; OpNewCircuit 0; OpSub 0; OpInput 1; OpInput 1; OpXor 1 0 1; OpAnd 1 0 1; OpOutput 1 2; OpOutput 1 3;
  OpInput 0; OpInput 0; OpModule 0 0 [0; 1]; OpOr 0 2 3; OpOutput 0 4].
(** The map after a call, for the gates below [n], and the lines written by it. *)
Definition wrote_with (md : mode) (ops : list op) (given : list (N * N)) (n : N) : res (list (option N) * list string) :=
  match write (run md ops) 9 2 (list_to_map given) (writer_new 0) with
  | (Ok v, st) => Ok (map (fun g => v.2 !! g) (nrange n), drop 4 (w_out st))
  | (Err e, _) => Err e | (Panic p, _) => Panic p | (NoFuel, _) => NoFuel
  end.
Definition ln (s : string) : string := (s ++ nl)%string.
Definition read_with (md : mode) (ops : list op) (given : list (N * N)) (l : nat) : res unit :=
  fst (read md l (written (snd (write (run md ops) 9 2 (list_to_map given) (writer_new 0)))) (∅, run md ops)).
Lemma three_disciplined md : disciplined md heap_empty three.
Proof. apply disciplined_b_sound. destruct md; vm_compute; reflexivity. Qed.
Lemma halves_disciplined md : disciplined md heap_empty halves.
Proof. apply disciplined_b_sound. destruct md; vm_compute; reflexivity. Qed.
(** Gate 2 is said to be on wire 1: it is not written, and its users read wire 1. When the output itself is in the map, its operands are written all the same.
    Entries for inputs are overwritten, entries for other ids stay. *)
Example C90_example md : disciplined md heap_empty three /\
  wrote_with md three [] 6 = Ok ([Some 0; Some 1; Some 2; Some 3; Some 4; None], map ln ["2 1 0 1 2 AND"; "2 1 2 0 3 XOR"; "2 1 3 2 4 OR"]%string) /\
  wrote_with md three [(2, 1)] 6 = Ok ([Some 0; Some 1; Some 1; Some 2; Some 3; None], map ln ["2 1 1 0 2 XOR"; "2 1 2 1 3 OR"]%string) /\
  wrote_with md three [(4, 0); (0, 9); (5, 7)] 6 = Ok ([Some 0; Some 1; Some 2; Some 3; Some 0; Some 7], map ln ["2 1 0 1 2 AND"; "2 1 2 0 3 XOR"]%string).
Proof. split; [apply three_disciplined|]. split; [|split]; destruct md; vm_compute; reflexivity. Qed.
(** The outputs of a call: both are in the map, and the call is not written; only one is, and it is written and the entry is overwritten. *)
Example C90_call md : disciplined md heap_empty halves /\
  wrote_with md halves [(2, 0); (3, 1)] 6 = Ok ([Some 0; Some 1; Some 0; Some 1; Some 2; None], map ln ["2 1 0 1 2 OR"]%string) /\
  wrote_with md halves [(3, 1)] 6 = wrote_with md halves [] 6 /\
  wrote_with md halves [] 6 = Ok ([Some 0; Some 1; Some 2; Some 3; Some 4; None], map ln ["2 1 0 1 2 XOR"; "2 1 0 1 3 AND"; "2 1 2 3 4 OR"]%string).
Proof. split; [apply halves_disciplined|]. split; [|split]; destruct md; vm_compute; reflexivity. Qed.
(** The header announces the wires of all gates, those that are not written too: the reader, which looks for the outputs on the last wires, does not find them. *)
Example C90_unreadable md : read_with md three [] 1 = Ok tt /\ read_with md three [(2, 1)] 1 = Panic PKey.
Proof. split; destruct md; vm_compute; reflexivity. Qed.
