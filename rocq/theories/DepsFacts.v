(** Counting the entries of the dependence map. *)
From Verif Require Export Inv.

Notation cnt := (count_occ N.eq_dec).

(** First gate of the block of [g]. *)
Definition start (c : circuit) (g : N) : N :=
  match gate_map c !! g with Some gt => g - gate_oi gt | None => g end.
(** All gates of the block of [g]. *)
Definition blk (c : circuit) (g : N) : list N :=
  match gate_map c !! g with
  | Some (GModule il ol ids oi mid) => map (fun j => g - oi + j) (nrange ol)
  | _ => [g]
  end.

Lemma cnt_app l1 l2 d : cnt (l1 ++ l2) d = (cnt l1 d + cnt l2 d)%nat.
Proof. apply count_occ_app. Qed.
Lemma cnt_replicate n x d : cnt (replicate n x) d = if decide (x = d) then n else O.
Proof. induction n as [|n IH]; simpl; [by destruct decide|]. destruct N.eq_dec, decide; try done; by rewrite IH. Qed.
Lemma cnt_concat_replicate n xs d : cnt (concat (replicate n xs)) d = (n * cnt xs d)%nat.
Proof. induction n as [|n IH]; simpl; [done|]. by rewrite cnt_app, IH. Qed.
Lemma cnt_notin xs d : d ∉ xs -> cnt xs d = O.
Proof. intros H. apply count_occ_not_In. by rewrite <- elem_of_list_In. Qed.
Lemma cnt_nodup xs d : NoDup xs -> d ∈ xs -> cnt xs d = 1%nat.
Proof. intros H1 H2. apply NoDup_count_occ'; [by apply NoDup_ListNoDup|by apply elem_of_list_In]. Qed.
Lemma cnt_flat_map (f : N -> list N) n d k : (forall x, x <> k -> d ∉ f x) ->
  cnt (flat_map f (nrange n)) d = if decide (k < n) then cnt (f k) d else O.
Proof.
  intros H. induction n as [|n IH] using N.peano_ind.
  - simpl. destruct decide; [lia|done].
  - rewrite <- N.add_1_r, nrange_succ, flat_map_app, cnt_app, IH. simpl. rewrite app_nil_r.
    destruct (decide (n = k)) as [->|].
    + destruct (decide (k < k)); [lia|]. destruct decide; [done|lia].
    + rewrite (cnt_notin (f n)) by (by apply H). repeat destruct decide; lia.
Qed.

Section facts.
Context (c : circuit) (W : cwf c).

Lemma blk_self g gt : gate_map c !! g = Some gt -> g ∈ blk c g.
Proof.
  intros G. unfold blk. rewrite G. destruct gt; try (by left).
  destruct (wf_blocks c W _ _ _ _ _ _ G) as (B1 & B2 & _).
  apply elem_of_list_fmap. exists out_index. split; [lia|]. by apply elem_of_nrange.
Qed.
Lemma blk_nodup g : NoDup (blk c g).
Proof.
  unfold blk. destruct (gate_map c !! g) as [[]|]; try apply NoDup_singleton.
  apply NoDup_fmap_2; [intros ???; lia|apply NoDup_nrange].
Qed.
(** Members of a block have the same block. *)
Lemma blk_member g gt x : gate_map c !! g = Some gt -> x ∈ blk c g ->
  exists gt', gate_map c !! x = Some gt' /\ operands gt' = operands gt /\ start c x = start c g /\ blk c x = blk c g /\
    x = start c g + gate_oi gt' /\ is_module gt' = is_module gt /\ (is_module gt = false -> gt' = gt).
Proof.
  intros G. unfold blk at 1. rewrite G. destruct gt as [| | | | | |il ol ids oi mid];
    try (intros ->%elem_of_list_singleton; eexists; split; [exact G|]; unfold start; rewrite G; simpl; repeat split; lia).
  intros (j & -> & Hj%elem_of_nrange)%elem_of_list_fmap.
  destruct (wf_blocks c W _ _ _ _ _ _ G) as (B1 & B2 & B3). specialize (B3 j Hj).
  eexists. split; [exact B3|]. split; [done|]. unfold start, blk. rewrite B3, G. simpl.
  split; [lia|]. split; [|split; [lia|done]]. replace (g - oi + j - j) with (g - oi) by lia. done.
Qed.
Lemma start_gate g gt : gate_map c !! g = Some gt ->
  exists gt', gate_map c !! start c g = Some gt' /\ gate_oi gt' = 0 /\ start c g ∈ blk c g.
Proof.
  intros G. destruct gt as [| | | | | |il ol ids oi mid];
    try (exists (match gate_map c !! g with Some x => x | None => GConst true end); unfold start, blk; rewrite G; simpl; rewrite ?N.sub_0_r; rewrite ?G; simpl; split; [done|split; [done|left]]).
  destruct (wf_blocks c W _ _ _ _ _ _ G) as (B1 & B2 & B3). specialize (B3 0 ltac:(lia)).
  eexists. unfold start, blk. rewrite G. simpl. rewrite N.add_0_r in B3. split; [exact B3|]. split; [done|].
  apply elem_of_list_fmap. exists 0. split; [lia|]. apply elem_of_nrange. lia.
Qed.

(** Where an entry of a dependence list comes from. *)
Lemma contrib_in g d' d : d ∈ contrib (gate_map c) g d' -> exists gt, gate_map c !! d = Some gt /\ start c d = d'.
Proof.
  unfold contrib. destruct (gate_map c !! d') as [gt|] eqn:G; [|intros []%elem_of_nil].
  destruct gt as [| | | | | |il ol ids oi mid];
    try (intros [-> _]%elem_of_replicate; eexists; split; [exact G|]; unfold start; rewrite G; simpl; lia).
  destruct (oi =? 0) eqn:Eo; [|intros []%elem_of_nil]. apply N.eqb_eq in Eo as ->.
  intros H. apply elem_of_list_In, in_concat in H as (xs & H1 & H2).
  apply elem_of_list_In, elem_of_replicate in H1 as [-> _]. apply elem_of_list_In in H2.
  apply elem_of_list_fmap in H2 as (j & -> & Hj%elem_of_nrange).
  destruct (wf_blocks c W _ _ _ _ _ _ G) as (B1 & B2 & B3). specialize (B3 j Hj). rewrite N.sub_0_r in B3.
  eexists. split; [exact B3|]. unfold start. rewrite B3. simpl. lia.
Qed.

Lemma deps_count g d : cnt (deps c g) d = match gate_map c !! d with Some gt => occ g (operands gt) | None => O end.
Proof.
  rewrite (wf_deps c W). rewrite (cnt_flat_map _ _ _ (start c d)).
  2: { intros x Hx Hd. apply contrib_in in Hd as (gt & _ & E). done. }
  destruct (gate_map c !! d) as [gt|] eqn:G.
  - destruct (start_gate d gt G) as (gt' & G' & Hoi & Hin).
    rewrite decide_True by (by eapply gm_lt).
    destruct (blk_member d gt (start c d) G Hin) as (gt2 & G2 & Hops & _). rewrite G' in G2. injection G2 as <-.
    unfold contrib. rewrite G'. rewrite <- Hops.
    destruct gt' as [| | | | | |il ol ids oi mid];
    try (rewrite cnt_replicate; rewrite decide_True; [done|];
         destruct (blk_member d gt (start c d) G Hin) as (gt2 & G2 & _ & _ & _ & _ & Hm & Hm2); rewrite G' in G2; injection G2 as <-;
         unfold start; rewrite G; rewrite <- Hm2 by (by rewrite <- Hm); simpl; lia).
    simpl in Hoi. subst oi. simpl. rewrite cnt_concat_replicate.
    destruct (blk_member d gt (start c d) G Hin) as (gt2 & G2 & _ & _ & Hblk & _). rewrite G' in G2. injection G2 as <-.
    pose proof (blk_self d gt G) as Hd. rewrite <- Hblk in Hd. unfold blk in Hd. rewrite G' in Hd.
    rewrite N.sub_0_r in Hd. rewrite cnt_nodup; [lia| |done].
    apply NoDup_fmap_2; [intros ???; lia|apply NoDup_nrange].
  - destruct decide; [|done]. apply cnt_notin. intros (gt & E & _)%contrib_in. congruence.
Qed.
Lemma deps_in g d : d ∈ deps c g <-> exists gt, gate_map c !! d = Some gt /\ g ∈ operands gt.
Proof.
  rewrite elem_of_list_In, (count_occ_In N.eq_dec), deps_count. destruct (gate_map c !! d) as [gt|].
  - split.
    + intros H. exists gt. split; [done|]. apply occ_in. lia.
    + intros (? & [= <-] & H). apply occ_in in H. lia.
  - split; [lia|]. by intros (? & ? & ?).
Qed.

(** A block lies on one side of a block start. *)
Lemma blk_below n a gt x : gate_map c !! a = Some gt -> x ∈ blk c a -> a < n ->
  (forall gt', gate_map c !! n = Some gt' -> gate_oi gt' = 0) -> is_Some (gate_map c !! n) -> x < n.
Proof.
  intros G Hx Ha Hn [gn Gn]. destruct (decide (x < n)); [done|exfalso].
  unfold blk in Hx. rewrite G in Hx. destruct gt as [| | | | | |il ol ids oi mid]; try (apply elem_of_list_singleton in Hx; lia).
  apply elem_of_list_fmap in Hx as (j & -> & Hj%elem_of_nrange).
  destruct (wf_blocks c W _ _ _ _ _ _ G) as (B1 & B2 & B3).
  specialize (B3 (n - (a - oi)) ltac:(lia)). replace (a - oi + (n - (a - oi))) with n in B3 by lia.
  specialize (Hn _ B3). simpl in Hn. lia.
Qed.
End facts.
