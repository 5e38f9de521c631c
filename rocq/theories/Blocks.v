(** Proofs about code that builds circuits out of inputs, gates and calls of other modules. *)
From Verif Require Export Build DepsFacts EvalComplete Prop_Eval.

(** * Loops *)
Lemma mapM_inv {S A B} (f : A -> ST S B) (xs : list A) (I : list B -> S -> Prop) s :
  (forall ys x s, xs !! length ys = Some x -> I ys s -> exists y s', f x s = (Ok y, s') /\ I (ys ++ [y]) s') -> I [] s ->
  exists ys s', st_mapM f xs s = (Ok ys, s') /\ length ys = length xs /\ I ys s'.
Proof.
  intros Hf. assert (G : forall rest done s, xs = rest -> length done = O -> I done s -> True) by done. clear G.
  assert (G : forall k pre ys s, xs = pre ++ k -> length ys = length pre -> I ys s ->
    exists zs s', st_mapM f k s = (Ok zs, s') /\ length zs = length k /\ I (ys ++ zs) s').
  { induction k as [|x k IH]; intros pre ys s0 E L HI.
    - exists [], s0. rewrite app_nil_r. done.
    - destruct (Hf ys x s0) as (y & s1 & E1 & H1); [|done|].
      { rewrite E, L, lookup_app_r, Nat.sub_diag by lia. done. }
      destruct (IH (pre ++ [x]) (ys ++ [y]) s1) as (zs & s2 & E2 & L2 & H2); [by rewrite <- app_assoc|rewrite !app_length; simpl; lia|done|].
      exists (y :: zs), s2. simpl. rewrite (st_bind_ok _ _ _ _ _ E1), (st_bind_ok _ _ _ _ _ E2). split; [done|].
      split; [simpl; lia|]. by rewrite <- app_assoc in H2. }
  intros H0. destruct (G xs [] [] s) as (zs & s' & E & L & H); eauto.
Qed.
Lemma iterM_inv {S A} (f : A -> ST S unit) (xs : list A) (I : nat -> S -> Prop) s :
  (forall k x s, xs !! k = Some x -> I k s -> exists s', f x s = (Ok tt, s') /\ I (Datatypes.S k) s') -> I O s ->
  exists s', st_iterM f xs s = (Ok tt, s') /\ I (length xs) s'.
Proof.
  revert I s. induction xs as [|x xs IH]; intros I s Hf H0; simpl; [eauto|].
  destruct (Hf O x s eq_refl H0) as (s1 & E1 & H1). rewrite (st_bind_ok _ _ _ _ _ E1).
  apply (IH (fun k => I (Datatypes.S k)) s1); [|done]. intros k y s2 Hy. by apply (Hf (Datatypes.S k)).
Qed.
Lemma foldM_inv {S A B} (f : B -> A -> ST S B) (xs : list A) (I : nat -> B -> S -> Prop) b s :
  (forall k b x s, xs !! k = Some x -> I k b s -> exists b' s', f b x s = (Ok b', s') /\ I (Datatypes.S k) b' s') -> I O b s ->
  exists b' s', st_foldM f b xs s = (Ok b', s') /\ I (length xs) b' s'.
Proof.
  revert I b s. induction xs as [|x xs IH]; intros I b s Hf H0; simpl; [eauto|].
  destruct (Hf O b x s eq_refl H0) as (b1 & s1 & E1 & H1). rewrite (st_bind_ok _ _ _ _ _ E1).
  apply (IH (fun k => I (Datatypes.S k)) b1 s1); [|done]. intros k b2 y s2 Hy. by apply (Hf (Datatypes.S k)).
Qed.
Lemma seq_lookup n k x : seq 0 n !! k = Some x -> x = k /\ (k < n)%nat.
Proof. intros H. apply lookup_seq in H. lia. Qed.
Lemma st_nth_ok {S A} (v : list A) i a (s : S) : v !! i = Some a -> st_nth v i s = (Ok a, s).
Proof. unfold st_nth. by intros ->. Qed.

(** * Values of lists of gates *)
(** The gates [gs] of the circuit at [l] exist and denote the bits [F ρ], a function of the input wires. *)
Definition gfs (h : heap) (l : nat) (gs : list N) (F : (N -> bool) -> list bool) : Prop :=
  Forall (has_gate h l) gs /\ forall ρ, Forall2 (gv h l (fun w => Some (ρ w))) gs (F ρ).
Lemma gfs_hle h h' l gs F : hle h h' -> gfs h l gs F -> gfs h' l gs F.
Proof.
  intros L [H1 H2]. split; [eapply Forall_impl; [done|]; intros; by eapply has_gate_hle|].
  intros ρ. eapply Forall2_impl; [done|]. intros. by eapply gv_hle.
Qed.
Lemma gfs_eq h l gs F F' : gfs h l gs F -> (forall ρ, F ρ = F' ρ) -> gfs h l gs F'.
Proof. intros [H1 H2] H. split; [done|]. intros ρ. by rewrite <- H. Qed.
Lemma gfs_nil h l : gfs h l [] (fun _ => []).
Proof. split; [constructor|]. intros; constructor. Qed.
Lemma gfs_one h l g f : gf h l g f <-> gfs h l [g] (fun ρ => [f ρ]).
Proof.
  split; intros [H1 H2]; split.
  - by constructor.
  - intros ρ. by repeat constructor.
  - by inversion H1.
  - intros ρ. specialize (H2 ρ). by inversion H2.
Qed.
Lemma gfs_app h l gs gs' F F' : gfs h l gs F -> gfs h l gs' F' -> gfs h l (gs ++ gs') (fun ρ => F ρ ++ F' ρ).
Proof. intros [H1 H2] [H3 H4]. split; [by apply Forall_app|]. intros ρ. by apply Forall2_app. Qed.
Lemma gfs_snoc h l gs g F f : gfs h l gs F -> gf h l g f -> gfs h l (gs ++ [g]) (fun ρ => F ρ ++ [f ρ]).
Proof. intros H1 H2. apply gfs_app; [done|]. by apply gfs_one. Qed.
Lemma gfs_length h l gs F ρ : gfs h l gs F -> length (F ρ) = length gs.
Proof. intros [_ H]. symmetry. by eapply Forall2_length. Qed.
Lemma gfs_at h l gs F i g : gfs h l gs F -> gs !! i = Some g -> gf h l g (fun ρ => nth i (F ρ) false).
Proof.
  intros [H1 H2] E. split; [by eapply Forall_lookup_1|]. intros ρ.
  destruct (Forall2_lookup_l _ _ _ _ _ (H2 ρ) E) as (b & Eb & V). by rewrite (nth_lookup_Some _ _ _ _ Eb).
Qed.
Lemma gfs_take h l gs F n : gfs h l gs F -> gfs h l (take n gs) (fun ρ => take n (F ρ)).
Proof. intros [H1 H2]. split; [by apply Forall_take|]. intros ρ. by apply Forall2_take. Qed.
Lemma gfs_drop h l gs F n : gfs h l gs F -> gfs h l (drop n gs) (fun ρ => drop n (F ρ)).
Proof. intros [H1 H2]. split; [by apply Forall_drop|]. intros ρ. by apply Forall2_drop. Qed.
Lemma gfs_in h l gs F g : gfs h l gs F -> g ∈ gs -> has_gate h l g.
Proof. intros [H _] Hg. by eapply Forall_forall in H. Qed.

(** * A circuit under construction *)
Definition free (h : heap) (l : nat) (g : N) : Prop :=
  forall c g' gt, h_circ h !! l = Some c -> gate_map c !! g' = Some gt -> g ∉ operands gt.
Definition outs_are (c : circuit) (os : list N) : Prop :=
  output_len c = N.of_nat (length os) /\ forall k g, os !! k = Some g -> output_map c !! N.of_nat k = Some g.
(** The circuit at [l], built on behalf of the circuit at [p] ([p = l]: built by the user), has [i] inputs and the outputs [os]. *)
Record bsc (p : nat) (h : heap) (l : nat) (c : circuit) (i : N) (os : list N) : Prop := {
  bs_wk : wk h l;
  bs_c : h_circ h !! l = Some c;
  bs_i : input_len c = i;
  bs_o : outs_are c os;
  bs_calls : forall l', calls h c l' -> unconsumed h l' /\ l' <> p;
  bs_w : p <> l -> i <= gate_index c /\ (Z.of_N (gate_index c) <= num_wire c)%Z;
}.
Definition bs p h l i os := exists c, bsc p h l c i os.
(** One call: from [h] to [h'], reading the gates [ops], returning the new gates [news]. *)
Record mv (l : nat) (h h' : heap) (ops news : list N) : Prop := {
  mv_ext : ext l h h';
  mv_new : forall g, g ∈ news -> ~ has_gate h l g /\ has_gate h' l g /\ free h' l g;
  mv_free : forall g, has_gate h l g -> free h l g -> g ∉ ops -> free h' l g;
  mv_nd : NoDup news;
}.

Lemma free_push h l c gt c' g : h_circ h !! l = Some c -> push c gt c' -> free h l g -> g ∉ operands gt -> free (upd h l c') l g.
Proof.
  intros E P F Hg c0 g' gt0 E0 G. erewrite upd_lookup in E0 by done. injection E0 as <-.
  rewrite (push_lookup _ _ _ _ P) in G. destruct decide; [by injection G as <-|]. by eapply F.
Qed.
Lemma fresh_free h l c gt c' : wk h l -> h_circ h !! l = Some c -> push c gt c' -> (forall a, a ∈ operands gt -> has_gate h l a) ->
  ~ has_gate h l (gate_index c) /\ free (upd h l c') l (gate_index c).
Proof.
  intros W E P Ho. assert (Hn : ~ has_gate h l (gate_index c)) by (rewrite (has_gate_lt h l c W E); lia). split; [done|].
  apply (free_push _ _ c gt); [done|done| |intros Hin; by apply Hn, Ho].
  intros c0 g' gt' E0 G Hin. rewrite E in E0. injection E0 as <-. pose proof (d_ops h c (di_disc h (wk_d h l W) l c E) _ _ _ G Hin).
  assert (g' < gate_index c) by (eapply gm_lt; [|done]; eapply (hi_circ h), E; apply W). lia.
Qed.
Lemma mv_push h l c gt c' : wk h l -> h_circ h !! l = Some c -> push c gt c' -> (forall a, a ∈ operands gt -> has_gate h l a) ->
  mv l h (upd h l c') (operands gt) [gate_index c].
Proof.
  intros W E P Ho. split.
  - by eapply w_push.
  - intros g ->%elem_of_list_singleton. destruct (fresh_free h l c gt c' W E P Ho) as [H1 H2]. split; [done|]. split; [by eapply push_has|done].
  - intros g _ Hf Hg. by eapply free_push.
  - apply NoDup_singleton.
Qed.

Lemma unconsumed_ext l h h' l' : hinv h -> uncalled h l -> ext l h h' -> l' <> l -> unconsumed h l' -> unconsumed h' l'.
Proof.
  intros H U X Hne Hu. induction Hu as [l' c E HO Hc IH]. pose proof (ext_frame _ _ _ X _ _ Hne E) as E'.
  econstructor; [exact E'|exact HO|]. intros l2 C. assert (C2 : calls h c l2) by (eapply calls_shrink; eauto; apply X).
  apply IH; [done|]. intros ->. by eapply U.
Qed.
Lemma bs_push p h l c i os gt c' i' : bsc p h l c i os -> push c gt c' -> (forall a, a ∈ operands gt -> has_gate h l a) ->
  i' = input_len c' -> bs p (upd h l c') l i' os.
Proof.
  intros B P Ho ->. destruct (w_push h l c (bs_wk _ _ _ _ _ _ B) (bs_c _ _ _ _ _ _ B) _ _ P Ho) as [W' X].
  exists c'. split.
  - done.
  - eapply upd_lookup, B.
  - done.
  - destruct (bs_o _ _ _ _ _ _ B) as [H1 H2]. split; [rewrite (p_ol _ _ _ P); done|]. intros k g Hk. rewrite (p_om _ _ _ P). by apply H2.
  - intros l' C. assert (C2 : calls h c l').
    { eapply push_calls; [eapply (hi_circ h), B; apply B|done|done]. }
    destruct (bs_calls _ _ _ _ _ _ B _ C2) as [Hu Hp]. split; [|done]. eapply unconsumed_ext; [apply B|apply B|exact X| |done].
    intros ->. eapply (wk_u h l (bs_wk _ _ _ _ _ _ B)); [apply B|done].
  - intros Hp. rewrite (p_gi _ _ _ P), (p_nw _ _ _ P), (p_il _ _ _ P). pose proof (bs_w _ _ _ _ _ _ B Hp). pose proof (bs_i _ _ _ _ _ _ B).
    destruct (is_input gt); lia.
Qed.

(** * Steps *)

Section steps.
Context (p : nat) (h : heap) (l : nat) (i : N) (os : list N) (B : bs p h l i os).
Lemma t_input : exists g h', r_input l h = (Ok g, h') /\ bs p h' l (i + 1) os /\ mv l h h' [] [g] /\ gf h' l g (fun ρ => ρ i).
Proof using All.
  destruct B as [c B']. destruct (s_input h l c (bs_wk _ _ _ _ _ _ B') (bs_c _ _ _ _ _ _ B')) as (h' & c' & Er & W & X & E & P & F).
  destruct (r_input_ok h l c (bs_c _ _ _ _ _ _ B')) as (c2 & Er2 & P2). rewrite Er2 in Er. injection Er as <-.
  eexists _, _. split; [exact Er2|]. split.
  - eapply bs_push; [exact B'|exact P2|intros a Ha; by apply elem_of_nil in Ha|]. rewrite (p_il _ _ _ P2). simpl.
    by rewrite (bs_i _ _ _ _ _ _ B').
  - split; [|by rewrite (bs_i _ _ _ _ _ _ B') in F]. eapply (mv_push _ _ c (GInput _)); [apply B'|apply B'|done|].
    intros a Ha; by apply elem_of_nil in Ha.
Qed.
Lemma t_constant b : exists g h', r_constant l b h = (Ok g, h') /\ bs p h' l i os /\ mv l h h' [] [g] /\ gf h' l g (fun ρ => b).
Proof using All.
  destruct B as [c B']. destruct (s_constant h l c (bs_wk _ _ _ _ _ _ B') (bs_c _ _ _ _ _ _ B') b) as (h' & c' & Er & W & X & E & P & F).
  destruct (r_constant_ok h l c (bs_c _ _ _ _ _ _ B') b) as (c2 & Er2 & P2). rewrite Er2 in Er. injection Er as <-.
  eexists _, _. split; [exact Er2|]. split.
  - eapply bs_push; [exact B'|exact P2|intros a Ha; by apply elem_of_nil in Ha|]. rewrite (p_il _ _ _ P2). simpl.
    rewrite (bs_i _ _ _ _ _ _ B'). lia.
  - split; [|done]. eapply (mv_push _ _ c (GConst _)); [apply B'|apply B'|done|].
    intros a Ha; by apply elem_of_nil in Ha.
Qed.
Lemma t_not a f : gf h l a f -> exists g h', r_not l a h = (Ok g, h') /\ bs p h' l i os /\ mv l h h' [a] [g] /\ gf h' l g (fun ρ => negb (f ρ)).
Proof using All.
  intros Fa. destruct B as [c B']. destruct (s_not h l c (bs_wk _ _ _ _ _ _ B') (bs_c _ _ _ _ _ _ B') a f Fa) as (h' & c' & Er & W & X & E & P & F).
  destruct (r_not_ok h l c (bs_c _ _ _ _ _ _ B') a) as (c2 & Er2 & P2). rewrite Er2 in Er. injection Er as <-.
  assert (Ho : forall x, x ∈ operands (GNot a) -> has_gate h l x) by (intros x ->%elem_of_list_singleton; apply Fa).
  eexists _, _. split; [exact Er2|]. split.
  - eapply bs_push; [exact B'|exact P2|done|]. rewrite (p_il _ _ _ P2). simpl. rewrite (bs_i _ _ _ _ _ _ B'). lia.
  - split; [|done]. eapply (mv_push _ _ c (GNot _)); [apply B'|apply B'|done|done].
Qed.
Ltac bin Fa Fb a b sl rl := 
  destruct B as [c B']; destruct (sl h l c (bs_wk _ _ _ _ _ _ B') (bs_c _ _ _ _ _ _ B') a b _ _ Fa Fb) as (h' & c' & Er & W & X & E & P & F);
  destruct (rl h l c (bs_c _ _ _ _ _ _ B') a b) as (c2 & Er2 & P2); rewrite Er2 in Er; injection Er as <-;
  match type of P2 with push _ ?gt _ => assert (Ho : forall x, x ∈ operands gt -> has_gate h l x) by
    (intros x Hx; apply elem_of_cons in Hx as [-> |Hx]; [apply Fa|apply elem_of_list_singleton in Hx as ->; apply Fb]) end;
  eexists _, _; split; [exact Er2|]; split;
  [eapply bs_push; [exact B'|exact P2|done|]; rewrite (p_il _ _ _ P2); simpl; rewrite (bs_i _ _ _ _ _ _ B'); lia|];
  split; [match goal with Ho : forall x, x ∈ operands _ -> _ |- _ => refine (mv_push _ _ c _ _ _ _ P2 Ho); apply B' end|done].
Lemma t_xor a b fa fb : gf h l a fa -> gf h l b fb ->
  exists g h', r_xor l a b h = (Ok g, h') /\ bs p h' l i os /\ mv l h h' [a; b] [g] /\ gf h' l g (fun ρ => xorb (fa ρ) (fb ρ)).
Proof using All. intros Fa Fb. bin Fa Fb a b s_xor r_xor_ok. Qed.
Lemma t_and a b fa fb : gf h l a fa -> gf h l b fb ->
  exists g h', r_and l a b h = (Ok g, h') /\ bs p h' l i os /\ mv l h h' [a; b] [g] /\ gf h' l g (fun ρ => andb (fa ρ) (fb ρ)).
Proof using All. intros Fa Fb. bin Fa Fb a b s_and r_and_ok. Qed.
Lemma t_or a b fa fb : gf h l a fa -> gf h l b fb ->
  exists g h', r_or l a b h = (Ok g, h') /\ bs p h' l i os /\ mv l h h' [a; b] [g] /\ gf h' l g (fun ρ => orb (fa ρ) (fb ρ)).
Proof using All. intros Fa Fb. bin Fa Fb a b s_or r_or_ok. Qed.
End steps.

Lemma mv_trans l h h1 h2 ops1 ops2 news1 news2 ops : mv l h h1 ops1 news1 -> mv l h1 h2 ops2 news2 ->
  (forall g, g ∈ ops1 -> g ∈ ops) -> (forall g, g ∈ ops2 -> g ∈ ops \/ g ∈ news1) -> mv l h h2 ops news2.
Proof.
  intros M1 M2 H1 H2. split.
  - eapply ext_trans; [apply M1|apply M2].
  - intros g Hg. destruct (mv_new _ _ _ _ _ M2 g Hg) as (Hn & Hh & Hf). split; [|done]. intros Hh0. apply Hn.
    eapply has_gate_hle; [apply M1|done].
  - intros g Hh Hf Hg. eapply (mv_free _ _ _ _ _ M2).
    + eapply has_gate_hle; [apply M1|done].
    + eapply (mv_free _ _ _ _ _ M1); [done|done|]. intros Hin. by apply Hg, H1.
    + intros Hin. destruct (H2 g Hin) as [? | Hin1]; [done|]. by destruct (mv_new _ _ _ _ _ M1 g Hin1).
  - apply M2.
Qed.
Lemma gf_mv l h h' ops news l' g f : mv l h h' ops news -> gf h l' g f -> gf h' l' g f.
Proof. intros M. apply gf_ext with l, M. Qed.
Lemma gfs_ext l0 h h' l gs F : ext l0 h h' -> gfs h l gs F -> gfs h' l gs F.
Proof. intros [L _ _ _]. by apply gfs_hle. Qed.
Lemma gfs_mv l h h' ops news l' gs F : mv l h h' ops news -> gfs h l' gs F -> gfs h' l' gs F.
Proof. intros M. apply gfs_ext with l, M. Qed.

Lemma t_equivalent p h l i os a b fa fb : bs p h l i os -> gf h l a fa -> gf h l b fb ->
  exists g h', r_equivalent l a b h = (Ok g, h') /\ bs p h' l i os /\ mv l h h' [a; b] [g] /\ gf h' l g (fun ρ => eqb (fa ρ) (fb ρ)).
Proof.
  intros B Fa Fb. destruct (t_xor p h l i os B a b fa fb Fa Fb) as (x & h1 & E1 & B1 & M1 & F1).
  destruct (t_not p h1 l i os B1 x _ F1) as (y & h2 & E2 & B2 & M2 & F2).
  exists y, h2. split; [|split; [done|split]].
  - destruct B as [c B]. pose proof (bs_c _ _ _ _ _ _ B) as Ec. unfold r_equivalent. unfold r_xor in E1. unfold r_not in E2.
    destruct (c_xor c a b) as [x' c1] eqn:E3. rewrite (on_circ_ok _ _ _ c x' c1 Ec E3) in E1. simplify_eq.
    destruct (c_not c1 x) as [y' c2] eqn:E4. pose proof (upd_lookup h l c1 c Ec) as Ec1. change (Heap (<[l:=c1]> (h_circ h)) (h_stor h)) with (upd h l c1) in *.
    rewrite (on_circ_ok _ _ _ c1 y' c2 Ec1 E4) in E2. simplify_eq. change (Heap (<[l:=c2]> (<[l:=c1]> (h_circ h))) (h_stor h)) with (upd (upd h l c1) l c2).
    rewrite upd_upd. eapply on_circ_ok; [done|]. unfold c_equivalent. by rewrite E3, E4.
  - eapply mv_trans; [done|done|done|]. intros g ->%elem_of_list_singleton. right. by apply elem_of_list_singleton.
  - eapply gf_eq; [done|]. intros ρ. simpl. destruct (fa ρ), (fb ρ); reflexivity.
Qed.
Lemma t_output p h l i os g : bs p h l i os -> has_gate h l g ->
  exists h', r_output l g h = (Ok (N.of_nat (length os)), h') /\ bs p h' l i (os ++ [g]) /\ mv l h h' [] [].
Proof.
  intros [c B] Hg. pose proof (bs_c _ _ _ _ _ _ B) as E.
  destruct Hg as (c0 & E0 & [gt G]). rewrite E in E0. injection E0 as <-.
  destruct (r_output_cases h l c E g) as [[Hn _]|(c' & Er & P)]; [congruence|].
  destruct (w_push_out h l c (bs_wk _ _ _ _ _ _ B) E _ _ P) as [W' X]. destruct (bs_o _ _ _ _ _ _ B) as [Ho1 Ho2].
  exists (upd h l c'). rewrite Ho1 in Er. split; [done|]. pose proof (upd_lookup h l c' c E) as E'.
  pose proof (po_eq _ _ _ P) as Hc. clear P. subst c'. split.
  - eexists. split.
    + done.
    + exact E'.
    + apply B.
    + split; [simpl; rewrite app_length; simpl; lia|]. intros k o Hk. simpl. destruct (decide (N.of_nat k = output_len c)) as [He|He].
      * rewrite He, lookup_insert. f_equal. rewrite lookup_app_r in Hk by lia. replace (k - length os)%nat with O in Hk by lia.
        simpl in Hk. congruence.
      * rewrite lookup_insert_ne by done. apply Ho2. apply lookup_lt_Some in Hk as Hl. rewrite app_length in Hl. simpl in Hl.
        rewrite lookup_app_l in Hk by lia. done.
    + intros l' C. assert (C2 : calls h c l') by done. destruct (bs_calls _ _ _ _ _ _ B _ C2) as [Hu Hp]. split; [|done].
      eapply unconsumed_ext; [apply B|apply B|exact X| |done].
      intros ->. eapply (wk_u h l (bs_wk _ _ _ _ _ _ B)); [apply B|done].
    + apply (bs_w _ _ _ _ _ _ B).
  - split; [done|intros ? []%elem_of_nil| |constructor]. intros g0 _ Hf _ c0 g' gt' E0 G'. rewrite E' in E0. injection E0 as <-. by eapply Hf.
Qed.

(** * Calls of modules *)
(** Module [mid] of the circuit at [l] has [n_in] inputs, [n_out] outputs, computes [F], and can be called. *)
Definition mspec (p : nat) (h : heap) (l : nat) (mid : N) (n_in n_out : nat) (F : list bool -> list bool) : Prop :=
  exists c x l' m, h_circ h !! l = Some c /\ h_stor h !! c_storage c = Some x /\ module_map x !! mid = Some l' /\ l' <> l /\ l' <> p /\
    h_circ h !! l' = Some m /\ input_len m = N.of_nat n_in /\ output_len m = N.of_nat n_out /\
    (Z.of_N (input_len m) + Z.of_N (output_len m) <= num_wire m)%Z /\ unconsumed h l' /\
    forall bits, length bits = n_in -> computes h l' bits (F bits).
Lemma computes_frame h h' l c bits outs : hle h h' -> h_circ h !! l = Some c -> h_circ h' !! l = Some c -> computes h l bits outs ->
  computes h' l bits outs.
Proof.
  intros L E E' (c0 & E0 & H1 & H2). rewrite E in E0. injection E0 as <-. exists c. split; [done|]. split; [done|].
  intros k b Hb. eapply outv_hle; [done|]. by apply H2.
Qed.
Lemma mspec_ext p h h' l mid n_in n_out F : hinv h -> uncalled h l -> ext l h h' -> mspec p h l mid n_in n_out F -> mspec p h' l mid n_in n_out F.
Proof.
  intros H U X (c & x & l' & m & E & S & Hm & Hne & Hnp & E' & Hi & Ho & Hw & Hu & Hc).
  destruct (hle_circ _ _ (ext_hle _ _ _ X) _ _ E) as (c' & Ec' & Lc). destruct (hle_stor _ _ (ext_hle _ _ _ X) _ _ S) as (x' & S' & Hx & _).
  exists c', x', l', m. split; [done|]. rewrite (cle_st _ _ Lc). split; [done|]. split; [by eapply lookup_weaken|]. split; [done|]. split; [done|].
  pose proof (ext_frame _ _ _ X _ _ Hne E') as E2. split; [done|]. split; [done|]. split; [done|]. split; [done|].
  split; [by eapply unconsumed_ext|]. intros bits Hb. eapply computes_frame; [apply X|exact E'|done|by apply Hc].
Qed.
Lemma mspec_mv p i os q h h' l ops news mid n_in n_out F : bs p h l i os -> mv l h h' ops news -> mspec q h l mid n_in n_out F -> mspec q h' l mid n_in n_out F.
Proof. intros [c B] M. apply mspec_ext; [apply B|apply B|apply M]. Qed.

Lemma uncalled_upd_mod h l c m mid ids outs c' x l' : dinv h -> h_circ h !! l = Some c -> push_mod c m mid ids outs c' ->
  h_stor h !! c_storage c = Some x -> module_map x !! mid = Some l' -> l' <> l -> uncalled h l -> uncalled (upd h l c') l.
Proof.
  intros D E P S Hm Hne U l1 c1 E1 C. destruct (decide (l1 = l)) as [-> |].
  - erewrite upd_lookup in E1 by done. injection E1 as <-. destruct (push_mod_calls h c m mid ids outs c' x l' l P S Hm C) as [C'| ->]; [|done].
    by eapply U.
  - rewrite upd_lookup_ne in E1 by done. by eapply U.
Qed.
Lemma t_module md p h l i os mid n_in n_out F ids G : bs p h l i os -> mspec p h l mid n_in n_out F -> gfs h l ids G -> length ids = n_in ->
  (0 < n_out)%nat ->
  exists outs h', r_module md l mid ids h = (Ok outs, h') /\ bs p h' l i os /\ mv l h h' ids outs /\ length outs = n_out /\
    gfs h' l outs (fun ρ => F (G ρ)).
Proof.
  intros [c B] (c0 & x & l' & m & E & S & Hm & Hne & Hnp & E' & Hi & Ho & Hw & Hu & Hc) Fa Hl Hpos.
  rewrite (bs_c _ _ _ _ _ _ B) in E. injection E as <-. pose proof (bs_c _ _ _ _ _ _ B) as E.
  pose proof (bs_wk _ _ _ _ _ _ B) as W. pose proof (di_inv h (wk_d _ _ W)) as H.
  assert (Hwo : wires_ok md m) by (intros _; done).
  destruct (r_module_ok md h l c x l' m mid ids E S Hm Hne E' Hwo) as (outs & c' & Er & P).
  assert (Hids : forall a, a ∈ ids -> a < gate_index c).
  { intros a Ha. apply (has_gate_lt h l c W E). by eapply gfs_in. }
  assert (De : deff md h (upd h l c')).
  { eapply (deff_module md h l c _ x l' m mid ids outs c'); eauto using wk_u; [by rewrite Hi, Hl|lia]. }
  assert (X : ext l h (upd h l c')).
  { split; [eapply hle_eff; [exact H|by eapply deff_eff]| |simpl; by rewrite insert_length|by eapply dreach_once]. intros. by rewrite upd_lookup_ne. }
  pose proof (upd_lookup h l c' c E) as Ec'. exists outs, (upd h l c'). split; [done|].
  assert (Hout : forall g, g ∈ outs <-> gate_index c <= g < gate_index c + output_len m).
  { intros g. rewrite (pm_outs _ _ _ _ _ _ P), elem_of_list_fmap. setoid_rewrite elem_of_nrange. split.
    - intros (y & -> & ?). lia.
    - intros. exists (g - gate_index c). lia. }
  assert (Hlo : length outs = n_out) by (rewrite (pm_outs _ _ _ _ _ _ P), map_length, nrange_length, Ho; lia).
  assert (Hfree : forall g c0 g' gt, g ∉ ids -> (forall g' gt, gate_map c !! g' = Some gt -> g ∉ operands gt) -> h_circ (upd h l c') !! l = Some c0 -> gate_map c0 !! g' = Some gt -> g ∉ operands gt).
  { intros g c0 g' gt Hg Hf E0 G0. rewrite Ec' in E0. injection E0 as <-. rewrite (pm_gm _ _ _ _ _ _ P) in G0. destruct decide.
    - injection G0 as <-. done.
    - by eapply Hf. }
  split; [|split; [|split; [done|]]].
  - exists c'. split.
    + split; [eapply dinv_deff; [apply W|exact De]|by eapply uncalled_upd_mod; eauto using wk_d, wk_u|eauto].
    + done.
    + rewrite (pm_il _ _ _ _ _ _ P). apply B.
    + destruct (bs_o _ _ _ _ _ _ B) as [Ho1 Ho2]. split; [by rewrite (pm_ol _ _ _ _ _ _ P)|]. intros k g Hk. rewrite (pm_om _ _ _ _ _ _ P). by apply Ho2.
    + intros l2 C. destruct (push_mod_calls h c m mid ids outs c' x l' l2 P S Hm C) as [C2| ->].
      * destruct (bs_calls _ _ _ _ _ _ B _ C2) as [Hu2 Hp]. split; [|done]. eapply unconsumed_ext; [done|apply W|exact X| |done].
        intros ->. eapply (wk_u h l W); [apply B|done].
      * split; [|done]. eapply unconsumed_ext; [done|apply W|exact X|done|done].
    + intros Hp. rewrite (pm_gi _ _ _ _ _ _ P), (pm_nw _ _ _ _ _ _ P). pose proof (bs_w _ _ _ _ _ _ B Hp). lia.
  - split; [done| | |rewrite (pm_outs _ _ _ _ _ _ P); apply NoDup_fmap_2; [intros ???; lia|apply NoDup_nrange]].
    + intros g Hg. apply Hout in Hg as Hg'. split; [rewrite (has_gate_lt h l c W E); lia|]. split.
      * exists c'. split; [done|]. rewrite (pm_gm _ _ _ _ _ _ P), decide_True by done. eauto.
      * intros c0 g' gt. apply Hfree.
        -- intros Hin. specialize (Hids g Hin). lia.
        -- intros g2 gt2 G2 Hin. pose proof (d_ops h c (di_disc h (wk_d h l W) l c E) _ _ _ G2 Hin).
           assert (g2 < gate_index c) by (eapply gm_lt; [|done]; by eapply (hi_circ h)). lia.
    + intros g Hh Hf Hg c0 g' gt. apply Hfree; [done|]. intros. by eapply Hf.
  - split.
    + apply Forall_forall. intros g Hg. apply Hout in Hg. exists c'. split; [done|]. rewrite (pm_gm _ _ _ _ _ _ P), decide_True by done. eauto.
    + intros ρ. assert (HG : length (G ρ) = n_in) by (rewrite <- Hl; by eapply gfs_length).
      destruct (Hc (G ρ) HG) as (m0 & E0 & Hlen & Hv). rewrite E' in E0. injection E0 as <-.
      apply Forall2_same_length_lookup_2; [lia|].
      intros k g b Hk Hb. destruct (Hv k b Hb) as (m0 & o & E0 & Eo & V). rewrite E' in E0. injection E0 as <-.
      rewrite (pm_outs _ _ _ _ _ _ P), list_lookup_fmap, nrange_lookup in Hk.
      destruct (decide (N.of_nat k < output_len m)) as [Hlt|]; [|done]. simpl in Hk. injection Hk as <-.
      pose proof (gfs_ext _ _ _ _ _ _ X Fa) as [_ Fa'].
      eapply gv_module; [exact Ec'| | | | |exact Eo|exact (Fa' ρ)|].
      * rewrite (pm_gm _ _ _ _ _ _ P), decide_True by lia. replace (gate_index c + N.of_nat k - gate_index c) with (N.of_nat k) by lia. done.
      * rewrite (pm_st _ _ _ _ _ _ P). done.
      * exact Hm.
      * rewrite upd_lookup_ne by done. exact E'.
      * eapply gv_hle; [apply X|]. exact V.
Qed.

(** * Building a module *)
Record base (h : heap) (l : nat) : Prop := { base_d : dinv h; base_c : is_Some (h_circ h !! l) }.
(** From [h] to [h'] circuits and modules were added, nothing else; if the circuit at [l] was uncalled it still is. *)
Record built (h : heap) (l : nat) (h' : heap) : Prop := {
  bt_d : dinv h';
  bt_hle : hle h h';
  bt_old : forall l0 c, h_circ h !! l0 = Some c -> h_circ h' !! l0 = Some c;
  bt_unc : uncalled h l -> uncalled h' l;
  bt_reach : dreach h h';
}.
Lemma built_base h l h' : base h l -> built h l h' -> base h' l.
Proof. intros [D [c E]] Bt. split; [apply Bt|]. exists c. by apply Bt. Qed.
Lemma built_refl h l : dinv h -> built h l h.
Proof. intros. split; [done|apply hle_refl|done|done|apply rtc_refl]. Qed.
Lemma built_trans h1 l h2 h3 : built h1 l h2 -> built h2 l h3 -> built h1 l h3.
Proof.
  intros B1 B2. split; [apply B2|eapply hle_trans; [apply B1|apply B2]| | |eapply dreach_trans; [apply B1|apply B2]].
  - intros. by apply B2, B1.
  - intros. by apply B2, B1.
Qed.
Lemma unconsumed_pres h h' l : hinv h -> hle h h' -> (forall l0 c, h_circ h !! l0 = Some c -> h_circ h' !! l0 = Some c) ->
  unconsumed h l -> unconsumed h' l.
Proof.
  intros H L O Hu. induction Hu as [l c E HO Hc IH]. econstructor; [by apply O|exact HO|]. intros l2 C. apply IH. by eapply calls_shrink.
Qed.
Lemma mspec_pres p h h' l mid n_in n_out F : hinv h -> hle h h' -> (forall l0 c, h_circ h !! l0 = Some c -> h_circ h' !! l0 = Some c) ->
  mspec p h l mid n_in n_out F -> mspec p h' l mid n_in n_out F.
Proof.
  intros H L O (c & x & l' & m & E & S & Hm & Hne & Hnp & E' & Hi & Ho & Hw & Hu & Hc).
  destruct (hle_stor _ _ L _ _ S) as (x' & S' & Hx & _).
  exists c, x', l', m. split; [by apply O|]. split; [done|]. split; [by eapply lookup_weaken|]. split; [done|]. split; [done|].
  split; [by apply O|]. split; [done|]. split; [done|]. split; [done|].
  split; [by eapply unconsumed_pres|]. intros bits Hb. eapply computes_frame; [done|exact E'|by apply O|by apply Hc].
Qed.
Lemma mspec_built p h l0 h' l mid n_in n_out F : dinv h -> built h l0 h' -> mspec p h l mid n_in n_out F -> mspec p h' l mid n_in n_out F.
Proof. intros D Bt. apply mspec_pres; [apply D|apply Bt|apply Bt]. Qed.
(** The circuit at [l] itself stays as it is. *)
Lemma bs_built h l h' i os : built h l h' -> bs l h l i os -> bs l h' l i os.
Proof.
  intros Bt [c B]. pose proof (bs_c _ _ _ _ _ _ B) as E. pose proof (bt_old _ _ _ Bt _ _ E) as E'.
  exists c. split; [split|done|apply B|apply B| |done].
  - apply Bt.
  - apply (bt_unc _ _ _ Bt), B.
  - eauto.
  - intros l' C. assert (C2 : calls h c l') by (eapply calls_shrink; [apply B|apply Bt|done|done]).
    destruct (bs_calls _ _ _ _ _ _ B _ C2) as [Hu Hp]. split; [|done]. eapply unconsumed_pres; [apply B|apply Bt|apply Bt|done].
Qed.
Lemma gfs_built h l h' l0 gs F : built h l h' -> gfs h l0 gs F -> gfs h' l0 gs F.
Proof. intros Bt. apply gfs_hle, Bt. Qed.

Record sub_of (h : heap) (l : nat) (mid : N) (s : nat) (h1 : heap) : Prop := {
  so_base : base h l;
  so_d : dinv h1;
  so_hle : hle h h1;
  so_old : forall l0 c, h_circ h !! l0 = Some c -> h_circ h1 !! l0 = Some c;
  so_new : h_circ h !! s = None;
  so_reg : exists c x, h_circ h1 !! l = Some c /\ h_stor h1 !! c_storage c = Some x /\ module_map x !! mid = Some s;
  so_unc : uncalled h l -> uncalled h1 l;
  so_reach : dreach h h1;
  so_mspec : forall mid' n_in n_out F, mspec l h l mid' n_in n_out F -> mspec l h1 s mid' n_in n_out F;
}.
Lemma t_sub h l : base h l -> exists mid s h1, r_sub_circuit l h = (Ok (mid, s), h1) /\ bs l h1 s 0 [] /\ sub_of h l mid s h1.
Proof.
  intros [D [c E]]. destruct (hi_stor h (di_inv h D) l c E) as [x S].
  set (s := length (h_circ h)). set (h0 := add_circ h (circuit_new (c_storage c))). set (h1 := reg h0 (c_storage c) x s).
  assert (E1 : h_circ h1 !! s = Some (circuit_new (c_storage c))).
  { unfold h1, h0, s. simpl. rewrite lookup_app_r, Nat.sub_diag by lia. done. }
  assert (O : forall l0 c, h_circ h !! l0 = Some c -> h_circ h1 !! l0 = Some c).
  { intros l0 c0 E0. unfold h1, h0. simpl. by apply add_circ_old. }
  assert (N0 : h_circ h !! s = None) by (apply lookup_ge_None_2; unfold s; lia).
  assert (D0 : deff Debug h h0) by (by eapply deff_new).
  assert (Dh0 : dinv h0) by (by eapply dinv_deff).
  assert (D1 : deff Debug h0 h1).
  { eapply (deff_reg Debug h0 _ x s); [done|]. unfold h0. simpl. rewrite lookup_app_r, Nat.sub_diag by (unfold s; lia). done. }
  assert (Dh1 : dinv h1) by (by eapply dinv_deff).
  assert (L : hle h h1).
  { eapply hle_trans; [eapply hle_eff; [apply D|by eapply deff_eff]|eapply hle_eff; [apply Dh0|by eapply deff_eff]]. }
  assert (Inv : forall l0 c0, h_circ h1 !! l0 = Some c0 -> h_circ h !! l0 = Some c0 \/ (l0 = s /\ c0 = circuit_new (c_storage c))).
  { intros l0 c0 E0. by apply add_circ_inv. }
  assert (Nc : forall st l', ~ calls h1 (circuit_new st) l').
  { intros st l' (g & il & ol & ids & oi & mid & x' & G & _). simpl in G. by rewrite lookup_empty in G. }
  assert (Sx : h_stor h1 !! c_storage c = Some (Storage (<[num_module x := s]> (module_map x)) (num_module x + 1))).
  { unfold h1, reg. simpl. rewrite list_lookup_insert; [done|]. by apply lookup_lt_is_Some_1; rewrite S. }
  exists (num_module x), s, h1. split; [|split].
  - unfold h1, h0, s. by eapply r_sub_ok.
  - exists (circuit_new (c_storage c)). split.
    + split; [done| |eauto]. intros l1 c1 El C. destruct (Inv _ _ El) as [El'|[-> ->]]; [|by eapply Nc].
      assert (C2 : calls h c1 s) by (eapply calls_shrink; [apply D|done|done|done]).
      apply (calls_valid h l1 c1 s (di_inv h D) El') in C2 as [? ?]. congruence.
    + done.
    + done.
    + split; [done|]. intros k g Hk. by rewrite lookup_nil in Hk.
    + intros l' C. exfalso. by eapply Nc.
    + intros _. done.
  - split; [split; eauto|done|done|done|done| | |eapply dreach_trans; by eapply dreach_once|].
    + eexists c, _. split; [by apply O|]. split; [exact Sx|]. simpl. by rewrite lookup_insert.
    + intros U l1 c1 El C. destruct (Inv _ _ El) as [El'|[-> ->]]; [|by eapply Nc].
      eapply U; [exact El'|]. eapply calls_shrink; [apply D|done|done|done].
    + intros mid' n_in n_out F (c0 & x0 & l' & m & E0 & S0 & Hm0 & Hne & Hnp & Em & Hi & Ho & Hw & Hu & Hc).
      rewrite E in E0. injection E0 as <-. destruct (hle_stor _ _ L _ _ S0) as (x' & S' & Hx & _).
      exists (circuit_new (c_storage c)), x', l', m. split; [done|]. split; [done|]. split; [by eapply lookup_weaken|].
      split; [intros ->; congruence|]. split; [done|]. split; [by apply O|]. split; [done|]. split; [done|]. split; [done|].
      split; [eapply unconsumed_pres; [apply D|done|done|done]|]. intros bits Hb. eapply computes_frame; [done|exact Em|by apply O|by apply Hc].
Qed.

(** Input wires carrying the bits of a list, as a total function. *)
Definition wires (bits : list bool) : N -> bool := fun w => default false (bits !! N.to_nat w).
(** The values of [n] consecutive input wires from [i]. *)
Definition inb (i : N) (n : nat) (ρ : N -> bool) : list bool := map (fun k => ρ (i + N.of_nat k)) (seq 0 n).
Lemma inb_length i n ρ : length (inb i n ρ) = n.
Proof. unfold inb. by rewrite map_length, seq_length. Qed.
Lemma inb_wires i n bits : (N.to_nat i + n <= length bits)%nat -> inb i n (wires bits) = take n (drop (N.to_nat i) bits).
Proof.
  intros H. apply list_eq_same_length with (n := n); [rewrite take_length, drop_length; lia|by rewrite inb_length|].
  intros k x y Hk Hx Hy. unfold inb in Hx. rewrite list_lookup_fmap in Hx. rewrite lookup_seq_lt in Hx by done. simpl in Hx. injection Hx as <-.
  rewrite lookup_take, lookup_drop in Hy by done. unfold wires. replace (N.to_nat (i + N.of_nat k)) with (N.to_nat i + k)%nat by lia.
  by rewrite Hy.
Qed.
Lemma inb_S i n ρ : inb i (S n) ρ = inb i n ρ ++ [ρ (i + N.of_nat n)].
Proof. unfold inb. by rewrite seq_S, map_app. Qed.

(** The outputs of a finished circuit. *)
Lemma bs_computes p h l i os G bits : bs p h l i os -> gfs h l os G -> N.of_nat (length bits) = i -> computes h l bits (G (wires bits)).
Proof.
  intros [c B] Fo Hb. pose proof (bs_c _ _ _ _ _ _ B) as E. destruct (bs_o _ _ _ _ _ _ B) as [Ho1 Ho2].
  exists c. split; [done|]. rewrite (gfs_length _ _ _ _ _ Fo). split; [done|]. intros k b Hk.
  destruct Fo as [_ Fo]. destruct (Forall2_lookup_r _ _ _ _ _ (Fo (wires bits)) Hk) as (g & Hg & V).
  exists c, g. split; [done|]. split; [by apply Ho2|]. eapply gv_agree; [apply B|done| |exact V].
  intros w Hw. unfold wires, env_of. rewrite (bs_i _ _ _ _ _ _ B) in Hw.
  destruct (lookup_lt_is_Some_2 bits (N.to_nat w)) as [x Hx]; [lia|]. by rewrite Hx.
Qed.
Lemma bs_unconsumed p h l i os : bs p h l i os -> Forall (free h l) os -> unconsumed h l.
Proof.
  intros [c B] Ff. pose proof (bs_c _ _ _ _ _ _ B) as E. destruct (bs_o _ _ _ _ _ _ B) as [Ho1 Ho2].
  assert (W : cwf c) by (eapply (hi_circ h), E; apply B).
  econstructor; [done| |intros l' C; by apply (bs_calls _ _ _ _ _ _ B)].
  intros k o Ho. destruct (decide (k < output_len c)) as [Hk|Hk]; [|rewrite (wf_outputs_none c W k) in Ho by lia; done].
  destruct (lookup_lt_is_Some_2 os (N.to_nat k)) as [o2 Ho']; [lia|]. pose proof (Ho2 _ _ Ho') as H2. rewrite N2Nat.id, Ho in H2. injection H2 as <-.
  pose proof (Forall_lookup_1 _ _ _ _ Ff Ho') as Hf. change (c_get_depended_gates c o) with (deps c o).
  destruct (deps c o) as [|d ds] eqn:Ed; [done|]. assert (Hin : d ∈ deps c o) by (rewrite Ed; left).
  apply (deps_in c W) in Hin as (gt & G & Hop). by apply (Hf c d gt) in Hop.
Qed.
(** Output gates made since [h0], different from each other, that no gate reads. *)
Definition fin_outs (l : nat) (h0 h : heap) (os : list N) : Prop :=
  NoDup os /\ forall g, g ∈ os -> ~ has_gate h0 l g /\ has_gate h l g /\ free h l g.
Lemma fin_outs_nil l h0 h : fin_outs l h0 h [].
Proof. split; [constructor|]. intros ? []%elem_of_nil. Qed.
Lemma fin_outs_mv l h0 h h' ops news os : ext l h0 h -> mv l h h' ops news -> fin_outs l h0 h os -> (forall g, g ∈ ops -> g ∉ os) ->
  fin_outs l h0 h' (os ++ news) /\ fin_outs l h0 h' os.
Proof.
  intros X M [Hd Hf] Hops.
  assert (Hos : forall g, g ∈ os -> ~ has_gate h0 l g /\ has_gate h' l g /\ free h' l g).
  { intros g Hg. destruct (Hf g Hg) as (H1 & H2 & H3). split; [done|]. split; [eapply has_gate_hle; [apply M|done]|].
    eapply (mv_free _ _ _ _ _ M); [done|done|]. intros Hin. by apply (Hops g). }
  split; [|done]. split.
  - apply NoDup_app. split; [done|]. split; [|apply M]. intros g Hg Hn. destruct (mv_new _ _ _ _ _ M g Hn) as [H _]. apply H. by apply Hf.
  - intros g [Hg|Hg]%elem_of_app; [by apply Hos|]. destruct (mv_new _ _ _ _ _ M g Hg) as (H1 & H2 & H3). split; [|done].
    intros H. apply H1. eapply has_gate_hle; [apply X|done].
Qed.
Lemma fin_outs_new l h0 h h' ops news : ext l h0 h -> mv l h h' ops news -> fin_outs l h0 h' news.
Proof.
  intros X M. eapply (fin_outs_mv l h0 h h' ops news []); [done|done|apply fin_outs_nil|]. intros ? _ []%elem_of_nil.
Qed.
(** The finished module. *)
Lemma t_fin h l mid s h1 h0 h2 i0 os0 (n_in n_out : nat) os G F : sub_of h l mid s h1 -> ext s h1 h0 -> bs l h0 s i0 os0 -> i0 = N.of_nat n_in -> ext s h0 h2 ->
  bs l h2 s (N.of_nat n_in) os -> gfs h2 s os G -> fin_outs s h0 h2 os -> length os = n_out ->
  (forall bits, length bits = n_in -> G (wires bits) = F bits) ->
  built h l h2 /\ mspec l h2 l mid n_in n_out F.
Proof.
  intros So X1 B0 -> X2 B2 Fo [Hd Hf] Hlo HG. pose proof (ext_trans _ _ _ _ X1 X2) as X.
  assert (Hsl : l <> s). { intros ->. destruct (base_c _ _ (so_base _ _ _ _ _ So)) as [? ?]. pose proof (so_new _ _ _ _ _ So). congruence. }
  assert (O : forall l0 c, h_circ h !! l0 = Some c -> h_circ h2 !! l0 = Some c).
  { intros l0 c E. apply (ext_frame _ _ _ X); [|by apply (so_old _ _ _ _ _ So)]. intros ->. pose proof (so_new _ _ _ _ _ So). congruence. }
  pose proof (hle_trans _ _ _ (so_hle _ _ _ _ _ So) (ext_hle _ _ _ X)) as L. destruct B2 as [c2 B2'].
  assert (D1 : dinv h1) by apply So. split.
  - split; [apply B2'|done|done| |eapply dreach_trans; [apply So|apply X]].
    intros U l1 c1 E C. destruct (decide (l1 = s)) as [-> |Hne].
    + rewrite (bs_c _ _ _ _ _ _ B2') in E. injection E as <-. by apply (bs_calls _ _ _ _ _ _ B2') in C as [_ ?].
    + assert (E1 : h_circ h1 !! l1 = Some c1).
      { destruct (h_circ h1 !! l1) as [c'|] eqn:E1; [pose proof (ext_frame _ _ _ X _ _ Hne E1); congruence|]. 
        exfalso. apply lookup_ge_None_1 in E1. rewrite <- (ext_len _ _ _ X) in E1. apply lookup_lt_Some in E. lia. }
      eapply (so_unc _ _ _ _ _ So U); [exact E1|]. eapply calls_shrink; [apply D1|apply X|done|done].
  - destruct (so_reg _ _ _ _ _ So) as (c & x & E & S & Hm). pose proof (ext_frame _ _ _ X _ _ Hsl E) as E2.
    destruct (hle_stor _ _ (ext_hle _ _ _ X) _ _ S) as (x2 & S2 & Hx & _). pose proof (bs_c _ _ _ _ _ _ B2') as Es.
    assert (B2 : bs l h2 s (N.of_nat n_in) os) by (by exists c2).
    exists c, x2, s, c2. split; [done|]. split; [done|]. split; [by eapply lookup_weaken|]. split; [done|]. split; [done|]. split; [done|].
    split; [apply B2'|]. destruct (bs_o _ _ _ _ _ _ B2') as [Ho _]. split; [by rewrite Ho, Hlo|]. split; [|split].
    + destruct B0 as [c0 B0]. pose proof (bs_c _ _ _ _ _ _ B0) as E0. destruct (bs_w _ _ _ _ _ _ B0 Hsl) as [W1 _].
      destruct (bs_w _ _ _ _ _ _ B2' Hsl) as [_ W2]. destruct (hle_circ _ _ (ext_hle _ _ _ X2) _ _ E0) as (c2' & E2' & Lc). rewrite Es in E2'. injection E2' as <-.
      assert (Hin : forall g, g ∈ os -> gate_index c0 <= g < gate_index c2).
      { intros g Hg. destruct (Hf g Hg) as (H1 & H2 & _). rewrite (has_gate_lt h0 s c0 (bs_wk _ _ _ _ _ _ B0) E0) in H1.
        rewrite (has_gate_lt h2 s c2 (bs_wk _ _ _ _ _ _ B2') Es) in H2. lia. }
      assert (Hlen : (length os <= length (map (fun j => gate_index c0 + j)%N (nrange (gate_index c2 - gate_index c0)%N)))%nat).
      { apply submseteq_length. apply NoDup_submseteq; [done|]. intros g Hg. apply elem_of_list_fmap. exists (g - gate_index c0).
        rewrite elem_of_nrange. specialize (Hin g Hg). lia. }
      rewrite map_length, nrange_length in Hlen. pose proof (cle_gi _ _ Lc). rewrite (bs_i _ _ _ _ _ _ B2'), Ho. lia.
    + eapply bs_unconsumed; [exact B2|]. apply Forall_forall. intros g Hg. by apply Hf.
    + intros bits Hb. rewrite <- HG by done. eapply bs_computes; [exact B2|done|by rewrite Hb].
Qed.
