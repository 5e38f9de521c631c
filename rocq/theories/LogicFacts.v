(** What the bit-vector modules compute. *)
From Verif Require Export Blocks Logic.

Lemma nth_lookup_lt {A} (v : list A) k d : (k < length v)%nat -> v !! k = Some (nth k v d).
Proof. intros H. destruct (lookup_lt_is_Some_2 v k H) as [x E]. by rewrite E, (nth_lookup_Some _ _ _ _ E). Qed.
Lemma bind_assoc {S A B C} (m : ST S A) (k : A -> ST S B) (k' : B -> ST S C) s :
  st_bind (st_bind m k) k' s = st_bind m (fun a => st_bind (k a) k') s.
Proof. unfold st_bind. by destruct (m s) as [[] ?]. Qed.
Lemma bind_ext {S A B} (m : ST S A) (k k' : A -> ST S B) s : (forall a s, k a s = k' a s) -> st_bind m k s = st_bind m k' s.
Proof. intros H. unfold st_bind. destruct (m s) as [[] ?]; by rewrite ?H. Qed.
Lemma iterM_ext {S A} (f g : A -> ST S unit) xs : (forall x s, f x s = g x s) -> forall s, st_iterM f xs s = st_iterM g xs s.
Proof.
  intros H. induction xs as [|x xs IH]; intros s; [done|]. simpl. unfold st_bind. rewrite H. destruct (g x s) as [[] ?]; by rewrite ?IH.
Qed.
Lemma mv_refl l h : mv l h h [] [].
Proof. split; [apply ext_refl|intros ? []%elem_of_nil|done|constructor]. Qed.
Lemma mv_app l h h1 h2 ops1 ops2 news1 news2 ops : mv l h h1 ops1 news1 -> mv l h1 h2 ops2 news2 ->
  (forall g, g ∈ ops1 -> g ∈ ops) -> (forall g, g ∈ ops2 -> g ∈ ops /\ g ∉ news1) -> mv l h h2 ops (news1 ++ news2).
Proof.
  intros M1 M2 H1 H2. split.
  - eapply ext_trans; [apply M1|apply M2].
  - intros g [Hg|Hg]%elem_of_app.
    + destruct (mv_new _ _ _ _ _ M1 g Hg) as (Hn & Hh & Hf). split; [done|]. split; [eapply has_gate_hle; [apply M2|done]|].
      eapply (mv_free _ _ _ _ _ M2); [done|done|]. intros Hin. by apply H2 in Hin as [_ ?].
    + destruct (mv_new _ _ _ _ _ M2 g Hg) as (Hn & Hh & Hf). split; [|done]. intros Hh0. apply Hn.
      eapply has_gate_hle; [apply M1|done].
  - intros g Hh Hf Hg. eapply (mv_free _ _ _ _ _ M2).
    + eapply has_gate_hle; [apply M1|done].
    + eapply (mv_free _ _ _ _ _ M1); [done|done|]. intros Hin. by apply Hg, H1.
    + intros Hin. by apply H2 in Hin as [? _].
  - apply NoDup_app. split; [apply M1|]. split; [|apply M2]. intros g Hg Hn. destruct (mv_new _ _ _ _ _ M2 g Hn) as [H _]. apply H.
    by apply (mv_new _ _ _ _ _ M1).
Qed.
Lemma mv_snoc0 l h h1 h2 ops news g : mv l h h1 ops news -> mv l h1 h2 [] [g] -> mv l h h2 ops (news ++ [g]).
Proof. intros M1 M2. eapply mv_app; [done|done|done|]. intros ? []%elem_of_nil. Qed.

Lemma t_inputs p h l i os n : bs p h l i os -> exists gs h', b_inputs l n h = (Ok gs, h') /\ length gs = n /\
  bs p h' l (i + N.of_nat n) os /\ mv l h h' [] gs /\ gfs h' l gs (inb i n).
Proof.
  intros B. destruct (mapM_inv (fun _ : nat => r_input l) (seq 0 n) (fun gs h' => bs p h' l (i + N.of_nat (length gs)) os /\ mv l h h' [] gs /\
    gfs h' l gs (inb i (length gs))) h) as (gs & h' & E & Hl & H).
  - intros gs _ h1 _ (B1 & M1 & F1). destruct (t_input _ _ _ _ _ B1) as (g & h2 & E2 & B2 & M2 & F2).
    exists g, h2. split; [done|]. rewrite app_length. simpl. split; [by replace (i + N.of_nat (length gs + 1)) with (i + N.of_nat (length gs) + 1) by lia|].
    split; [by eapply mv_snoc0|]. rewrite Nat.add_1_r. eapply gfs_eq; [eapply gfs_snoc; [by eapply gfs_mv|exact F2]|].
    intros ρ. by rewrite inb_S.
  - simpl. rewrite N.add_0_r. split; [done|]. split; [apply mv_refl|apply gfs_nil].
  - rewrite seq_length in Hl. rewrite Hl in H. exists gs, h'. done.
Qed.
Lemma t_consts p h l i os b n : bs p h l i os -> exists gs h', b_consts l b n h = (Ok gs, h') /\ length gs = n /\
  bs p h' l i os /\ mv l h h' [] gs /\ gfs h' l gs (fun _ => replicate n b).
Proof.
  intros B. destruct (mapM_inv (fun _ : nat => r_constant l b) (seq 0 n) (fun gs h' => bs p h' l i os /\ mv l h h' [] gs /\
    gfs h' l gs (fun _ => replicate (length gs) b)) h) as (gs & h' & E & Hl & H).
  - intros gs _ h1 _ (B1 & M1 & F1). destruct (t_constant _ _ _ _ _ B1 b) as (g & h2 & E2 & B2 & M2 & F2).
    exists g, h2. split; [done|]. rewrite app_length. simpl. split; [done|].
    split; [by eapply mv_snoc0|]. rewrite Nat.add_1_r. eapply gfs_eq; [eapply gfs_snoc; [by eapply gfs_mv|exact F2]|].
    intros ρ. by rewrite replicate_S_end.
  - split; [done|]. split; [apply mv_refl|apply gfs_nil].
  - rewrite seq_length in Hl. rewrite Hl in H. exists gs, h'. done.
Qed.
(** [let out = ..; sub_ref.output(out)?]: one output gate made by a call that reads gates which are no outputs. *)
Lemma t_out p h l i os g : bs p h l i os -> has_gate h l g -> exists h', b_output l g h = (Ok tt, h') /\ bs p h' l i (os ++ [g]) /\ mv l h h' [] [].
Proof.
  intros B Hg. destruct (t_output _ _ _ _ _ _ B Hg) as (h' & E & B' & M). exists h'. unfold b_output. by rewrite (st_bind_ok _ _ _ _ _ E).
Qed.
Lemma fin_outs_out l h0 h h' os : ext l h0 h -> mv l h h' [] [] -> fin_outs l h0 h os -> fin_outs l h0 h' os.
Proof. intros X M F. eapply (fin_outs_mv l h0 h h' [] [] os); [done|done|done|]. intros ? []%elem_of_nil. Qed.
Lemma mv_gf_new l h h' ops g : mv l h h' ops [g] -> has_gate h' l g.
Proof. intros M. apply (mv_new _ _ _ _ _ M). by apply elem_of_list_singleton. Qed.

(** A loop that makes one output gate per iteration out of gates that existed at the start. *)
Lemma t_out_loop p h l i n (f : nat -> M N) (vs : (N -> bool) -> list bool) (U : list N) : bs p h l i [] ->
  (forall ρ, length (vs ρ) = n) -> (forall g, g ∈ U -> has_gate h l g) ->
  (forall k h1 os, (k < n)%nat -> bs p h1 l i os -> ext l h h1 -> exists g h2 ops, f k h1 = (Ok g, h2) /\ bs p h2 l i os /\ mv l h1 h2 ops [g] /\
    (forall a, a ∈ ops -> a ∈ U) /\ gf h2 l g (fun ρ => nth k (vs ρ) false)) ->
  exists os h', st_iterM (fun k => g <- f k ;; b_output l g) (seq 0 n) h = (Ok tt, h') /\ bs p h' l i os /\ ext l h h' /\
    length os = n /\ gfs h' l os vs /\ fin_outs l h h' os.
Proof.
  intros B Hv HU Hf. destruct (iterM_inv (fun k => g <- f k ;; b_output l g) (seq 0 n)
    (fun k h' => exists os, bs p h' l i os /\ ext l h h' /\ length os = k /\ gfs h' l os (fun ρ => take k (vs ρ)) /\ fin_outs l h h' os) h)
    as (h' & E & os & B' & X & Hl & F & Fo).
  - intros k x h1 [-> Hk]%seq_lookup (os & B1 & X1 & Hl1 & F1 & Fo1).
    destruct (Hf k h1 os Hk B1 X1) as (g & h2 & ops & E2 & B2 & M2 & Hops & F2).
    destruct (t_out _ _ _ _ _ g B2) as (h3 & E3 & B3 & M3); [apply F2|].
    pose proof (ext_trans _ _ _ _ X1 (mv_ext _ _ _ _ _ M2)) as X2.
    exists h3. rewrite (st_bind_ok _ _ _ _ _ E2). split; [done|]. exists (os ++ [g]). split; [done|].
    split; [eapply ext_trans; [done|apply M3]|]. split; [rewrite app_length; simpl; lia|]. split.
    + eapply gfs_eq; [eapply gfs_snoc; [eapply gfs_mv; [exact M3|]; eapply gfs_mv; [exact M2|exact F1]|eapply gf_mv; [exact M3|exact F2]]|].
      intros ρ. simpl. symmetry. apply take_S_r. apply nth_lookup_lt. by rewrite Hv.
    + eapply fin_outs_out; [done|exact M3|]. eapply (fin_outs_mv l h h1 h2 ops [g] os); [done|done|done|].
      intros a Ha Hin. destruct Fo1 as [_ Fo1]. destruct (Fo1 a Hin) as [Hn _]. apply Hn. by apply HU, Hops.
  - exists []. split; [done|]. split; [apply ext_refl|]. split; [done|]. split; [apply gfs_nil|apply fin_outs_nil].
  - rewrite seq_length in *. exists os, h'. split; [done|]. split; [done|]. split; [done|]. split; [done|]. split; [|done].
    eapply gfs_eq; [done|]. intros ρ. simpl. apply take_ge. by rewrite Hv.
Qed.

(** * The modules *)
Lemma zip_nth (f : bool -> bool -> bool) (xs ys : list bool) k : (k < length xs)%nat -> (k < length ys)%nat ->
  nth k (zip_with f xs ys) false = f (nth k xs false) (nth k ys false).
Proof.
  intros H1 H2. apply nth_lookup_Some. rewrite lookup_zip_with, (nth_lookup_lt xs k false), (nth_lookup_lt ys k false) by done. done.
Qed.
Lemma build_not_ok h l n : base h l -> exists mid h', build_not l n h = (Ok mid, h') /\ built h l h' /\ mspec l h' l mid n n (map negb).
Proof.
  intros Hb. destruct (t_sub h l Hb) as (mid & s & h1 & E1 & B1 & So).
  destruct (t_inputs l h1 s 0 [] n B1) as (ins & h2 & E2 & Hl & B2 & M2 & F2). rewrite N.add_0_l in B2.
  destruct (t_out_loop l h2 s (N.of_nat n) n (fun k => a <- st_nth ins k ;; r_not s a) (fun ρ => map negb (inb 0 n ρ)) ins B2)
    as (os & h3 & E3 & B3 & X3 & Hlo & F3 & Fo).
  - intros ρ. by rewrite map_length, inb_length.
  - intros g Hg. by eapply gfs_in.
  - intros k h' os Hk B' X'. destruct (lookup_lt_is_Some_2 ins k) as [a Ha]; [lia|].
    assert (Fa : gf h' s a (fun ρ => nth k (inb 0 n ρ) false)) by (eapply gfs_at; [by eapply gfs_ext|done]).
    destruct (t_not _ _ _ _ _ B' a _ Fa) as (g & h4 & E4 & B4 & M4 & F4). exists g, h4, [a].
    split; [by rewrite (st_bind_ok _ _ _ _ _ (st_nth_ok _ _ _ _ Ha))|]. split; [done|]. split; [done|].
    split; [intros x ->%elem_of_list_singleton; by eapply elem_of_list_lookup_2|].
    eapply gf_eq; [done|]. intros ρ. simpl. symmetry. apply nth_lookup_Some. rewrite list_lookup_fmap, (nth_lookup_lt _ k false) by (by rewrite inb_length). done.
  - exists mid, h3. split.
    + unfold build_not. rewrite (st_bind_ok _ _ _ _ _ E1), (st_bind_ok _ _ _ _ _ E2).
      erewrite st_bind_ok; [done|]. rewrite <- E3. apply iterM_ext. intros. by rewrite bind_assoc.
    + eapply (t_fin h l mid s h1 h2 h3 _ _ n n os _ _ So (mv_ext _ _ _ _ _ M2) B2 eq_refl X3 B3 F3 Fo Hlo). 
      intros bits Hbits. rewrite inb_wires by (rewrite Hbits; simpl; lia). by rewrite drop_0, take_ge by lia.
Qed.
Definition op_ok (f : nat -> N -> N -> M N) (op : bool -> bool -> bool) : Prop :=
  forall p h l i os, bs p h l i os -> forall a b fa fb, gf h l a fa -> gf h l b fb ->
  exists g h', f l a b h = (Ok g, h') /\ bs p h' l i os /\ mv l h h' [a; b] [g] /\ gf h' l g (fun ρ => op (fa ρ) (fb ρ)).
Lemma and_ok : op_ok r_and andb. Proof. intros ??????. intros. by eapply t_and. Qed.
Lemma or_ok : op_ok r_or orb. Proof. intros ??????. intros. by eapply t_or. Qed.
Lemma xor_ok : op_ok r_xor xorb. Proof. intros ??????. intros. by eapply t_xor. Qed.
(** Two blocks of inputs. *)
Lemma t_inputs2 p h l i os n : bs p h l i os -> exists xs ys h1 h2, b_inputs l n h = (Ok xs, h1) /\ b_inputs l n h1 = (Ok ys, h2) /\
  length xs = n /\ length ys = n /\ bs p h2 l (i + N.of_nat (n + n)) os /\ mv l h h2 [] (xs ++ ys) /\ gfs h2 l xs (inb i n) /\ gfs h2 l ys (inb (i + N.of_nat n) n).
Proof.
  intros B. destruct (t_inputs p h l i os n B) as (xs & h1 & E1 & L1 & B1 & M1 & F1).
  destruct (t_inputs p h1 l _ os n B1) as (ys & h2 & E2 & L2 & B2 & M2 & F2). exists xs, ys, h1, h2.
  split; [done|]. split; [done|]. split; [done|]. split; [done|]. split; [by replace (i + N.of_nat (n + n)) with (i + N.of_nat n + N.of_nat n) by lia|].
  split; [eapply mv_app; [done|done|done|]; intros ? []%elem_of_nil|]. split; [by eapply gfs_mv|done].
Qed.
Lemma inb2_wires n bits : length bits = (n + n)%nat -> inb 0 n (wires bits) = take n bits /\ inb (0 + N.of_nat n) n (wires bits) = drop n bits.
Proof.
  intros H. split; [by rewrite inb_wires, drop_0 by lia|]. rewrite inb_wires by lia. replace (N.to_nat (0 + N.of_nat n)) with n by lia.
  apply take_ge. rewrite drop_length. lia.
Qed.
Lemma build_binary_ok f op h l n : op_ok f op -> base h l -> exists mid h', build_binary f l n h = (Ok mid, h') /\ built h l h' /\
  mspec l h' l mid (n + n) n (fun bits => zip_with op (take n bits) (drop n bits)).
Proof.
  intros Hop Hb. destruct (t_sub h l Hb) as (mid & s & h1 & E1 & B1 & So).
  destruct (t_inputs2 l h1 s 0 [] n B1) as (xs & ys & h1' & h2 & E2 & E2' & Lx & Ly & B2 & M2 & Fx & Fy). rewrite N.add_0_l in B2.
  destruct (t_out_loop l h2 s (N.of_nat (n + n)) n (fun k => a <- st_nth xs k ;; b <- st_nth ys k ;; f s a b)
    (fun ρ => zip_with op (inb 0 n ρ) (inb (0 + N.of_nat n) n ρ)) (xs ++ ys) B2)
    as (os & h3 & E3 & B3 & X3 & Hlo & F3 & Fo).
  - intros ρ. rewrite zip_with_length, !inb_length. lia.
  - intros g [Hg|Hg]%elem_of_app; [exact (gfs_in _ _ _ _ _ Fx Hg)|exact (gfs_in _ _ _ _ _ Fy Hg)].
  - intros k h' os Hk B' X'. destruct (lookup_lt_is_Some_2 xs k) as [a Ha]; [lia|]. destruct (lookup_lt_is_Some_2 ys k) as [b Hb']; [lia|].
    assert (Fa : gf h' s a (fun ρ => nth k (inb 0 n ρ) false)) by (eapply gfs_at; [by eapply gfs_ext|done]).
    assert (Fb : gf h' s b (fun ρ => nth k (inb (0 + N.of_nat n) n ρ) false)) by (eapply gfs_at; [by eapply gfs_ext|done]).
    destruct (Hop _ _ _ _ _ B' a b _ _ Fa Fb) as (g & h4 & E4 & B4 & M4 & F4). exists g, h4, [a; b].
    split; [by rewrite (st_bind_ok _ _ _ _ _ (st_nth_ok _ _ _ _ Ha)), (st_bind_ok _ _ _ _ _ (st_nth_ok _ _ _ _ Hb'))|]. split; [done|]. split; [done|].
    split.
    + intros x Hx. apply elem_of_app. apply elem_of_cons in Hx as [-> |Hx]; [left|apply elem_of_list_singleton in Hx as ->; right]; by eapply elem_of_list_lookup_2.
    + eapply gf_eq; [done|]. intros ρ. simpl. by rewrite zip_nth by (by rewrite inb_length).
  - exists mid, h3. split.
    + unfold build_binary. rewrite (st_bind_ok _ _ _ _ _ E1), (st_bind_ok _ _ _ _ _ E2), (st_bind_ok _ _ _ _ _ E2').
      erewrite st_bind_ok; [done|]. rewrite <- E3. apply iterM_ext. intros k s0. rewrite bind_assoc. apply bind_ext. intros a s1. by rewrite bind_assoc.
    + eapply (t_fin h l mid s h1 h2 h3 _ _ (n + n) n os _ _ So (mv_ext _ _ _ _ _ M2) B2 eq_refl X3 B3 F3 Fo Hlo). 
      intros bits Hbits. destruct (inb2_wires n bits Hbits) as [Hx Hy]. by rewrite Hx, Hy.
Qed.
(** Equality of two bit vectors, by position. *)
Definition same_bits (xs ys : list bool) : bool := forallb (fun p => eqb p.1 p.2) (zip xs ys).
Lemma same_bits_snoc xs ys x y : length xs = length ys -> same_bits (xs ++ [x]) (ys ++ [y]) = same_bits xs ys && eqb x y.
Proof. intros H. unfold same_bits. rewrite zip_with_app by done. simpl. rewrite forallb_app. simpl. by rewrite andb_true_r. Qed.
Lemma build_eq_ok h l n : base h l -> exists mid h', build_eq l n h = (Ok mid, h') /\ built h l h' /\
  mspec l h' l mid (n + n) 1 (fun bits => [same_bits (take n bits) (drop n bits)]).
Proof.
  intros Hb. destruct (t_sub h l Hb) as (mid & s & h1 & E1 & B1 & So).
  destruct (t_inputs2 l h1 s 0 [] n B1) as (xs & ys & h1' & h2 & E2 & E2' & Lx & Ly & B2 & M2 & Fx & Fy). rewrite N.add_0_l in B2.
  destruct (t_constant _ _ _ _ _ B2 true) as (e & h3 & E3 & B3 & M3 & F3).
  destruct (foldM_inv (fun e i => a <- st_nth xs i ;; b <- st_nth ys i ;; is_eq <- r_equivalent s a b ;; r_and s e is_eq) (seq 0 n)
    (fun k e h' => bs l h' s (N.of_nat (n + n)) [] /\ ext s h2 h' /\ fin_outs s h2 h' [e] /\
       gf h' s e (fun ρ => same_bits (take k (inb 0 n ρ)) (take k (inb (0 + N.of_nat n) n ρ)))) e h3) as (e' & h4 & E4 & B4 & X4 & Fo4 & F4).
  - intros k e0 x h' [-> Hk]%seq_lookup (B' & X' & Fo' & F'). destruct (lookup_lt_is_Some_2 xs k) as [a Ha]; [lia|]. destruct (lookup_lt_is_Some_2 ys k) as [b Hb']; [lia|].
    assert (Fa : gf h' s a (fun ρ => nth k (inb 0 n ρ) false)) by (eapply gfs_at; [by eapply gfs_ext|done]).
    assert (Fb : gf h' s b (fun ρ => nth k (inb (0 + N.of_nat n) n ρ) false)) by (eapply gfs_at; [by eapply gfs_ext|done]).
    destruct (t_equivalent _ _ _ _ _ a b _ _ B' Fa Fb) as (q & h5 & E5 & B5 & M5 & F5).
    destruct (t_and _ _ _ _ _ B5 e0 q _ _ (gf_mv _ _ _ _ _ _ _ _ M5 F') F5) as (g & h6 & E6 & B6 & M6 & F6). exists g, h6.
    split; [by rewrite (st_bind_ok _ _ _ _ _ (st_nth_ok _ _ _ _ Ha)), (st_bind_ok _ _ _ _ _ (st_nth_ok _ _ _ _ Hb')), (st_bind_ok _ _ _ _ _ E5)|].
    pose proof (ext_trans _ _ _ _ X' (mv_ext _ _ _ _ _ M5)) as X5. split; [done|]. split; [eapply ext_trans; [done|apply M6]|].
    split; [by eapply fin_outs_new|]. eapply gf_eq; [done|]. intros ρ. simpl.
    rewrite !(take_S_r _ k (nth k _ false)) by (apply nth_lookup_lt; by rewrite inb_length).
    rewrite same_bits_snoc; [done|]. rewrite !take_length, !inb_length. lia.
  - split; [done|]. split; [apply M3|]. split; [eapply fin_outs_new; [apply ext_refl|done]|done].
  - destruct (t_out _ _ _ _ _ e' B4) as (h5 & E5 & B5 & M5); [apply F4|]. rewrite seq_length in F4. exists mid, h5. split.
    + unfold build_eq. by rewrite (st_bind_ok _ _ _ _ _ E1), (st_bind_ok _ _ _ _ _ E2), (st_bind_ok _ _ _ _ _ E2'), (st_bind_ok _ _ _ _ _ E3),
        (st_bind_ok _ _ _ _ _ E4), (st_bind_ok _ _ _ _ _ E5).
    + eapply (t_fin h l mid s h1 h2 h5 _ _ (n + n) 1 [e'] _ _ So (mv_ext _ _ _ _ _ M2) B2 eq_refl); [eapply ext_trans; [done|apply M5]|done| | |done|].
      * apply gfs_one. eapply gf_mv; [exact M5|exact F4].
      * by eapply fin_outs_out.
      * intros bits Hbits. destruct (inb2_wires n bits Hbits) as [Hx Hy]. rewrite Hx, Hy. rewrite (take_ge (take n bits)) by (rewrite take_length; lia). by rewrite (take_ge (drop n bits)) by (rewrite drop_length; lia).
Qed.
(** A module with one output that is called on [x ++ y], negated. *)
Lemma t_call_bit md p h l i os mid n_in F ids G : bs p h l i os -> mspec p h l mid n_in 1 F -> gfs h l ids G -> length ids = n_in ->
  exists g h', call_bit md l mid ids h = (Ok g, h') /\ bs p h' l i os /\ mv l h h' ids [g] /\ gf h' l g (fun ρ => nth 0 (F (G ρ)) false).
Proof.
  intros B Hm Fi Hl. destruct (t_module md p h l i os mid n_in 1 F ids G B Hm Fi Hl) as (outs & h' & E & B' & M' & Lo & F'); [lia|].
  destruct outs as [|g [|]]; [done| |done]. exists g, h'. split; [unfold call_bit; by rewrite (st_bind_ok _ _ _ _ _ E)|].
  split; [done|]. split; [done|]. by eapply gfs_at.
Qed.
Lemma build_neq_ok md h l n eq_mid F : base h l -> mspec l h l eq_mid (n + n) 1 F -> exists mid h', build_neq md l n eq_mid h = (Ok mid, h') /\ built h l h' /\
  mspec l h' l mid (n + n) 1 (fun bits => [negb (nth 0 (F bits) false)]).
Proof.
  intros Hb Hm. destruct (t_sub h l Hb) as (mid & s & h1 & E1 & B1 & So). apply (so_mspec _ _ _ _ _ So) in Hm.
  destruct (t_inputs2 l h1 s 0 [] n B1) as (xs & ys & h1' & h2 & E2 & E2' & Lx & Ly & B2 & M2 & Fx & Fy).
  apply (mspec_mv _ _ _ _ _ _ _ _ _ _ _ _ _ B1 M2) in Hm. rewrite N.add_0_l in B2.
  destruct (t_call_bit md l h2 s _ [] eq_mid _ F (xs ++ ys) _ B2 Hm (gfs_app _ _ _ _ _ _ Fx Fy)) as (e & h3 & E3 & B3 & M3 & F3);
    [by rewrite app_length, Lx, Ly|].
  destruct (t_not _ _ _ _ _ B3 e _ F3) as (g & h4 & E4 & B4 & M4 & F4).
  destruct (t_out _ _ _ _ _ g B4) as (h5 & E5 & B5 & M5); [apply F4|].
  exists mid, h5. split.
  - unfold build_neq. rewrite (st_bind_ok _ _ _ _ _ E1), (st_bind_ok _ _ _ _ _ E2), (st_bind_ok _ _ _ _ _ E2'). 
    unfold call_bit in E3. rewrite <- bind_assoc. by rewrite (st_bind_ok _ _ _ _ _ E3), (st_bind_ok _ _ _ _ _ E4), (st_bind_ok _ _ _ _ _ E5).
  - assert (X4 : ext s h2 h4) by (eapply ext_trans; [apply M3|apply M4]).
    eapply (t_fin h l mid s h1 h2 h5 _ _ (n + n) 1 [g] _ _ So (mv_ext _ _ _ _ _ M2) B2 eq_refl); [eapply ext_trans; [done|apply M5]|done| | |done|].
    + apply gfs_one. eapply gf_mv; [exact M5|exact F4].
    + eapply fin_outs_out; [done|done|]. eapply fin_outs_new; [apply M3|done].
    + intros bits Hbits. destruct (inb2_wires n bits Hbits) as [Hx Hy]. by rewrite Hx, Hy, take_drop.
Qed.

(** * The configuration and the operations on allocated bits *)
Record bits_cfg (h : heap) (l : nat) (cfg : bits_config) (n : nat) : Prop := {
  bk_ref : bc_ref cfg = l;
  bk_not : mspec l h l (bc_not cfg) n n (map negb);
  bk_and : mspec l h l (bc_and cfg) (n + n) n (fun bits => zip_with andb (take n bits) (drop n bits));
  bk_or : mspec l h l (bc_or cfg) (n + n) n (fun bits => zip_with orb (take n bits) (drop n bits));
  bk_xor : mspec l h l (bc_xor cfg) (n + n) n (fun bits => zip_with xorb (take n bits) (drop n bits));
  bk_eq : mspec l h l (bc_eq cfg) (n + n) 1 (fun bits => [same_bits (take n bits) (drop n bits)]);
  bk_neq : mspec l h l (bc_neq cfg) (n + n) 1 (fun bits => [negb (same_bits (take n bits) (drop n bits))]);
}.
Lemma bits_cfg_mv h l cfg n p i os ops news h' : bs p h l i os -> mv l h h' ops news -> bits_cfg h l cfg n -> bits_cfg h' l cfg n.
Proof. intros B M [H0 H1 H2 H3 H4 H5 H6]. split; [done|..]; by eapply mspec_mv. Qed.
Lemma bits_cfg_built h l l0 cfg n h' : dinv h -> built h l0 h' -> bits_cfg h l cfg n -> bits_cfg h' l cfg n.
Proof. intros B M [H0 H1 H2 H3 H4 H5 H6]. split; [done|..]; by eapply mspec_built. Qed.
Lemma bits_config_new_ok md h l n : base h l -> exists cfg h', bits_config_new md l n h = (Ok cfg, h') /\ built h l h' /\ bits_cfg h' l cfg n.
Proof.
  intros Hb. destruct (build_not_ok h l n Hb) as (m1 & h1 & E1 & T1 & S1). pose proof (built_base _ _ _ Hb T1) as Hb1.
  destruct (build_binary_ok r_and andb h1 l n and_ok Hb1) as (m2 & h2 & E2 & T2 & S2). pose proof (built_base _ _ _ Hb1 T2) as Hb2.
  destruct (build_binary_ok r_or orb h2 l n or_ok Hb2) as (m3 & h3 & E3 & T3 & S3). pose proof (built_base _ _ _ Hb2 T3) as Hb3.
  destruct (build_binary_ok r_xor xorb h3 l n xor_ok Hb3) as (m4 & h4 & E4 & T4 & S4). pose proof (built_base _ _ _ Hb3 T4) as Hb4.
  destruct (build_eq_ok h4 l n Hb4) as (m5 & h5 & E5 & T5 & S5). pose proof (built_base _ _ _ Hb4 T5) as Hb5.
  destruct (build_neq_ok md h5 l n m5 _ Hb5 S5) as (m6 & h6 & E6 & T6 & S6).
  exists (BitsConfig l m1 m2 m3 m4 m5 m6), h6. split.
  - unfold bits_config_new, build_and, build_or, build_xor. by rewrite (st_bind_ok _ _ _ _ _ E1), (st_bind_ok _ _ _ _ _ E2), (st_bind_ok _ _ _ _ _ E3),
      (st_bind_ok _ _ _ _ _ E4), (st_bind_ok _ _ _ _ _ E5), (st_bind_ok _ _ _ _ _ E6).
  - pose proof (base_d _ _ Hb1) as D1. pose proof (base_d _ _ Hb2) as D2. pose proof (base_d _ _ Hb3) as D3. pose proof (base_d _ _ Hb4) as D4.
    pose proof (base_d _ _ Hb5) as D5.
    split; [do 5 (eapply built_trans; [eassumption|]); eassumption|].
    split; cbn [bc_ref bc_not bc_and bc_or bc_xor bc_eq bc_neq]; [done|..|exact S6]; repeat (first [eassumption | eapply mspec_built; [|eassumption|]; [eassumption|]]).
Qed.
Lemma expect_ok {S A} (m : ST S A) s a s' : m s = (Ok a, s') -> st_expect m s = (Ok a, s').
Proof. unfold st_expect. by intros ->. Qed.

(** [x] holds [n] gates of the circuit at [l] denoting the bits [X]. *)
Record bits_val (h : heap) (l : nat) (cfg : bits_config) (n : nat) (x : abits) (X : (N -> bool) -> list bool) : Prop := {
  bv_cfg : ab_cfg x = cfg;
  bv_len : length (ab_bits x) = n;
  bv_val : gfs h l (ab_bits x) X;
}.
Lemma bits_val_mv h l cfg n x X ops news h' : mv l h h' ops news -> bits_val h l cfg n x X -> bits_val h' l cfg n x X.
Proof. intros M [H1 H2 H3]. split; [done|done|by eapply gfs_mv]. Qed.
Lemma bits_val_len h l cfg n x X ρ : bits_val h l cfg n x X -> length (X ρ) = n.
Proof. intros [H1 H2 H3]. rewrite <- H2. by eapply gfs_length. Qed.

Section bits_ops.
Context (md : mode) (h : heap) (l : nat) (i : N) (os : list N) (cfg : bits_config) (n : nat).
Context (B : bs l h l i os) (C : bits_cfg h l cfg n).
(** The state after an operation: [z] denotes [Z]; the new gates [news] are read by nobody, only [ops] gained readers. *)
Definition bits_post (h' : heap) (i' : N) (os' ops news : list N) : Prop := bs l h' l i' os' /\ mv l h h' ops news /\ bits_cfg h' l cfg n.
Lemma bits_new_ok : exists z h', bits_new cfg n h = (Ok z, h') /\ bits_post h' (i + N.of_nat n) os [] (ab_bits z) /\
  bits_val h' l cfg n z (inb i n).
Proof using All.
  destruct (t_inputs l h l i os n B) as (gs & h' & E & Hl & B' & M & F). exists (ABits gs cfg), h'.
  unfold bits_new. rewrite (bk_ref _ _ _ _ C). split; [by rewrite (st_bind_ok _ _ _ _ _ E)|]. split; [|by split].
  split; [done|]. split; [done|exact (bits_cfg_mv _ _ _ _ _ _ _ _ _ _ B ltac:(eassumption) C)].
Qed.
Lemma bits_from_ok gs G : (length gs <= n)%nat -> gfs h l gs G -> exists z h' pad, bits_from_gate_ids gs cfg n h = (Ok z, h') /\
  bits_post h' i os [] pad /\ ab_bits z = gs ++ pad /\ bits_val h' l cfg n z (fun ρ => G ρ ++ replicate (n - length gs) false).
Proof using All.
  intros Hl F. destruct (t_consts l h l i os false (n - length gs) B) as (pad & h' & E & Hp & B' & M & F').
  exists (ABits (gs ++ pad) cfg), h', pad. unfold bits_from_gate_ids. rewrite decide_True by done. rewrite (bk_ref _ _ _ _ C).
  split; [by rewrite (st_bind_ok _ _ _ _ _ E)|]. split; [split; [done|split; [done|exact (bits_cfg_mv _ _ _ _ _ _ _ _ _ _ B ltac:(eassumption) C)]]|]. split; [done|].
  split; [done|simpl; rewrite app_length; lia|]. simpl. apply gfs_app; [by eapply gfs_mv|done].
Qed.
Lemma bits_output_ok z Z : bits_val h l cfg n z Z -> exists h', bits_output z n h = (Ok tt, h') /\ bits_post h' i (os ++ ab_bits z) [] [].
Proof using All.
  intros [Hc Hl F]. destruct (iterM_inv (fun k => g <- st_nth (ab_bits z) k ;; b_output l g) (seq 0 n)
    (fun k h' => bs l h' l i (os ++ take k (ab_bits z)) /\ mv l h h' [] []) h) as (h' & E & B' & M).
  - intros k x h1 [-> Hk]%seq_lookup (B1 & M1). destruct (lookup_lt_is_Some_2 (ab_bits z) k) as [a Ha]; [lia|].
    destruct (t_out l h1 l i _ a B1) as (h2 & E2 & B2 & M2).
    { eapply has_gate_hle; [apply M1|]. eapply gfs_in; [exact F|by eapply elem_of_list_lookup_2]. }
    exists h2. rewrite (st_bind_ok _ _ _ _ _ (st_nth_ok _ _ _ _ Ha)). split; [done|]. rewrite (take_S_r _ _ _ Ha), app_assoc. split; [done|].
    change (@nil N) with (@nil N ++ []) at 2. eapply mv_app; [done|done|done|]. intros ? []%elem_of_nil.
  - rewrite take_0, app_nil_r. split; [done|apply mv_refl].
  - rewrite seq_length, take_ge in B' by lia. exists h'. unfold bits_output. rewrite Hc, (bk_ref _ _ _ _ C). split; [done|].
    split; [done|]. split; [done|exact (bits_cfg_mv _ _ _ _ _ _ _ _ _ _ B ltac:(eassumption) C)].
Qed.
Lemma call_bits_ok mid n_in F ids G : mspec l h l mid n_in n F -> gfs h l ids G -> length ids = n_in -> (0 < n)%nat ->
  exists z h', call_bits md mid ids cfg h = (Ok z, h') /\ bits_post h' i os ids (ab_bits z) /\ bits_val h' l cfg n z (fun ρ => F (G ρ)).
Proof using All.
  intros Hm Fi Hl Hn. destruct (t_module md l h l i os mid n_in n F ids G B Hm Fi Hl Hn) as (outs & h' & E & B' & M & Lo & F').
  exists (ABits outs cfg), h'. unfold call_bits. rewrite (bk_ref _ _ _ _ C), (st_bind_ok _ _ _ _ _ (expect_ok _ _ _ _ E)). split; [done|].
  split; [split; [done|split; [done|exact (bits_cfg_mv _ _ _ _ _ _ _ _ _ _ B ltac:(eassumption) C)]]|]. by split.
Qed.
Context (x y : abits) (X Y : (N -> bool) -> list bool) (Hx : bits_val h l cfg n x X) (Hy : bits_val h l cfg n y Y).
Lemma two_bits (F : list bool -> list bool -> list bool) ρ : F (take n (X ρ ++ Y ρ)) (drop n (X ρ ++ Y ρ)) = F (X ρ) (Y ρ).
Proof using Hx.
  pose proof (bits_val_len _ _ _ _ _ _ ρ Hx) as HL. clear - HL. rewrite take_app_alt, drop_app_alt by (symmetry; exact HL). reflexivity.
Qed.
Lemma bits_not_ok : (0 < n)%nat -> exists z h', bits_not md x h = (Ok z, h') /\ bits_post h' i os (ab_bits x) (ab_bits z) /\
  bits_val h' l cfg n z (fun ρ => map negb (X ρ)).
Proof using B C Hx.
  intros Hn. unfold bits_not. rewrite (bv_cfg _ _ _ _ _ _ Hx). by eapply call_bits_ok; [apply C|apply Hx|apply Hx|].
Qed.
Ltac two f bk := intros Hn; destruct (call_bits_ok (f cfg) (n + n) _ (ab_bits x ++ ab_bits y) _ (bk _ _ _ _ C) (gfs_app _ _ _ _ _ _ (bv_val _ _ _ _ _ _ Hx) (bv_val _ _ _ _ _ _ Hy)))
    as (z & h' & E & P & V); [rewrite app_length, (bv_len _ _ _ _ _ _ Hx), (bv_len _ _ _ _ _ _ Hy); done|done|];
  exists z, h'; rewrite (bv_cfg _ _ _ _ _ _ Hx); split; [done|]; split; [done|]; split; [apply V|apply V|]; eapply gfs_eq; [apply V|]; intros ρ; simpl; apply two_bits.
Lemma bits_and_ok : (0 < n)%nat -> exists z h', bits_and md x y h = (Ok z, h') /\ bits_post h' i os (ab_bits x ++ ab_bits y) (ab_bits z) /\
  bits_val h' l cfg n z (fun ρ => zip_with andb (X ρ) (Y ρ)).
Proof using All. unfold bits_and. two bc_and bk_and. Qed.
Lemma bits_or_ok : (0 < n)%nat -> exists z h', bits_or md x y h = (Ok z, h') /\ bits_post h' i os (ab_bits x ++ ab_bits y) (ab_bits z) /\
  bits_val h' l cfg n z (fun ρ => zip_with orb (X ρ) (Y ρ)).
Proof using All. unfold bits_or. two bc_or bk_or. Qed.
Lemma bits_xor_ok : (0 < n)%nat -> exists z h', bits_xor md x y h = (Ok z, h') /\ bits_post h' i os (ab_bits x ++ ab_bits y) (ab_bits z) /\
  bits_val h' l cfg n z (fun ρ => zip_with xorb (X ρ) (Y ρ)).
Proof using All. unfold bits_xor. two bc_xor bk_xor. Qed.
Lemma bits_eq_ok : exists g h', bits_eq md x y h = (Ok g, h') /\ bits_post h' i os (ab_bits x ++ ab_bits y) [g] /\ gf h' l g (fun ρ => same_bits (X ρ) (Y ρ)).
Proof using All.
  unfold bits_eq.
  destruct (t_call_bit md l h l i os (bc_eq cfg) (n + n) _ (ab_bits x ++ ab_bits y) _ B (bk_eq _ _ _ _ C) (gfs_app _ _ _ _ _ _ (bv_val _ _ _ _ _ _ Hx) (bv_val _ _ _ _ _ _ Hy)))
    as (g & h' & E & B' & M & V); [rewrite app_length, (bv_len _ _ _ _ _ _ Hx), (bv_len _ _ _ _ _ _ Hy); done|].
  exists g, h'. rewrite (bv_cfg _ _ _ _ _ _ Hx), (bk_ref _ _ _ _ C). split; [done|]. split; [split; [done|split; [done|exact (bits_cfg_mv _ _ _ _ _ _ _ _ _ _ B ltac:(eassumption) C)]]|].
  eapply gf_eq; [apply V|]. intros ρ. cbn [nth]. by pose proof (two_bits (fun a b => [same_bits a b]) ρ) as [= ->].
Qed.
Lemma bits_neq_ok : exists g h', bits_neq md x y h = (Ok g, h') /\ bits_post h' i os (ab_bits x ++ ab_bits y) [g] /\ gf h' l g (fun ρ => negb (same_bits (X ρ) (Y ρ))).
Proof using All.
  unfold bits_neq.
  destruct (t_call_bit md l h l i os (bc_neq cfg) (n + n) _ (ab_bits x ++ ab_bits y) _ B (bk_neq _ _ _ _ C) (gfs_app _ _ _ _ _ _ (bv_val _ _ _ _ _ _ Hx) (bv_val _ _ _ _ _ _ Hy)))
    as (g & h' & E & B' & M & V); [rewrite app_length, (bv_len _ _ _ _ _ _ Hx), (bv_len _ _ _ _ _ _ Hy); done|].
  exists g, h'. rewrite (bv_cfg _ _ _ _ _ _ Hx), (bk_ref _ _ _ _ C). split; [done|]. split; [split; [done|split; [done|exact (bits_cfg_mv _ _ _ _ _ _ _ _ _ _ B ltac:(eassumption) C)]]|].
  eapply gf_eq; [apply V|]. intros ρ. cbn [nth]. by pose proof (two_bits (fun a b => [same_bits a b]) ρ) as [= ->].
Qed.
(** [mux]. *)
Definition mux_bits (s : bool) (xs ys : list bool) : list bool := if s then ys else xs.
Lemma bits_mux_ok s S : gf h l s S -> exists z h', bits_mux x y s n h = (Ok z, h') /\ bits_post h' i os (ab_bits x ++ ab_bits y ++ [s]) (ab_bits z) /\
  bits_val h' l cfg n z (fun ρ => mux_bits (S ρ) (X ρ) (Y ρ)).
Proof using All.
  intros Fs. destruct (t_not l h l i os B s S Fs) as (ns & h1 & E1 & B1 & M1 & F1).
  destruct (mapM_inv (fun k => a <- st_nth (ab_bits x) k ;; false_bit <- r_and l a ns ;; b <- st_nth (ab_bits y) k ;; true_bit <- r_and l b s ;;
      r_xor l false_bit true_bit) (seq 0 n) 
    (fun zs h' => bs l h' l i os /\ mv l h1 h' (ab_bits x ++ ab_bits y ++ [s; ns]) zs /\ gfs h' l zs (fun ρ => take (length zs) (mux_bits (S ρ) (X ρ) (Y ρ)))) h1)
    as (zs & h' & E & Hl & B' & M' & F').
  - intros zs k h2 [-> Hk]%seq_lookup (B2 & M2 & F2).
    set (k := length zs) in *. destruct (lookup_lt_is_Some_2 (ab_bits x) k) as [a Ha]; [by rewrite (bv_len _ _ _ _ _ _ Hx)|].
    destruct (lookup_lt_is_Some_2 (ab_bits y) k) as [b Hb]; [by rewrite (bv_len _ _ _ _ _ _ Hy)|].
    pose proof (ext_trans _ _ _ _ (mv_ext _ _ _ _ _ M1) (mv_ext _ _ _ _ _ M2)) as X2.
    assert (Fa : gf h2 l a (fun ρ => nth k (X ρ) false)) by (eapply gf_ext; [done|]; eapply gfs_at; [apply Hx|done]).
    destruct (t_and l h2 l i os B2 a ns _ _ Fa (gf_mv _ _ _ _ _ _ _ _ M2 F1)) as (u & h3 & E3 & B3 & M3 & F3).
    pose proof (ext_trans _ _ _ _ X2 (mv_ext _ _ _ _ _ M3)) as X3.
    assert (Fb : gf h3 l b (fun ρ => nth k (Y ρ) false)) by (eapply gf_ext; [done|]; eapply gfs_at; [apply Hy|done]).
    destruct (t_and l h3 l i os B3 b s _ _ Fb (gf_ext _ _ _ _ _ _ X3 Fs)) as (v & h4 & E4 & B4 & M4 & F4).
    destruct (t_xor l h4 l i os B4 u v _ _ (gf_mv _ _ _ _ _ _ _ _ M4 F3) F4) as (w & h5 & E5 & B5 & M5 & F5).
    exists w, h5. split.
    { by rewrite (st_bind_ok _ _ _ _ _ (st_nth_ok _ _ _ _ Ha)), (st_bind_ok _ _ _ _ _ E3), (st_bind_ok _ _ _ _ _ (st_nth_ok _ _ _ _ Hb)),
        (st_bind_ok _ _ _ _ _ E4). }
    assert (Hold : forall g, g ∈ ab_bits x ++ ab_bits y ++ [s; ns] -> has_gate h1 l g).
    { intros g Hg. assert (Hor : has_gate h l g \/ g = ns).
      { apply elem_of_app in Hg as [Hg|Hg]; [left; eapply gfs_in; [apply Hx|done]|].
        apply elem_of_app in Hg as [Hg|Hg]; [left; eapply gfs_in; [apply Hy|done]|].
        apply elem_of_cons in Hg as [-> |Hg]; [left; apply Fs|apply elem_of_list_singleton in Hg as ->; by right]. }
      destruct Hor as [Hh| ->]; [eapply has_gate_hle; [apply M1|done]|apply F1]. }
    assert (Mi : mv l h2 h5 [a; ns; b; s] [w]).
    { assert (M34 : mv l h2 h4 [a; ns; b; s] [u; v]).
      { eapply (mv_app l h2 h3 h4 _ _ [u] [v]); [done|done| |].
        - intros g Hg. rewrite !elem_of_cons, elem_of_nil in *. tauto.
        - intros g Hg. split; [rewrite !elem_of_cons, elem_of_nil in *; tauto|]. intros ->%elem_of_list_singleton.
          destruct (mv_new _ _ _ _ _ M3 u) as [Hn _]; [by apply elem_of_list_singleton|]. apply Hn.
          apply elem_of_cons in Hg as [-> |Hg]; [|apply elem_of_list_singleton in Hg as ->].
          + eapply has_gate_hle; [apply X2|]. eapply gfs_in; [apply Hy|by eapply elem_of_list_lookup_2].
          + eapply has_gate_hle; [apply X2|]. apply Fs. }
      eapply (mv_trans l h2 h4 h5 _ _ [u; v]); [done|done|done|]. intros g Hg. by right. }
    split; [done|]. split.
    + eapply mv_app; [exact M2|exact Mi|done|]. intros g Hg.
      assert (Hin : g ∈ ab_bits x ++ ab_bits y ++ [s; ns]).
      { rewrite !elem_of_app. apply elem_of_list_lookup_2 in Ha, Hb. rewrite !elem_of_cons, elem_of_nil in *.
        destruct Hg as [-> |[-> |[-> |[-> |[]]]]]; tauto. }
      split; [done|]. intros Hz. destruct (mv_new _ _ _ _ _ M2 g Hz) as [Hn _]. by apply Hn, Hold.
    + rewrite app_length. simpl. rewrite Nat.add_1_r. eapply gfs_eq; [eapply gfs_snoc; [eapply gfs_mv; [exact Mi|exact F2]|exact F5]|].
      intros ρ. simpl. fold k. symmetry. apply take_S_r. unfold mux_bits.
      pose proof (bits_val_len _ _ _ _ _ _ ρ Hx) as LX. pose proof (bits_val_len _ _ _ _ _ _ ρ Hy) as LY.
      rewrite (nth_lookup_lt _ k false) by (destruct (S ρ); lia). f_equal. destruct (S ρ); simpl.
      * rewrite andb_false_r, andb_true_r. by destruct (nth k (Y ρ) false).
      * rewrite andb_true_r, andb_false_r. by destruct (nth k (X ρ) false).
  - split; [done|]. split; [|apply gfs_nil]. split; [apply ext_refl|intros ? []%elem_of_nil|done|constructor].
  - rewrite seq_length in Hl. exists (ABits zs cfg), h'. unfold bits_mux. rewrite (bv_cfg _ _ _ _ _ _ Hx), (bk_ref _ _ _ _ C), (st_bind_ok _ _ _ _ _ E1).
    split; [by rewrite (st_bind_ok _ _ _ _ _ E)|].
    assert (MM : mv l h h' (ab_bits x ++ ab_bits y ++ [s]) zs).
    { eapply mv_trans; [exact M1|exact M'| |].
      - intros g ->%elem_of_list_singleton. rewrite !elem_of_app. right. right. by apply elem_of_list_singleton.
      - intros g Hg. rewrite !elem_of_app, !elem_of_cons, elem_of_nil in *. tauto. }
    split; [split; [done|split; [done|exact (bits_cfg_mv _ _ _ _ _ _ _ _ _ _ B ltac:(eassumption) C)]]|]. split; [done|done|]. eapply gfs_eq; [exact F'|]. intros ρ. simpl.
    apply take_ge. rewrite Hl. pose proof (bits_val_len _ _ _ _ _ _ ρ Hx). pose proof (bits_val_len _ _ _ _ _ _ ρ Hy). unfold mux_bits. destruct (S ρ); lia.
Qed.
End bits_ops.
