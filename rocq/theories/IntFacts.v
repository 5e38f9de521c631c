(** What the integer modules compute. *)
From Verif Require Export LogicFacts Int ZBits.
Open Scope list_scope.

Lemma range_lookup a b k x : range a b !! k = Some x -> x = (a + k)%nat /\ (a + k < b)%nat.
Proof.
  unfold range. intros H. pose proof (lookup_lt_Some _ _ _ H) as Hl. rewrite seq_length in Hl. rewrite lookup_seq_lt in H by done. injection H as <-. lia.
Qed.
Lemma range_length a b : length (range a b) = (b - a)%nat. Proof. apply seq_length. Qed.
Lemma range_0 n : range 0 n = seq 0 n. Proof. unfold range. by rewrite Nat.sub_0_r. Qed.
Lemma iterM_ext_in {S A} (f g : A -> ST S unit) xs : (forall x s, x ∈ xs -> f x s = g x s) -> forall s, st_iterM f xs s = st_iterM g xs s.
Proof.
  induction xs as [|x xs IH]; intros H s; [done|]. simpl. unfold st_bind. rewrite H by left. destruct (g x s) as [[] ?]; [|done..].
  apply IH. intros. apply H. by right.
Qed.
Lemma iterM_nth {S A} (f : A -> ST S unit) (v : list A) s : st_iterM (fun i => x <- st_nth v i ;; f x) (range 0 (length v)) s = st_iterM f v s.
Proof.
  rewrite range_0.
  assert (H : forall w k, v = take k v ++ w -> length (take k v) = k -> forall s, st_iterM (fun i => x <- st_nth v i ;; f x) (seq k (length w)) s = st_iterM f w s).
  { induction w as [|a w IH]; intros k Hv Hk s0; [done|]. cbn [length seq st_iterM].
    assert (Ha : v !! k = Some a). { rewrite Hv, lookup_app_r by lia. by rewrite Hk, Nat.sub_diag. }
    assert (E : st_bind (x <- st_nth v k ;; f x) (fun _ => st_iterM (fun i => x <- st_nth v i ;; f x) (seq (Datatypes.S k) (length w))) s0 =
      st_bind (f a) (fun _ => st_iterM (fun i => x <- st_nth v i ;; f x) (seq (Datatypes.S k) (length w))) s0).
    { rewrite bind_assoc, (st_bind_ok _ _ _ _ _ (st_nth_ok _ _ _ _ Ha)). done. }
    rewrite E. apply bind_ext. intros [] s1. apply IH.
    - rewrite (take_S_r _ _ _ Ha), <- app_assoc. done.
    - rewrite take_length. apply lookup_lt_Some in Ha. lia. }
  apply (H v 0%nat); [done|done].
Qed.
Lemma bind_Ok {S A B} (m : ST S A) (k : A -> ST S B) s b s' : st_bind m k s = (Ok b, s') -> exists a s1, m s = (Ok a, s1) /\ k a s1 = (Ok b, s').
Proof. unfold st_bind. destruct (m s) as [ [a|?|?|] s1]; [eauto|done..]. Qed.
(** Outputting existing gates. *)
Lemma t_outs p h l i os0 gs : bs p h l i os0 -> (forall g, g ∈ gs -> has_gate h l g) -> exists h', st_iterM (b_output l) gs h = (Ok tt, h') /\
  bs p h' l i (os0 ++ gs) /\ mv l h h' [] [].
Proof.
  revert h os0. induction gs as [|g gs IH]; intros h os0 B Hg; cbn [st_iterM].
  - exists h. rewrite app_nil_r. split; [done|]. split; [done|apply mv_refl].
  - destruct (t_out p h l i os0 g B) as (h1 & E1 & B1 & M1); [apply Hg; left|].
    destruct (IH h1 (os0 ++ [g]) B1) as (h2 & E2 & B2 & M2). { intros g' Hg'. eapply has_gate_hle; [apply M1|]. apply Hg. by right. }
    exists h2. rewrite (st_bind_ok _ _ _ _ _ E1). split; [done|]. rewrite <- app_assoc in B2. split; [done|].
    change (@nil N) with (@nil N ++ []) at 2. eapply mv_app; [done|done|done|]. intros ? []%elem_of_nil.
Qed.

(** A builder of a module with two operands: [body] makes the gates that become the outputs. *)
Definition build2 (body : nat -> list N -> list N -> M (list N)) (loop : nat -> list N -> M unit) (l n : nat) : M N :=
  '(mid, s) <- r_sub_circuit l ;; xs <- b_inputs s n ;; ys <- b_inputs s n ;; outs <- body s xs ys ;; loop s outs ;; st_ret mid.
Definition loop_all (s : nat) (outs : list N) : M unit := st_iterM (b_output s) outs.
Definition loop_n (n : nat) (s : nat) (outs : list N) : M unit := st_iterM (fun i => x <- st_nth outs i ;; b_output s x) (range 0 n).
Definition loop_ok (n_out : nat) (loop : nat -> list N -> M unit) : Prop := forall s outs h, length outs = n_out -> loop s outs h = loop_all s outs h.
Lemma loop_all_ok n : loop_ok n loop_all. Proof. done. Qed.
Lemma loop_n_ok n : loop_ok n (loop_n n). Proof. intros s outs h <-. apply (iterM_nth (b_output s)). Qed.
Definition body_ok (h : heap) (l n n_out : nat) (body : nat -> list N -> list N -> M (list N)) (F : list bool -> list bool -> list bool) : Prop :=
  forall s h2 xs ys X Y i, bs l h2 s i [] -> (forall mid n_in n_o G, mspec l h l mid n_in n_o G -> mspec l h2 s mid n_in n_o G) ->
    gfs h2 s xs X -> gfs h2 s ys Y -> length xs = n -> length ys = n ->
    exists outs h3, body s xs ys h2 = (Ok outs, h3) /\ bs l h3 s i [] /\ ext s h2 h3 /\ fin_outs s h2 h3 outs /\ length outs = n_out /\
      gfs h3 s outs (fun ρ => F (X ρ) (Y ρ)).
Lemma build2_ok body loop h l n n_out F : loop_ok n_out loop -> base h l -> body_ok h l n n_out body F -> exists mid h', build2 body loop l n h = (Ok mid, h') /\ built h l h' /\
  mspec l h' l mid (n + n) n_out (fun bits => F (take n bits) (drop n bits)).
Proof.
  intros Hloop Hb Hbody. destruct (t_sub h l Hb) as (mid & s & h1 & E1 & B1 & So).
  destruct (t_inputs2 l h1 s 0 [] n B1) as (xs & ys & h1' & h2 & E2 & E2' & Lx & Ly & B2 & M2 & Fx & Fy). rewrite N.add_0_l in B2.
  destruct (Hbody s h2 xs ys (inb 0 n) (inb (0 + N.of_nat n) n) _ B2) as (outs & h3 & E3 & B3 & X3 & Fo3 & Lo & F3); [|done|done|done|done|].
  { intros mid' n_in n_o G Hm. eapply mspec_mv; [exact B1|exact M2|]. by apply (so_mspec _ _ _ _ _ So). }
  destruct (t_outs _ _ _ _ _ outs B3) as (h4 & E4 & B4 & M4). { intros g Hg. by eapply gfs_in. }
  change (st_iterM (b_output s) outs h3) with (loop_all s outs h3) in E4. rewrite <- Hloop in E4 by done.
  exists mid, h4. split.
  - unfold build2. by rewrite (st_bind_ok _ _ _ _ _ E1), (st_bind_ok _ _ _ _ _ E2), (st_bind_ok _ _ _ _ _ E2'), (st_bind_ok _ _ _ _ _ E3), (st_bind_ok _ _ _ _ _ E4).
  - eapply (t_fin h l mid s h1 h2 h4 _ _ (n + n) n_out outs _ _ So (mv_ext _ _ _ _ _ M2) B2 eq_refl); [eapply ext_trans; [done|apply M4]|done| | |done|].
    + eapply gfs_mv; [exact M4|exact F3].
    + by eapply fin_outs_out.
    + intros bits Hbits. destruct (inb2_wires n bits Hbits) as [Hx Hy]. cbn beta. by rewrite Hx, Hy.
Qed.
Lemma halves {A} (F : list bool -> list bool -> A) n xs ys : length xs = n -> F (take n (xs ++ ys)) (drop n (xs ++ ys)) = F xs ys.
Proof. intros <-. by rewrite take_app, drop_app. Qed.
(** Calling a module with two operands. *)
Lemma t_module2 md p h l i os mid n n_out F xs ys X Y : bs p h l i os -> mspec p h l mid (n + n) n_out (fun bits => F (take n bits) (drop n bits)) ->
  gfs h l xs X -> gfs h l ys Y -> length xs = n -> length ys = n -> (0 < n_out)%nat ->
  exists outs h', r_module md l mid (xs ++ ys) h = (Ok outs, h') /\ bs p h' l i os /\ mv l h h' (xs ++ ys) outs /\ length outs = n_out /\
    gfs h' l outs (fun ρ => F (X ρ) (Y ρ)).
Proof.
  intros B Hm Fx Fy Lx Ly Hn.
  destruct (t_module md p h l i os mid (n + n) n_out _ (xs ++ ys) _ B Hm (gfs_app _ _ _ _ _ _ Fx Fy)) as (outs & h' & E & B' & M & Lo & Fo);
    [by rewrite app_length, Lx, Ly|done|].
  exists outs, h'. do 4 (split; [done|]). eapply gfs_eq; [exact Fo|]. intros ρ. cbn beta. apply halves. rewrite <- Lx. by eapply gfs_length.
Qed.
Lemma t_call_bit2 md p h l i os mid n F xs ys X Y : bs p h l i os -> mspec p h l mid (n + n) 1 (fun bits => F (take n bits) (drop n bits)) ->
  gfs h l xs X -> gfs h l ys Y -> length xs = n -> length ys = n ->
  exists g h', call_bit md l mid (xs ++ ys) h = (Ok g, h') /\ bs p h' l i os /\ mv l h h' (xs ++ ys) [g] /\ gf h' l g (fun ρ => nth 0 (F (X ρ) (Y ρ)) false).
Proof.
  intros B Hm Fx Fy Lx Ly.
  destruct (t_module2 md p h l i os mid n 1 F xs ys X Y B Hm Fx Fy Lx Ly) as (outs & h' & E & B' & M' & Lo & F'); [lia|].
  destruct outs as [|g [|]]; [done| |done]. exists g, h'. split; [unfold call_bit; by rewrite (st_bind_ok _ _ _ _ _ E)|].
  split; [done|]. split; [done|]. by eapply gfs_at in F' as F''.
Qed.

(** Gates denoting the values [f 0 ρ], .., [f (k-1) ρ]. *)
Definition mapseq (f : nat -> bool) (k : nat) : list bool := map f (seq 0 k).
Lemma mapseq_S f k : mapseq f (S k) = mapseq f k ++ [f k]. Proof. unfold mapseq. by rewrite seq_S, map_app. Qed.
Lemma mapseq_nth f k j : (j < k)%nat -> nth j (mapseq f k) false = f j.
Proof. intros H. apply nth_lookup_Some. unfold mapseq. rewrite list_lookup_fmap, lookup_seq_lt by done. done. Qed.
Lemma mapseq_length f k : length (mapseq f k) = k. Proof. unfold mapseq. by rewrite map_length, seq_length. Qed.
Lemma gfs_nth h l gs (f : nat -> (N -> bool) -> bool) k g j : gfs h l gs (fun ρ => mapseq (fun j => f j ρ) k) -> gs !! j = Some g -> (j < k)%nat -> gf h l g (f j).
Proof. intros F Hj Hk. eapply gf_eq; [by eapply gfs_at|]. intros ρ. cbn beta. by apply mapseq_nth. Qed.
Lemma gfs_lookup h l gs X j : gfs h l gs X -> (j < length gs)%nat -> exists g, gs !! j = Some g /\ gf h l g (fun ρ => nth j (X ρ) false).
Proof. intros F Hj. destruct (lookup_lt_is_Some_2 gs j Hj) as [g Hg]. exists g. split; [done|]. by eapply gfs_at. Qed.

(** * Addition *)
Definition addz (n : nat) (xs ys : list bool) : list bool := zbits n (zval xs + zval ys).
Lemma build_add_ok h l n : (0 < n)%nat -> base h l -> exists mid h', build_add l n h = (Ok mid, h') /\ built h l h' /\
  mspec l h' l mid (n + n) n (fun bits => addz n (take n bits) (drop n bits)).
Proof.
  intros Hn Hb. destruct (t_sub h l Hb) as (mid & s & h1 & E1 & B1 & So).
  destruct (t_inputs2 l h1 s 0 [] n B1) as (xs & ys & h1' & h2 & E2 & E2' & Lx & Ly & B2 & M2 & Fx & Fy). rewrite N.add_0_l in B2.
  set (X := inb 0 n) in *. set (Y := inb (0 + N.of_nat n) n) in *.
  set (A := fun ρ => zval (X ρ)). set (B := fun ρ => zval (Y ρ)).
  assert (LX : forall ρ, length (X ρ) = n) by (intros; apply inb_length). assert (LY : forall ρ, length (Y ρ) = n) by (intros; apply inb_length).
  set (a := fun (j : nat) ρ => Z.testbit (A ρ) (Z.of_nat j)). set (b := fun (j : nat) ρ => Z.testbit (B ρ) (Z.of_nat j)).
  set (c := fun (j : nat) ρ => carry (A ρ) (B ρ) j).
  assert (Ia : forall k h', (k < n)%nat -> ext s h2 h' -> exists g, xs !! k = Some g /\ gf h' s g (a k)).
  { intros k h' Hk He. destruct (gfs_lookup _ _ _ _ k Fx) as (g & Hg & F); [lia|]. exists g. split; [done|]. eapply gf_ext; [done|]. eapply gf_eq; [done|].
    intros ρ. unfold a, A. apply zval_testbit. by rewrite LX. }
  assert (Ib : forall k h', (k < n)%nat -> ext s h2 h' -> exists g, ys !! k = Some g /\ gf h' s g (b k)).
  { intros k h' Hk He. destruct (gfs_lookup _ _ _ _ k Fy) as (g & Hg & F); [lia|]. exists g. split; [done|]. eapply gf_ext; [done|]. eapply gf_eq; [done|].
    intros ρ. unfold b, B. apply zval_testbit. by rewrite LY. }
  (* generate and propagate *)
  destruct (mapM_inv (fun i => a <- st_nth xs i ;; b <- st_nth ys i ;; g <- r_and s a b ;; p <- r_or s a b ;; st_ret (g, p)) (range 0 n)
    (fun gps h' => bs l h' s (N.of_nat (n + n)) [] /\ ext s h2 h' /\ gfs h' s (map fst gps) (fun ρ => mapseq (fun j => a j ρ && b j ρ) (length gps)) /\
       gfs h' s (map snd gps) (fun ρ => mapseq (fun j => a j ρ || b j ρ) (length gps))) h2) as (gps & h3 & E3 & L3 & B3 & X3 & Fg & Fp).
  { intros gps k h' [-> Hk]%range_lookup (B' & X' & Fg & Fp). cbn [plus] in *. set (k := length gps) in *.
    destruct (Ia k h' Hk X') as (ga & Ha & Fa). destruct (Ib k h' Hk X') as (gb & Hb' & Fb).
    destruct (t_and _ _ _ _ _ B' ga gb _ _ Fa Fb) as (g & h4 & E4 & B4 & M4 & F4).
    destruct (t_or _ _ _ _ _ B4 ga gb _ _ (gf_mv _ _ _ _ _ _ _ _ M4 Fa) (gf_mv _ _ _ _ _ _ _ _ M4 Fb)) as (p & h5 & E5 & B5 & M5 & F5).
    exists (g, p), h5. split.
    { by rewrite (st_bind_ok _ _ _ _ _ (st_nth_ok _ _ _ _ Ha)), (st_bind_ok _ _ _ _ _ (st_nth_ok _ _ _ _ Hb')), (st_bind_ok _ _ _ _ _ E4), (st_bind_ok _ _ _ _ _ E5). }
    split; [done|]. split; [eapply ext_trans; [exact X'|]; eapply ext_trans; [apply M4|apply M5]|]. rewrite app_length, !map_app. cbn [length map fst snd]. rewrite Nat.add_1_r. split.
    - eapply gfs_eq; [eapply gfs_snoc; [eapply gfs_mv; [exact M5|]; eapply gfs_mv; [exact M4|exact Fg]|eapply gf_mv; [exact M5|exact F4]]|]. intros ρ. by rewrite mapseq_S.
    - eapply gfs_eq; [eapply gfs_snoc; [eapply gfs_mv; [exact M5|]; eapply gfs_mv; [exact M4|exact Fp]|exact F5]|]. intros ρ. by rewrite mapseq_S. }
  { split; [done|]. split; [apply ext_refl|]. split; apply gfs_nil. }
  rewrite range_length, Nat.sub_0_r in L3. rewrite L3 in Fg, Fp.
  assert (Ig : forall k h', (k < n)%nat -> ext s h3 h' -> exists g, map fst gps !! k = Some g /\ gf h' s g (fun ρ => a k ρ && b k ρ)).
  { intros k h' Hk He. destruct (gfs_lookup _ _ _ _ k Fg) as (g & Hg & F); [rewrite map_length; lia|]. exists g. split; [done|]. eapply gf_ext; [done|]. eapply gf_eq; [done|].
    intros ρ. cbn beta. by rewrite mapseq_nth. }
  assert (Ip : forall k h', (k < n)%nat -> ext s h3 h' -> exists g, map snd gps !! k = Some g /\ gf h' s g (fun ρ => a k ρ || b k ρ)).
  { intros k h' Hk He. destruct (gfs_lookup _ _ _ _ k Fp) as (g & Hg & F); [rewrite map_length; lia|]. exists g. split; [done|]. eapply gf_ext; [done|]. eapply gf_eq; [done|].
    intros ρ. cbn beta. by rewrite mapseq_nth. }
  (* carries *)
  destruct (Ig 0%nat h3 Hn (ext_refl _ _)) as (g0 & Hg0 & Fg0).
  destruct (foldM_inv (fun cs i => p <- st_nth (map snd gps) i ;; c_pre <- st_nth cs (i - 1)%nat ;; pc_pre <- r_and s p c_pre ;; g <- st_nth (map fst gps) i ;;
      c <- r_or s g pc_pre ;; st_ret (cs ++ [c])) (range 1 n)
    (fun k cs h' => bs l h' s (N.of_nat (n + n)) [] /\ ext s h3 h' /\ length cs = S k /\ gfs h' s cs (fun ρ => mapseq (fun j => c (S j) ρ) (S k))) [g0] h3)
    as (cs & h4 & E4 & B4 & X4 & L4 & F4).
  { intros k cs x h' [-> Hk]%range_lookup (B' & X' & L' & F'). change (1 + k)%nat with (S k) in *. replace (S k - 1)%nat with k by lia.
    destruct (Ip (S k) h' Hk X') as (p & Hp & Fp'). destruct (Ig (S k) h' Hk X') as (g & Hg & Fg').
    destruct (lookup_lt_is_Some_2 cs k) as [cp Hcp]; [lia|]. assert (Fc := gfs_nth _ _ _ (fun j => c (S j)) _ _ _ F' Hcp ltac:(lia)).
    destruct (t_and _ _ _ _ _ B' p cp _ _ Fp' Fc) as (pc & h5 & E5 & B5 & M5 & F5).
    destruct (t_or _ _ _ _ _ B5 g pc _ _ (gf_mv _ _ _ _ _ _ _ _ M5 Fg') F5) as (cn & h6 & E6 & B6 & M6 & F6).
    exists (cs ++ [cn]), h6. split.
    { rewrite (st_bind_ok _ _ _ _ _ (st_nth_ok _ _ _ _ Hp)), (st_bind_ok _ _ _ _ _ (st_nth_ok _ _ _ _ Hcp)), (st_bind_ok _ _ _ _ _ E5), (st_bind_ok _ _ _ _ _ (st_nth_ok _ _ _ _ Hg)).
      by rewrite (st_bind_ok _ _ _ _ _ E6). }
    split; [done|]. split; [eapply ext_trans; [exact X'|]; eapply ext_trans; [apply M5|apply M6]|]. split; [rewrite app_length; cbn [length]; lia|].
    eapply gfs_eq; [eapply gfs_snoc; [eapply gfs_mv; [exact M6|]; eapply gfs_mv; [exact M5|exact F']|exact F6]|]. intros ρ. cbn beta. rewrite (mapseq_S _ (S k)). do 2 f_equal.
    unfold c at 2. rewrite (proj2 (carry_spec (A ρ) (B ρ)) (S k)). done. }
  { split; [done|]. split; [apply ext_refl|]. split; [done|]. apply gfs_one in Fg0. eapply gfs_eq; [exact Fg0|]. intros ρ. cbn. f_equal.
    unfold c. destruct (carry_spec (A ρ) (B ρ)) as [H0 HS]. rewrite HS, H0. unfold a, b. cbn. by rewrite andb_false_r, orb_false_r. }
  rewrite range_length in L4, F4. replace (S (n - 1)) with n in L4, F4 by lia.
  pose proof (ext_trans _ _ _ _ X3 X4) as X24.
  assert (Ic : forall k h', (S k < n)%nat -> ext s h4 h' -> exists g, cs !! k = Some g /\ gf h' s g (c (S k))).
  { intros k h' Hk He. destruct (lookup_lt_is_Some_2 cs k) as [g Hg]; [lia|]. exists g. split; [done|]. eapply gf_ext; [done|]. 
    exact (gfs_nth _ _ _ (fun j => c (S j)) _ _ _ F4 Hg ltac:(lia)). }
  (* sums *)
  set (f := fun i => match i with O => a0 <- st_nth xs 0 ;; b0 <- st_nth ys 0 ;; r_xor s a0 b0
    | S k => a <- st_nth xs i ;; b <- st_nth ys i ;; a_xor_b <- r_xor s a b ;; c <- st_nth cs k ;; r_xor s a_xor_b c end).
  destruct (t_out_loop l h4 s (N.of_nat (n + n)) n f (fun ρ => addz n (X ρ) (Y ρ)) (xs ++ ys ++ cs) B4) as (os & h5 & E5 & B5 & X5 & Hlo & F5 & Fo).
  - intros ρ. apply zbits_length.
  - intros g Hg. rewrite !elem_of_app in Hg. destruct Hg as [Hg|[Hg|Hg]].
    + eapply has_gate_hle; [apply X24|]. exact (gfs_in _ _ _ _ _ Fx Hg).
    + eapply has_gate_hle; [apply X24|]. exact (gfs_in _ _ _ _ _ Fy Hg).
    + exact (gfs_in _ _ _ _ _ F4 Hg).
  - intros k h' os Hk B' X'. pose proof (ext_trans _ _ _ _ X24 X') as X2'.
    destruct (Ia k h' Hk X2') as (ga & Ha & Fa). destruct (Ib k h' Hk X2') as (gb & Hb' & Fb).
    pose proof (elem_of_list_lookup_2 _ _ _ Ha) as Ina. pose proof (elem_of_list_lookup_2 _ _ _ Hb') as Inb.
    destruct (t_xor _ _ _ _ _ B' ga gb _ _ Fa Fb) as (u & h6 & E6 & B6 & M6 & F6).
    assert (Hval : forall ρ, nth k (addz n (X ρ) (Y ρ)) false = xorb (xorb (a k ρ) (b k ρ)) (c k ρ)).
    { intros ρ. unfold addz. rewrite zbits_nth by done. apply sum_bit. }
    destruct k as [|k]; cbn [f].
    + exists u, h6, [ga; gb]. rewrite (st_bind_ok _ _ _ _ _ (st_nth_ok _ _ _ _ Ha)), (st_bind_ok _ _ _ _ _ (st_nth_ok _ _ _ _ Hb')).
      split; [done|]. split; [done|]. split; [done|]. split; [intros x Hx; rewrite !elem_of_app; rewrite !elem_of_cons, elem_of_nil in Hx; destruct Hx as [-> |[-> |[]]]; tauto|].
      eapply gf_eq; [exact F6|]. intros ρ. rewrite Hval. unfold c. rewrite (proj1 (carry_spec _ _)). by rewrite xorb_false_r.
    + destruct (Ic k h' Hk X') as (gc & Hc & Fc). pose proof (elem_of_list_lookup_2 _ _ _ Hc) as Inc.
      destruct (t_xor _ _ _ _ _ B6 u gc _ _ F6 (gf_mv _ _ _ _ _ _ _ _ M6 Fc)) as (v & h7 & E7 & B7 & M7 & F7).
      exists v, h7, [ga; gb; gc]. split.
      { by rewrite (st_bind_ok _ _ _ _ _ (st_nth_ok _ _ _ _ Ha)), (st_bind_ok _ _ _ _ _ (st_nth_ok _ _ _ _ Hb')), (st_bind_ok _ _ _ _ _ E6),
          (st_bind_ok _ _ _ _ _ (st_nth_ok _ _ _ _ Hc)). }
      split; [done|]. split.
      { eapply mv_trans; [exact M6|exact M7| |]; intros x Hx; rewrite !elem_of_cons, elem_of_nil in *; tauto. }
      split; [intros x Hx; rewrite !elem_of_app; rewrite !elem_of_cons, elem_of_nil in Hx; destruct Hx as [-> |[-> |[-> |[]]]]; tauto|].
      eapply gf_eq; [exact F7|]. intros ρ. by rewrite Hval.
  - exists mid, h5. split.
    + unfold build_add. rewrite (st_bind_ok _ _ _ _ _ E1), (st_bind_ok _ _ _ _ _ E2), (st_bind_ok _ _ _ _ _ E2'), (st_bind_ok _ _ _ _ _ E3). cbn zeta.
      rewrite (st_bind_ok _ _ _ _ _ (st_nth_ok _ _ _ _ Hg0)), (st_bind_ok _ _ _ _ _ E4).
      destruct n as [|n']; [lia|]. cbn [seq st_iterM] in E5. cbn [f] in E5. unfold range. replace (S n' - 1)%nat with n' by lia.
      destruct (Ia 0%nat h4 Hn X24) as (ga & Ha & _). destruct (Ib 0%nat h4 Hn X24) as (gb & Hb' & _).
      rewrite (st_bind_ok _ _ _ _ _ (st_nth_ok _ _ _ _ Ha)), (st_bind_ok _ _ _ _ _ (st_nth_ok _ _ _ _ Hb')).
      rewrite !bind_assoc, (st_bind_ok _ _ _ _ _ (st_nth_ok _ _ _ _ Ha)), bind_assoc, (st_bind_ok _ _ _ _ _ (st_nth_ok _ _ _ _ Hb')) in E5.
      rewrite <- bind_assoc in E5.
      rewrite <- bind_assoc. apply bind_Ok in E5 as ([] & h6 & E6 & E7). rewrite (st_bind_ok _ _ _ _ _ E6).
      erewrite st_bind_ok; [done|]. rewrite <- E7. apply iterM_ext_in. intros k s0 Hk. apply elem_of_seq in Hk. destruct k as [|k]; [lia|]. cbn [f].
      replace (S k - 1)%nat with k by lia. rewrite bind_assoc. apply bind_ext. intros x1 s1. rewrite bind_assoc. apply bind_ext. intros x2 s2.
      rewrite bind_assoc. apply bind_ext. intros x3 s3. rewrite bind_assoc. apply bind_ext. done.
    + eapply (t_fin h l mid s h1 h4 h5 _ _ (n + n) n os _ _ So); [|exact B4|done|exact X5|exact B5|exact F5|exact Fo|exact Hlo|].
      { eapply ext_trans; [apply M2|exact X24]. }
      intros bits Hbits. destruct (inb2_wires n bits Hbits) as [Hx Hy]. unfold X, Y. by rewrite Hx, Hy.
Qed.

(** * Subtraction *)
Definition subz (n : nat) (xs ys : list bool) : list bool := zbits n (zval xs - zval ys).
Definition sub_body (md : mode) (n : nat) (add_mid : N) (s : nat) (xs ys : list N) : M (list N) :=
  b_fliped <- st_mapM (fun i => b <- st_nth ys i ;; r_not s b) (range 0 n) ;;
  one <- r_constant s true ;;
  zeros <- st_mapM (fun _ => r_constant s false) (range 1 n) ;;
  comp_b <- r_module md s add_mid (b_fliped ++ [one] ++ zeros) ;;
  r_module md s add_mid (xs ++ comp_b).
Lemma mapM_ext {S A B} (f : ST S B) (xs ys : list A) : length xs = length ys -> forall s, st_mapM (fun _ => f) xs s = st_mapM (fun _ => f) ys s.
Proof.
  revert ys. induction xs as [|x xs IH]; intros [|y ys] H s; [done..|]. cbn [st_mapM]. apply bind_ext. intros a s1.
  unfold st_bind. rewrite (IH ys) by (simpl in H; lia). done.
Qed.
Lemma t_zeros p h l i os b a n : bs p h l i os -> exists gs h', st_mapM (fun _ => r_constant l b) (range a n) h = (Ok gs, h') /\ length gs = (n - a)%nat /\
  bs p h' l i os /\ mv l h h' [] gs /\ gfs h' l gs (fun _ => replicate (n - a) b).
Proof.
  intros B. destruct (t_consts p h l i os b (n - a) B) as (gs & h' & E & H). exists gs, h'. split; [|done]. rewrite <- E. unfold b_consts. apply mapM_ext.
  by rewrite range_length, seq_length.
Qed.
Lemma t_nots p h l i os xs X : bs p h l i os -> gfs h l xs X -> exists gs h', st_mapM (fun i => b <- st_nth xs i ;; r_not l b) (range 0 (length xs)) h = (Ok gs, h') /\
  length gs = length xs /\ bs p h' l i os /\ ext l h h' /\ gfs h' l gs (fun ρ => map negb (X ρ)).
Proof.
  intros B Fx. destruct (mapM_inv (fun i => b <- st_nth xs i ;; r_not l b) (range 0 (length xs)) (fun gs h' => bs p h' l i os /\ ext l h h' /\
    gfs h' l gs (fun ρ => take (length gs) (map negb (X ρ)))) h) as (gs & h' & E & Hl & B' & X' & F').
  - intros gs k h1 [-> Hk]%range_lookup (B1 & X1 & F1). cbn [plus] in *. set (k := length gs) in *. 
    destruct (gfs_lookup _ _ _ _ k Fx Hk) as (g & Hg & Fg). destruct (t_not _ _ _ _ _ B1 g _ (gf_ext _ _ _ _ _ _ X1 Fg)) as (u & h2 & E2 & B2 & M2 & F2).
    exists u, h2. rewrite (st_bind_ok _ _ _ _ _ (st_nth_ok _ _ _ _ Hg)). split; [done|]. split; [done|]. split; [eapply ext_trans; [done|apply M2]|].
    rewrite app_length. cbn [length]. rewrite Nat.add_1_r. eapply gfs_eq; [eapply gfs_snoc; [eapply gfs_mv; [exact M2|exact F1]|exact F2]|].
    intros ρ. cbn beta. fold k. symmetry. apply take_S_r. rewrite list_lookup_fmap, (nth_lookup_lt _ k false) by (by rewrite (gfs_length _ _ _ _ _ Fx)). done.
  - split; [done|]. split; [apply ext_refl|apply gfs_nil].
  - rewrite range_length, Nat.sub_0_r in Hl. exists gs, h'. do 4 (split; [done|]). eapply gfs_eq; [exact F'|]. intros ρ. cbn beta. apply take_ge.
    by rewrite map_length, (gfs_length _ _ _ _ _ Fx), Hl.
Qed.
Lemma sub_value n xs ys : (0 < n)%nat -> length xs = n -> length ys = n ->
  addz n xs (addz n (map negb ys) ([true] ++ replicate (n - 1) false)) = subz n xs ys.
Proof.
  intros Hn Hx Hy. unfold addz, subz. apply zbits_inj. rewrite zval_zbits, Zplus_mod_idemp_r. rewrite zval_negb, Hy.
  cbn [app zval]. rewrite zval_replicate_false. cbn [Z.b2z]. pose proof (two_p_pos n).
  replace (zval xs + (two_p n - 1 - zval ys + (1 + 2 * 0)))%Z with (zval xs - zval ys + 1 * two_p n)%Z by lia. apply Z.mod_add. lia.
Qed.
Lemma build_sub_ok md h l n add_mid : (0 < n)%nat -> base h l -> mspec l h l add_mid (n + n) n (fun bits => addz n (take n bits) (drop n bits)) ->
  exists mid h', build_sub md l n add_mid h = (Ok mid, h') /\ built h l h' /\ mspec l h' l mid (n + n) n (fun bits => subz n (take n bits) (drop n bits)).
Proof.
  intros Hn Hb Hm. destruct (build2_ok (sub_body md n add_mid) loop_all h l n n (subz n) (loop_all_ok n) Hb) as (mid & h' & E & T & Hs).
  - intros s h2 xs ys X Y i B Hpres Fx Fy Lx Ly. apply Hpres in Hm. clear Hpres.
    destruct (t_nots l h2 s i [] ys Y B Fy) as (fl & h3 & E3 & L3 & B3 & X3 & F3). rewrite Ly in L3, E3.
    destruct (t_constant _ _ _ _ _ B3 true) as (one & h4 & E4 & B4 & M4 & F4).
    destruct (t_zeros l h4 s i [] false 1 n B4) as (zs & h5 & E5 & L5 & B5 & M5 & F5).
    pose proof (ext_trans _ _ _ _ X3 (ext_trans _ _ _ _ (mv_ext _ _ _ _ _ M4) (mv_ext _ _ _ _ _ M5))) as X25.
    assert (Hm5 : mspec l h5 s add_mid (n + n) n (fun bits => addz n (take n bits) (drop n bits))).
    { destruct B as [c B]. eapply mspec_ext; [apply B|apply B|exact X25|exact Hm]. }
    destruct (t_module2 md l h5 s i [] add_mid n n (addz n) fl ([one] ++ zs) (fun ρ => map negb (Y ρ)) (fun ρ => [true] ++ replicate (n - 1) false) B5 Hm5)
      as (cb & h6 & E6 & B6 & M6 & L6 & F6).
    { eapply gfs_mv; [exact M5|]. eapply gfs_mv; [exact M4|exact F3]. }
    { apply (gfs_app _ _ _ _ (fun _ => [true]) (fun _ => replicate (n - 1) false)); [|exact F5]. eapply gfs_mv; [exact M5|]. by apply (gfs_one _ _ _ (fun _ => true)). }
    { done. }
    { rewrite app_length. cbn [length]. lia. }
    { done. }
    pose proof (mspec_mv _ _ _ _ _ _ _ _ _ _ _ _ _ B5 M6 Hm5) as Hm6.
    destruct (t_module2 md l h6 s i [] add_mid n n (addz n) xs cb X _ B6 Hm6 (gfs_ext _ _ _ _ _ _ (ext_trans _ _ _ _ X25 (mv_ext _ _ _ _ _ M6)) Fx) F6 Lx L6 Hn)
      as (outs & h7 & E7 & B7 & M7 & L7 & F7).
    pose proof (ext_trans _ _ _ _ X25 (mv_ext _ _ _ _ _ M6)) as X26.
    exists outs, h7. split.
    + unfold sub_body. by rewrite (st_bind_ok _ _ _ _ _ E3), (st_bind_ok _ _ _ _ _ E4), (st_bind_ok _ _ _ _ _ E5), (st_bind_ok _ _ _ _ _ E6).
    + split; [done|]. split; [eapply ext_trans; [exact X26|apply M7]|]. split; [eapply fin_outs_new; [exact X26|exact M7]|]. split; [done|].
      eapply gfs_eq; [exact F7|]. intros ρ. cbn beta. apply sub_value; [done|rewrite <- Lx; by eapply gfs_length|rewrite <- Ly; by eapply gfs_length].
  - exists mid, h'. split; [|done]. rewrite <- E. unfold build_sub, build2, sub_body.
    apply bind_ext. intros [m s] s0. apply bind_ext. intros xs s1. apply bind_ext. intros ys s2. 
    do 4 (rewrite bind_assoc; apply bind_ext; intros ? ?). apply bind_ext. done.
Qed.

(** * Multiplication *)
Definition mulz (n : nat) (xs ys : list bool) : list bool := zbits n (zval xs * zval ys).
(** One row: [k] bits of [x], each with the bit [b]. *)
Lemma t_ands p h l i os xs X b fb k (f : nat -> M N) : bs p h l i os -> gfs h l xs X -> (k <= length xs)%nat -> gf h l b fb ->
  (forall j s, f j s = (a <- st_nth xs j ;; r_and l a b) s) ->
  exists gs h', st_mapM f (range 0 k) h = (Ok gs, h') /\
  length gs = k /\ bs p h' l i os /\ ext l h h' /\ gfs h' l gs (fun ρ => map (andb (fb ρ)) (take k (X ρ))).
Proof.
  intros B Fx Hkx Fb Hf. destruct (mapM_inv f (range 0 k) (fun gs h' => bs p h' l i os /\ ext l h h' /\
    gfs h' l gs (fun ρ => map (andb (fb ρ)) (take (length gs) (X ρ)))) h) as (gs & h' & E & Hl & B' & X' & F').
  - intros gs j h1 [-> Hk]%range_lookup (B1 & X1 & F1). cbn [plus] in *. set (j := length gs) in *. rewrite Hf.
    destruct (gfs_lookup _ _ _ _ j Fx ltac:(lia)) as (g & Hg & Fg).
    destruct (t_and _ _ _ _ _ B1 g b _ _ (gf_ext _ _ _ _ _ _ X1 Fg) (gf_ext _ _ _ _ _ _ X1 Fb)) as (u & h2 & E2 & B2 & M2 & F2).
    exists u, h2. rewrite (st_bind_ok _ _ _ _ _ (st_nth_ok _ _ _ _ Hg)). split; [done|]. split; [done|]. split; [eapply ext_trans; [done|apply M2]|].
    rewrite app_length. cbn [length]. rewrite Nat.add_1_r. eapply gfs_eq; [eapply gfs_snoc; [eapply gfs_mv; [exact M2|exact F1]|exact F2]|].
    intros ρ. cbn beta. fold j. rewrite (take_S_r _ _ (nth j (X ρ) false)) by (apply nth_lookup_lt; rewrite (gfs_length _ _ _ _ _ Fx); lia).
    rewrite map_app. cbn [map]. by rewrite andb_comm.
  - split; [done|]. split; [apply ext_refl|apply gfs_nil].
  - rewrite range_length, Nat.sub_0_r in Hl. exists gs, h'. rewrite Hl in F'. done.
Qed.
Definition mul_body (md : mode) (n : nat) (add_mid : N) (s : nat) (xs ys : list N) : M (list N) :=
  sum <- b_consts s false n ;;
  st_foldM (fun sum i =>
      zeros <- b_consts s false i ;;
      ands <- st_mapM (fun j => a <- st_nth xs j ;; b <- st_nth ys i ;; r_and s a b) (range 0 (n - i)) ;;
      r_module md s add_mid (sum ++ zeros ++ ands)) sum (range 0 n).
Lemma zmod_mul_pow a k m : ((a mod two_p m * two_p k) mod two_p (m + k) = (a * two_p k) mod two_p (m + k))%Z.
Proof.
  rewrite two_p_add. pose proof (two_p_pos k). pose proof (two_p_pos m). rewrite !Z.mul_mod_distr_r by lia. f_equal. apply Z.mod_mod. lia.
Qed.
Lemma mul_step n k xs ys : (k < n)%nat -> length xs = n -> length ys = n ->
  addz n (zbits n (zval xs * (zval ys mod two_p k))) (replicate k false ++ map (andb (nth k ys false)) (take (n - k) xs)) = zbits n (zval xs * (zval ys mod two_p (S k))).
Proof.
  intros Hk Hx Hy. unfold addz. apply zbits_inj. rewrite zval_zbits, zval_app, zval_replicate_false, replicate_length, zval_andb, zval_take, zmod_S_bit.
  rewrite zval_testbit by lia. rewrite Z.mul_add_distr_l. pose proof (two_p_pos n). rewrite Zplus_mod_idemp_l, Z.add_0_l.
  set (a := zval xs). set (c := Z.b2z (Z.testbit (zval ys) (Z.of_nat k))).
  replace (two_p k * (c * (a mod two_p (n - k))))%Z with (c * (a mod two_p (n - k) * two_p k))%Z by lia.
  replace (a * (c * two_p k))%Z with (c * (a * two_p k))%Z by lia.
  rewrite (Z.add_mod _ (c * (a mod two_p (n - k) * two_p k))), (Z.add_mod _ (c * (a * two_p k))) by lia. f_equal. f_equal.
  rewrite (Z.mul_mod c), (Z.mul_mod c (a * two_p k)) by lia. f_equal. f_equal. pose proof (zmod_mul_pow a k (n - k)) as Hp. by replace (n - k + k)%nat with n in Hp by lia.
Qed.
Lemma build_mul_ok md h l n add_mid : (0 < n)%nat -> base h l -> mspec l h l add_mid (n + n) n (fun bits => addz n (take n bits) (drop n bits)) ->
  exists mid h', build_mul md l n add_mid h = (Ok mid, h') /\ built h l h' /\ mspec l h' l mid (n + n) n (fun bits => mulz n (take n bits) (drop n bits)).
Proof.
  intros Hn Hb Hm. destruct (build2_ok (mul_body md n add_mid) (loop_n n) h l n n (mulz n) (loop_n_ok n) Hb) as (mid & h' & E & T & Hs).
  - intros s h2 xs ys X Y i B Hpres Fx Fy Lx Ly. apply Hpres in Hm. clear Hpres.
    assert (LX : forall ρ, length (X ρ) = n) by (intros ρ; rewrite <- Lx; by eapply gfs_length).
    assert (LY : forall ρ, length (Y ρ) = n) by (intros ρ; rewrite <- Ly; by eapply gfs_length).
    destruct (t_consts l h2 s i [] false n B) as (sum0 & h3 & E3 & L3 & B3 & M3 & F3).
    destruct (foldM_inv (fun sum i => zeros <- b_consts s false i ;;
      ands <- st_mapM (fun j => a <- st_nth xs j ;; b <- st_nth ys i ;; r_and s a b) (range 0 (n - i)) ;;
      r_module md s add_mid (sum ++ zeros ++ ands)) (range 0 n)
      (fun k sum h' => bs l h' s i [] /\ ext s h2 h' /\ fin_outs s h2 h' sum /\ length sum = n /\
         gfs h' s sum (fun ρ => zbits n (zval (X ρ) * (zval (Y ρ) mod two_p k)))) sum0 h3) as (sum & h4 & E4 & B4 & X4 & Fo4 & L4 & F4).
    + intros k sum x h' [-> Hk]%range_lookup (B' & X' & _ & L' & F'). cbn [plus] in *.
      destruct (t_consts l h' s i [] false k B') as (zs & h5 & E5 & L5 & B5 & M5 & F5).
      pose proof (ext_trans _ _ _ _ X' (mv_ext _ _ _ _ _ M5)) as X5.
      destruct (gfs_lookup _ _ _ _ k Fy ltac:(lia)) as (b & Hbk & Fb).
      destruct (t_ands l h5 s i [] xs X b _ (n - k) (fun j => a <- st_nth xs j ;; b <- st_nth ys k ;; r_and s a b) B5 (gfs_ext _ _ _ _ _ _ X5 Fx) ltac:(lia)
        (gf_ext _ _ _ _ _ _ X5 Fb)) as (an & h6 & E6 & L6 & B6 & X6 & F6).
      { intros j s0. apply bind_ext. intros a s1. by rewrite (st_bind_ok _ _ _ _ _ (st_nth_ok _ _ _ _ Hbk)). }
      pose proof (ext_trans _ _ _ _ X5 X6) as X26.
      assert (Hm6 : mspec l h6 s add_mid (n + n) n (fun bits => addz n (take n bits) (drop n bits))).
      { destruct B as [c B]. eapply mspec_ext; [apply B|apply B|exact X26|exact Hm]. }
      assert (F6s : gfs h6 s sum (fun ρ => zbits n (zval (X ρ) * (zval (Y ρ) mod two_p k)))).
      { eapply gfs_ext; [exact X6|]. eapply gfs_mv; [exact M5|done]. }
      destruct (t_module2 md l h6 s i [] add_mid n n (addz n) sum (zs ++ an) _ (fun ρ => replicate k false ++ map (andb (nth k (Y ρ) false)) (take (n - k) (X ρ))) B6 Hm6 F6s)
        as (outs & h7 & E7 & B7 & M7 & L7 & F7).
      { apply gfs_app; [eapply gfs_ext; [exact X6|exact F5]|exact F6]. }
      { done. }
      { rewrite app_length. lia. }
      { done. }
      exists outs, h7. split; [by rewrite (st_bind_ok _ _ _ _ _ E5), (st_bind_ok _ _ _ _ _ E6)|].
      split; [done|]. split; [eapply ext_trans; [exact X26|apply M7]|]. split; [eapply fin_outs_new; [exact X26|exact M7]|]. split; [done|].
      eapply gfs_eq; [exact F7|]. intros ρ. cbn beta. by apply mul_step.
    + split; [done|]. split; [apply M3|]. split; [eapply fin_outs_new; [apply ext_refl|exact M3]|]. split; [done|].
      eapply gfs_eq; [exact F3|]. intros ρ. cbn beta. rewrite two_p_0, Z.mod_1_r, Z.mul_0_r. rewrite <- (zval_replicate_false n). symmetry. apply zbits_zval. apply replicate_length.
    + rewrite range_length, Nat.sub_0_r in F4. exists sum, h4. unfold mul_body. split; [by rewrite (st_bind_ok _ _ _ _ _ E3)|]. do 4 (split; [done|]).
      eapply gfs_eq; [exact F4|]. intros ρ. cbn beta. unfold mulz. rewrite (Z.mod_small (zval (Y ρ))); [done|]. rewrite <- (LY ρ). apply zval_range.
  - exists mid, h'. split; [|done]. rewrite <- E. unfold build_mul, build2, mul_body.
    apply bind_ext. intros [m s] s0. apply bind_ext. intros xs s1. apply bind_ext. intros ys s2. rewrite bind_assoc. apply bind_ext. done.
Qed.
Definition mul_extend_body (md : mode) (n : nat) (add_mid : N) (s : nat) (xs ys : list N) : M (list N) :=
  sum <- b_consts s false (2 * n) ;;
  st_foldM (fun sum i =>
      zeros <- b_consts s false i ;;
      ands <- st_mapM (fun j => a <- st_nth xs j ;; b <- st_nth ys i ;; r_and s a b) (range 0 n) ;;
      zeros' <- b_consts s false (n - i) ;;
      r_module md s add_mid (sum ++ zeros ++ ands ++ zeros')) sum (range 0 n).
Lemma mul_extend_step n m k xs ys : (k < n)%nat -> length xs = n -> length ys = n ->
  addz m (zbits m (zval xs * (zval ys mod two_p k))) (replicate k false ++ map (andb (nth k ys false)) (take n xs) ++ replicate (n - k) false) =
  zbits m (zval xs * (zval ys mod two_p (S k))).
Proof.
  intros Hk Hx Hy. unfold addz. apply zbits_inj. rewrite zval_zbits, !zval_app, !zval_replicate_false, replicate_length, zval_andb, take_ge, zmod_S_bit by lia.
  rewrite zval_testbit by lia. rewrite Zplus_mod_idemp_l. f_equal. lia.
Qed.
Lemma build_mul_extend_ok md h l n add_mid : (0 < n)%nat -> base h l ->
  mspec l h l add_mid (2 * n + 2 * n) (2 * n) (fun bits => addz (2 * n) (take (2 * n) bits) (drop (2 * n) bits)) ->
  exists mid h', build_mul_extend md l n add_mid h = (Ok mid, h') /\ built h l h' /\ mspec l h' l mid (n + n) (2 * n) (fun bits => mulz (2 * n) (take n bits) (drop n bits)).
Proof.
  intros Hn Hb Hm. destruct (build2_ok (mul_extend_body md n add_mid) (loop_n (2 * n)) h l n (2 * n) (mulz (2 * n)) (loop_n_ok (2 * n)) Hb) as (mid & h' & E & T & Hs).
  - intros s h2 xs ys X Y i B Hpres Fx Fy Lx Ly. apply Hpres in Hm. clear Hpres.
    assert (LX : forall ρ, length (X ρ) = n) by (intros ρ; rewrite <- Lx; by eapply gfs_length).
    assert (LY : forall ρ, length (Y ρ) = n) by (intros ρ; rewrite <- Ly; by eapply gfs_length).
    destruct (t_consts l h2 s i [] false (2 * n) B) as (sum0 & h3 & E3 & L3 & B3 & M3 & F3).
    destruct (foldM_inv (fun sum i => zeros <- b_consts s false i ;;
      ands <- st_mapM (fun j => a <- st_nth xs j ;; b <- st_nth ys i ;; r_and s a b) (range 0 n) ;;
      zeros' <- b_consts s false (n - i) ;;
      r_module md s add_mid (sum ++ zeros ++ ands ++ zeros')) (range 0 n)
      (fun k sum h' => bs l h' s i [] /\ ext s h2 h' /\ fin_outs s h2 h' sum /\ length sum = (2 * n)%nat /\
         gfs h' s sum (fun ρ => zbits (2 * n) (zval (X ρ) * (zval (Y ρ) mod two_p k)))) sum0 h3) as (sum & h4 & E4 & B4 & X4 & Fo4 & L4 & F4).
    + intros k sum x h' [-> Hk]%range_lookup (B' & X' & _ & L' & F'). cbn [plus] in *.
      destruct (t_consts l h' s i [] false k B') as (zs & h5 & E5 & L5 & B5 & M5 & F5).
      pose proof (ext_trans _ _ _ _ X' (mv_ext _ _ _ _ _ M5)) as X5.
      destruct (gfs_lookup _ _ _ _ k Fy ltac:(lia)) as (b & Hbk & Fb).
      destruct (t_ands l h5 s i [] xs X b _ n (fun j => a <- st_nth xs j ;; b <- st_nth ys k ;; r_and s a b) B5 (gfs_ext _ _ _ _ _ _ X5 Fx) ltac:(lia)
        (gf_ext _ _ _ _ _ _ X5 Fb)) as (an & h6 & E6 & L6 & B6 & X6 & F6).
      { intros j s0. apply bind_ext. intros a s1. by rewrite (st_bind_ok _ _ _ _ _ (st_nth_ok _ _ _ _ Hbk)). }
      destruct (t_consts l h6 s i [] false (n - k) B6) as (zs' & h6' & E6' & L6' & B6' & M6' & F6').
      pose proof (ext_trans _ _ _ _ X5 (ext_trans _ _ _ _ X6 (mv_ext _ _ _ _ _ M6'))) as X26.
      assert (Hm6 : mspec l h6' s add_mid (2 * n + 2 * n) (2 * n) (fun bits => addz (2 * n) (take (2 * n) bits) (drop (2 * n) bits))).
      { destruct B as [c B]. eapply mspec_ext; [apply B|apply B|exact X26|exact Hm]. }
      assert (F6s : gfs h6' s sum (fun ρ => zbits (2 * n) (zval (X ρ) * (zval (Y ρ) mod two_p k)))).
      { eapply gfs_mv; [exact M6'|]. eapply gfs_ext; [exact X6|]. eapply gfs_mv; [exact M5|done]. }
      destruct (t_module2 md l h6' s i [] add_mid (2 * n) (2 * n) (addz (2 * n)) sum (zs ++ an ++ zs') _
        (fun ρ => replicate k false ++ map (andb (nth k (Y ρ) false)) (take n (X ρ)) ++ replicate (n - k) false) B6' Hm6 F6s)
        as (outs & h7 & E7 & B7 & M7 & L7 & F7).
      { apply gfs_app; [eapply gfs_mv; [exact M6'|]; eapply gfs_ext; [exact X6|exact F5]|]. apply gfs_app; [eapply gfs_mv; [exact M6'|exact F6]|exact F6']. }
      { done. }
      { rewrite !app_length. lia. }
      { lia. }
      exists outs, h7. split; [by rewrite (st_bind_ok _ _ _ _ _ E5), (st_bind_ok _ _ _ _ _ E6), (st_bind_ok _ _ _ _ _ E6')|].
      split; [done|]. split; [eapply ext_trans; [exact X26|apply M7]|]. split; [eapply fin_outs_new; [exact X26|exact M7]|]. split; [done|].
      eapply gfs_eq; [exact F7|]. intros ρ. cbn beta. by apply mul_extend_step.
    + split; [done|]. split; [apply M3|]. split; [eapply fin_outs_new; [apply ext_refl|exact M3]|]. split; [done|].
      eapply gfs_eq; [exact F3|]. intros ρ. cbn beta. rewrite two_p_0, Z.mod_1_r, Z.mul_0_r. rewrite <- (zval_replicate_false (2 * n)). symmetry. apply zbits_zval. apply replicate_length.
    + rewrite range_length, Nat.sub_0_r in F4. exists sum, h4. unfold mul_extend_body. split; [by rewrite (st_bind_ok _ _ _ _ _ E3)|]. do 4 (split; [done|]).
      eapply gfs_eq; [exact F4|]. intros ρ. cbn beta. unfold mulz. rewrite (Z.mod_small (zval (Y ρ))); [done|]. rewrite <- (LY ρ). apply zval_range.
  - exists mid, h'. split; [|done]. rewrite <- E. unfold build_mul_extend, build2, mul_extend_body.
    apply bind_ext. intros [m s] s0. apply bind_ext. intros xs s1. apply bind_ext. intros ys s2. rewrite bind_assoc. apply bind_ext. done.
Qed.

(** * Comparison *)
Lemma bind_one s g (mid : N) h : (b_output s g ;; st_ret mid) h = (outs <- st_ret [g] ;; st_iterM (b_output s) outs ;; st_ret mid) h.
Proof. unfold st_bind, st_ret. cbn [st_iterM]. unfold st_bind, st_ret. destruct (b_output s g h) as [ [ []|?|?|] ?]; reflexivity. Qed.
(** The sign bit of the difference. *)
Definition lessz (n : nat) (xs ys : list bool) : bool := Z.testbit (zval xs - zval ys) (Z.of_nat (n - 1)).
Definition less_body (md : mode) (n : nat) (suber_mid : N) (s : nat) (xs ys : list N) : M (list N) :=
  sub <- r_module md s suber_mid (xs ++ ys) ;; one <- r_constant s true ;; k <- usize_sub_n md n 1 ;; top <- st_nth sub k ;;
  is_less <- r_equivalent s top one ;; st_ret [is_less].
Lemma usize_sub_n_ok md a b h : (b <= a)%nat -> usize_sub_n md a b h = (Ok (a - b)%nat, h).
Proof.
  intros H. unfold usize_sub_n, st_bind, st_lift, usize_sub. rewrite (proj2 (N.leb_le _ _)) by lia. unfold st_ret. do 2 f_equal. lia.
Qed.
Lemma usize_sub_n_panic a b h : (a < b)%nat -> usize_sub_n Debug a b h = (Panic PArith, h).
Proof. intros H. unfold usize_sub_n, st_bind, st_lift, usize_sub. rewrite (proj2 (N.leb_gt _ _)) by lia. done. Qed.
Lemma usize_sub_n_wrap a b h : (a < b)%nat -> usize_sub_n Release a b h = (Ok (N.to_nat (usize_modulus + N.of_nat a - N.of_nat b)), h).
Proof. intros H. unfold usize_sub_n, st_bind, st_lift, usize_sub. rewrite (proj2 (N.leb_gt _ _)) by lia. done. Qed.
Lemma build_less_ok md h l n sub_mid : (0 < n)%nat -> base h l -> mspec l h l sub_mid (n + n) n (fun bits => subz n (take n bits) (drop n bits)) ->
  exists mid h', build_less md l n sub_mid h = (Ok mid, h') /\ built h l h' /\ mspec l h' l mid (n + n) 1 (fun bits => [lessz n (take n bits) (drop n bits)]).
Proof.
  intros Hn Hb Hm. destruct (build2_ok (less_body md n sub_mid) loop_all h l n 1 (fun xs ys => [lessz n xs ys]) (loop_all_ok _) Hb) as (mid & h' & E & T & Hs).
  - intros s h2 xs ys X Y i B Hpres Fx Fy Lx Ly. apply Hpres in Hm. clear Hpres.
    destruct (t_module2 md l h2 s i [] sub_mid n n (subz n) xs ys X Y B Hm Fx Fy Lx Ly Hn) as (d & h3 & E3 & B3 & M3 & L3 & F3).
    destruct (t_constant _ _ _ _ _ B3 true) as (one & h4 & E4 & B4 & M4 & F4).
    destruct (gfs_lookup _ _ _ _ (n - 1)%nat F3 ltac:(lia)) as (top & Ht & Ft).
    destruct (t_equivalent _ _ _ _ _ top one _ _ B4 (gf_mv _ _ _ _ _ _ _ _ M4 Ft) F4) as (g & h5 & E5 & B5 & M5 & F5).
    pose proof (ext_trans _ _ _ _ (mv_ext _ _ _ _ _ M3) (mv_ext _ _ _ _ _ M4)) as X4.
    exists [g], h5. split.
    + unfold less_body. by rewrite (st_bind_ok _ _ _ _ _ E3), (st_bind_ok _ _ _ _ _ E4), (st_bind_ok _ _ _ _ _ (usize_sub_n_ok md n 1 h4 Hn)),
        (st_bind_ok _ _ _ _ _ (st_nth_ok _ _ _ _ Ht)), (st_bind_ok _ _ _ _ _ E5).
    + split; [done|]. split; [eapply ext_trans; [exact X4|apply M5]|]. split; [eapply fin_outs_new; [exact X4|exact M5]|]. split; [done|].
      apply (gfs_one _ _ _ (fun ρ => lessz n (X ρ) (Y ρ))). eapply gf_eq; [exact F5|]. intros ρ. cbn beta. unfold subz, lessz. rewrite zbits_nth by lia. by destruct (Z.testbit _ _).
  - exists mid, h'. split; [|done]. rewrite <- E. unfold build_less, build2, less_body, loop_all.
    apply bind_ext. intros [m s] s0. apply bind_ext. intros xs s1. apply bind_ext. intros ys s2. 
    do 5 (rewrite bind_assoc; apply bind_ext; intros ? ?). apply bind_one.
Qed.
Definition less_or_eq_body (md : mode) (less_mid eq_mid : N) (s : nat) (xs ys : list N) : M (list N) :=
  is_less <- call_bit md s less_mid (xs ++ ys) ;; is_eq <- call_bit md s eq_mid (xs ++ ys) ;; g <- r_or s is_less is_eq ;; st_ret [g].
Lemma build_less_or_eq_ok md h l n less_mid eq_mid f g : base h l -> mspec l h l less_mid (n + n) 1 (fun bits => [f (take n bits) (drop n bits)]) ->
  mspec l h l eq_mid (n + n) 1 (fun bits => [g (take n bits) (drop n bits)]) ->
  exists mid h', build_less_or_eq md l n less_mid eq_mid h = (Ok mid, h') /\ built h l h' /\
    mspec l h' l mid (n + n) 1 (fun bits => [f (take n bits) (drop n bits) || g (take n bits) (drop n bits)]).
Proof.
  intros Hb Hm Hq. destruct (build2_ok (less_or_eq_body md less_mid eq_mid) loop_all h l n 1 (fun xs ys => [f xs ys || g xs ys]) (loop_all_ok _) Hb) as (mid & h' & E & T & Hs).
  - intros s h2 xs ys X Y i B Hpres Fx Fy Lx Ly. apply Hpres in Hm. apply Hpres in Hq. clear Hpres.
    destruct (t_call_bit2 md l h2 s i [] less_mid n (fun xs ys => [f xs ys]) xs ys X Y B Hm Fx Fy Lx Ly) as (u & h3 & E3 & B3 & M3 & F3).
    pose proof (mspec_mv _ _ _ _ _ _ _ _ _ _ _ _ _ B M3 Hq) as Hq3.
    destruct (t_call_bit2 md l h3 s i [] eq_mid n (fun xs ys => [g xs ys]) xs ys X Y B3 Hq3 (gfs_mv _ _ _ _ _ _ _ _ M3 Fx) (gfs_mv _ _ _ _ _ _ _ _ M3 Fy) Lx Ly)
      as (v & h4 & E4 & B4 & M4 & F4).
    destruct (t_or _ _ _ _ _ B4 u v _ _ (gf_mv _ _ _ _ _ _ _ _ M4 F3) F4) as (w & h5 & E5 & B5 & M5 & F5).
    pose proof (ext_trans _ _ _ _ (mv_ext _ _ _ _ _ M3) (mv_ext _ _ _ _ _ M4)) as X4.
    exists [w], h5. split; [unfold less_or_eq_body; by rewrite (st_bind_ok _ _ _ _ _ E3), (st_bind_ok _ _ _ _ _ E4), (st_bind_ok _ _ _ _ _ E5)|].
    split; [done|]. split; [eapply ext_trans; [exact X4|apply M5]|]. split; [eapply fin_outs_new; [exact X4|exact M5]|]. split; [done|].
    by apply (gfs_one _ _ _ (fun ρ => f (X ρ) (Y ρ) || g (X ρ) (Y ρ))).
  - exists mid, h'. split; [|done]. rewrite <- E. unfold build_less_or_eq, build2, less_or_eq_body, loop_all.
    apply bind_ext. intros [m s] s0. apply bind_ext. intros xs s1. apply bind_ext. intros ys s2. 
    do 3 (rewrite bind_assoc; apply bind_ext; intros ? ?). apply bind_one.
Qed.
Definition negated_body (md : mode) (mid : N) (s : nat) (xs ys : list N) : M (list N) :=
  bit <- call_bit md s mid (xs ++ ys) ;; g <- r_not s bit ;; st_ret [g].
Lemma build_negated_ok md h l n mid0 f : base h l -> mspec l h l mid0 (n + n) 1 (fun bits => [f (take n bits) (drop n bits)]) ->
  exists mid h', build_negated md l n mid0 h = (Ok mid, h') /\ built h l h' /\ mspec l h' l mid (n + n) 1 (fun bits => [negb (f (take n bits) (drop n bits))]).
Proof.
  intros Hb Hm. destruct (build2_ok (negated_body md mid0) loop_all h l n 1 (fun xs ys => [negb (f xs ys)]) (loop_all_ok _) Hb) as (mid & h' & E & T & Hs).
  - intros s h2 xs ys X Y i B Hpres Fx Fy Lx Ly. apply Hpres in Hm. clear Hpres.
    destruct (t_call_bit2 md l h2 s i [] mid0 n (fun xs ys => [f xs ys]) xs ys X Y B Hm Fx Fy Lx Ly) as (u & h3 & E3 & B3 & M3 & F3).
    destruct (t_not _ _ _ _ _ B3 u _ F3) as (w & h5 & E5 & B5 & M5 & F5).
    exists [w], h5. split; [unfold negated_body; by rewrite (st_bind_ok _ _ _ _ _ E3), (st_bind_ok _ _ _ _ _ E5)|].
    split; [done|]. split; [eapply ext_trans; [apply M3|apply M5]|]. split; [eapply fin_outs_new; [apply M3|exact M5]|]. split; [done|].
    by apply (gfs_one _ _ _ (fun ρ => negb (f (X ρ) (Y ρ)))).
  - exists mid, h'. split; [|done]. rewrite <- E. unfold build_negated, build2, negated_body, loop_all.
    apply bind_ext. intros [m s] s0. apply bind_ext. intros xs s1. apply bind_ext. intros ys s2. 
    do 2 (rewrite bind_assoc; apply bind_ext; intros ? ?). apply bind_one.
Qed.
