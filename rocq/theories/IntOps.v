(** The integer configuration and the operations on allocated integers. *)
From Verif Require Export IntFacts.
Open Scope list_scope.

(** * Bits of numbers *)
Lemma zbits_pad n bits : (length bits <= n)%nat -> zbits n (zval bits) = bits ++ replicate (n - length bits) false.
Proof.
  intros H. rewrite <- (zbits_zval (bits ++ replicate (n - length bits) false) n) by (rewrite app_length, replicate_length; lia).
  by rewrite zval_app, zval_replicate_false, Z.mul_0_r, Z.add_0_r.
Qed.
Lemma bit_at_N byte i : bit_at byte i = N.testbit byte (N.of_nat i).
Proof.
  unfold bit_at. change 1%N with (N.ones 1) at 1. rewrite N.land_ones. rewrite <- N.bit0_mod, N.shiftr_spec by lia. rewrite N.add_0_l. by destruct (N.testbit _ _).
Qed.
Lemma bit_at_Z byte i : bit_at byte i = Z.testbit (Z.of_N byte) (Z.of_nat i).
Proof. rewrite bit_at_N. rewrite <- nat_N_Z. by rewrite N2Z.inj_testbit. Qed.
Lemma byte_bits byte : map (bit_at byte) (seq 0 8) = zbits 8 (Z.of_N byte).
Proof. unfold zbits. apply map_ext. intros i. apply bit_at_Z. Qed.
Lemma bytes2bits_le_length bytes : length (bytes2bits_le bytes) = (8 * length bytes)%nat.
Proof. induction bytes as [|b bytes IH]; [done|]. unfold bytes2bits_le in *. cbn [flat_map length]. rewrite app_length, IH, map_length, seq_length. lia. Qed.
Lemma bytes_loop_val fuel v : (N.size_nat v <= fuel)%nat -> zval (bytes2bits_le (bytes_loop fuel v)) = Z.of_N v.
Proof.
  revert v. induction fuel as [|fuel IH]; intros v Hf; cbn [bytes_loop].
  - destruct v as [|p]; [done|]. destruct p; cbn in Hf; lia.
  - destruct (N.eqb_spec v 0) as [-> |Hv]; [done|]. unfold bytes2bits_le in *. cbn [flat_map]. rewrite zval_app, map_length, seq_length, byte_bits, zval_zbits, IH.
    + rewrite N2Z.inj_div, N2Z.inj_mod. change (Z.of_N 256) with (two_p 8). pose proof (two_p_pos 8). rewrite Z.mod_mod by lia.
      rewrite (Z.div_mod (Z.of_N v) (two_p 8)) at 3 by lia. lia.
    + assert (Hd : (N.size (v / 256) < N.size v)%N).
      { destruct (N.eqb_spec (v / 256) 0) as [E|E]; [rewrite E; destruct v; [done|cbn; lia]|]. rewrite !N.size_log2 by done. apply (proj1 (N.succ_lt_mono _ _)).
        change 256%N with (2 ^ 8)%N in *. rewrite <- N.shiftr_div_pow2 in *. destruct (N.lt_ge_cases (N.log2 v) 8) as [Hl|Hl].
        - exfalso. apply E. by apply N.shiftr_eq_0.
        - rewrite N.log2_shiftr. lia. }
      assert (Hs : forall x, N.of_nat (N.size_nat x) = N.size x).
      { intros [|p]; [done|]. cbn. induction p; cbn; lia. }
      pose proof (Hs v). pose proof (Hs (v / 256)%N). lia.
Qed.
Lemma to_bytes_le_val v : zval (bytes2bits_le (to_bytes_le v)) = Z.of_N v.
Proof. unfold to_bytes_le. destruct (N.eqb_spec v 0) as [-> |Hv]; [done|]. by apply bytes_loop_val. Qed.

(** * The configuration *)
(** All nine modules of [cfg], which are in the table of [p], compute what they should when called in the circuit [l]. *)
Record int_cfg (p : nat) (h : heap) (l : nat) (cfg : int_config) (n : nat) : Prop := {
  ik_ref : ic_ref cfg = l;
  ik_add : mspec p h l (ic_add cfg) (n + n) n (fun bits => addz n (take n bits) (drop n bits));
  ik_sub : mspec p h l (ic_sub cfg) (n + n) n (fun bits => subz n (take n bits) (drop n bits));
  ik_mul : mspec p h l (ic_mul cfg) (n + n) n (fun bits => mulz n (take n bits) (drop n bits));
  ik_eq : mspec p h l (ic_eq cfg) (n + n) 1 (fun bits => [same_bits (take n bits) (drop n bits)]);
  ik_neq : mspec p h l (ic_neq cfg) (n + n) 1 (fun bits => [negb (same_bits (take n bits) (drop n bits))]);
  ik_less : mspec p h l (ic_less cfg) (n + n) 1 (fun bits => [lessz n (take n bits) (drop n bits)]);
  ik_le : mspec p h l (ic_less_or_eq cfg) (n + n) 1 (fun bits => [lessz n (take n bits) (drop n bits) || same_bits (take n bits) (drop n bits)]);
  ik_gt : mspec p h l (ic_larger cfg) (n + n) 1 (fun bits => [negb (lessz n (take n bits) (drop n bits) || same_bits (take n bits) (drop n bits))]);
  ik_ge : mspec p h l (ic_larger_or_eq cfg) (n + n) 1 (fun bits => [negb (lessz n (take n bits) (drop n bits))]);
}.
Lemma int_cfg_mv p h l cfg n i os ops news h' : bs p h l i os -> mv l h h' ops news -> int_cfg p h l cfg n -> int_cfg p h' l cfg n.
Proof. intros B M [H0 H1 H2 H3 H4 H5 H6 H7 H8 H9]. split; [done|..]; by eapply mspec_mv. Qed.
Lemma int_cfg_built p h l l0 cfg n h' : dinv h -> built h l0 h' -> int_cfg p h l cfg n -> int_cfg p h' l cfg n.
Proof. intros B M [H0 H1 H2 H3 H4 H5 H6 H7 H8 H9]. split; [done|..]; by eapply mspec_built. Qed.
Lemma int_config_new_ok md h l n : (0 < n)%nat -> base h l -> exists cfg h', int_config_new md l n h = (Ok cfg, h') /\ built h l h' /\ int_cfg l h' l cfg n.
Proof.
  intros Hn Hb. destruct (build_add_ok h l n Hn Hb) as (m1 & h1 & E1 & T1 & S1). pose proof (built_base _ _ _ Hb T1) as Hb1.
  destruct (build_sub_ok md h1 l n m1 Hn Hb1 S1) as (m2 & h2 & E2 & T2 & S2). pose proof (built_base _ _ _ Hb1 T2) as Hb2.
  pose proof (mspec_built _ _ _ _ _ _ _ _ _ (base_d _ _ Hb1) T2 S1) as S1'.
  destruct (build_mul_ok md h2 l n m1 Hn Hb2 S1') as (m3 & h3 & E3 & T3 & S3). pose proof (built_base _ _ _ Hb2 T3) as Hb3.
  destruct (build_eq_ok h3 l n Hb3) as (m4 & h4 & E4 & T4 & S4). pose proof (built_base _ _ _ Hb3 T4) as Hb4.
  destruct (build_neq_ok md h4 l n m4 _ Hb4 S4) as (m5 & h5 & E5 & T5 & S5). pose proof (built_base _ _ _ Hb4 T5) as Hb5.
  assert (S2' : mspec l h5 l m2 (n + n) n (fun bits => subz n (take n bits) (drop n bits))).
  { do 3 (eapply mspec_built; [|eassumption|]; [eapply base_d; eassumption|]). done. }
  destruct (build_less_ok md h5 l n m2 Hn Hb5 S2') as (m6 & h6 & E6 & T6 & S6). pose proof (built_base _ _ _ Hb5 T6) as Hb6.
  assert (S4' : mspec l h6 l m4 (n + n) 1 (fun bits => [same_bits (take n bits) (drop n bits)])).
  { do 2 (eapply mspec_built; [|eassumption|]; [eapply base_d; eassumption|]). done. }
  destruct (build_less_or_eq_ok md h6 l n m6 m4 _ _ Hb6 S6 S4') as (m7 & h7 & E7 & T7 & S7). pose proof (built_base _ _ _ Hb6 T7) as Hb7.
  destruct (build_negated_ok md h7 l n m7 (fun xs ys => lessz n xs ys || same_bits xs ys) Hb7 S7) as (m8 & h8 & E8 & T8 & S8). pose proof (built_base _ _ _ Hb7 T8) as Hb8.
  assert (S6' : mspec l h8 l m6 (n + n) 1 (fun bits => [lessz n (take n bits) (drop n bits)])).
  { do 2 (eapply mspec_built; [|eassumption|]; [eapply base_d; eassumption|]). done. }
  destruct (build_negated_ok md h8 l n m6 (lessz n) Hb8 S6') as (m9 & h9 & E9 & T9 & S9).
  exists (IntConfig l m1 m2 m3 m4 m5 m6 m7 m8 m9), h9. split.
  - unfold int_config_new, build_larger, build_larger_or_eq. by rewrite (st_bind_ok _ _ _ _ _ E1), (st_bind_ok _ _ _ _ _ E2), (st_bind_ok _ _ _ _ _ E3),
      (st_bind_ok _ _ _ _ _ E4), (st_bind_ok _ _ _ _ _ E5), (st_bind_ok _ _ _ _ _ E6), (st_bind_ok _ _ _ _ _ E7), (st_bind_ok _ _ _ _ _ E8), (st_bind_ok _ _ _ _ _ E9).
  - split; [do 8 (eapply built_trans; [eassumption|]); eassumption|].
    pose proof (base_d _ _ Hb1) as D1. pose proof (base_d _ _ Hb2) as D2. pose proof (base_d _ _ Hb3) as D3. pose proof (base_d _ _ Hb4) as D4.
    pose proof (base_d _ _ Hb5) as D5. pose proof (base_d _ _ Hb6) as D6. pose proof (base_d _ _ Hb7) as D7. pose proof (base_d _ _ Hb8) as D8.
    split; cbn [ic_ref ic_add ic_sub ic_mul ic_eq ic_neq ic_less ic_less_or_eq ic_larger ic_larger_or_eq]; [done|..|exact S9];
      repeat (first [eassumption | eapply mspec_built; [|eassumption|]; [eassumption|]]).
Qed.

(** [x] holds [n] gates of the circuit at [l] denoting the bits of [X]. *)
Record int_val (h : heap) (l : nat) (cfg : int_config) (n : nat) (x : aint) (X : (N -> bool) -> Z) : Prop := {
  iv_cfg : ai_cfg x = cfg;
  iv_len : length (ai_val x) = n;
  iv_val : gfs h l (ai_val x) (fun ρ => zbits n (X ρ));
}.
Lemma int_val_mv h l cfg n x X ops news h' : mv l h h' ops news -> int_val h l cfg n x X -> int_val h' l cfg n x X.
Proof. intros M [H1 H2 H3]. split; [done|done|by eapply gfs_mv]. Qed.
Lemma int_val_ext h l cfg n x X h' : ext l h h' -> int_val h l cfg n x X -> int_val h' l cfg n x X.
Proof. intros He [H1 H2 H3]. split; [done|done|by eapply gfs_ext]. Qed.
Lemma int_val_eq h l cfg n x X X' : int_val h l cfg n x X -> (forall ρ, X ρ mod two_p n = X' ρ mod two_p n)%Z -> int_val h l cfg n x X'.
Proof. intros [H1 H2 H3] HX. split; [done|done|]. eapply gfs_eq; [done|]. intros ρ. cbn beta. by apply zbits_inj. Qed.
Lemma int_val_bits h l cfg n gs G : length gs = n -> gfs h l gs G -> int_val h l cfg n (AInt gs cfg) (fun ρ => zval (G ρ)).
Proof.
  intros Hl F. split; [done|done|]. eapply gfs_eq; [exact F|]. intros ρ. cbn beta. symmetry. apply zbits_zval. rewrite <- Hl. by eapply gfs_length.
Qed.

Section int_ops.
Context (md : mode) (p : nat) (h : heap) (l : nat) (i : N) (os : list N) (cfg : int_config) (n : nat).
Context (Hn : (0 < n)%nat) (B : bs p h l i os) (C : int_cfg p h l cfg n).
Definition int_post (h' : heap) (i' : N) (os' ops news : list N) : Prop := bs p h' l i' os' /\ mv l h h' ops news /\ int_cfg p h' l cfg n.
Lemma mk_post h' i' os' ops news : bs p h' l i' os' -> mv l h h' ops news -> int_post h' i' os' ops news.
Proof using Hn B C. intros B' M. split; [done|]. split; [done|]. exact (int_cfg_mv _ _ _ _ _ _ _ _ _ _ B M C). Qed.
Lemma int_new_ok : exists z h', int_new cfg n h = (Ok z, h') /\ int_post h' (i + N.of_nat n) os [] (ai_val z) /\ int_val h' l cfg n z (fun ρ => zval (inb i n ρ)).
Proof using Hn B C.
  destruct (t_inputs p h l i os n B) as (gs & h' & E & Hl & B' & M & F). exists (AInt gs cfg), h'.
  unfold int_new. rewrite (ik_ref _ _ _ _ _ C). split; [by rewrite (st_bind_ok _ _ _ _ _ E)|]. split; [by apply mk_post|]. by apply int_val_bits.
Qed.
Lemma int_from_ok gs G : (length gs <= n)%nat -> gfs h l gs G -> exists z h' pad, int_from_gate_ids gs cfg n h = (Ok z, h') /\
  int_post h' i os [] pad /\ ai_val z = gs ++ pad /\ int_val h' l cfg n z (fun ρ => zval (G ρ)).
Proof using Hn B C.
  intros Hl F. destruct (t_consts p h l i os false (n - length gs) B) as (pad & h' & E & Hp & B' & M & F').
  exists (AInt (gs ++ pad) cfg), h', pad. unfold int_from_gate_ids. rewrite decide_True by done. rewrite (ik_ref _ _ _ _ _ C).
  split; [by rewrite (st_bind_ok _ _ _ _ _ E)|]. split; [by apply mk_post|]. split; [done|].
  split; [done|cbn [ai_val]; rewrite app_length; lia|]. cbn [ai_val]. eapply gfs_eq; [apply gfs_app; [by eapply gfs_mv|exact F']|]. intros ρ. cbn beta.
  assert (HL : length (G ρ) = length gs) by (by eapply gfs_length). rewrite zbits_pad by lia. by rewrite HL.
Qed.
Lemma int_zero_ok : exists z h', int_zero cfg n h = (Ok z, h') /\ int_post h' i os [] (ai_val z) /\ int_val h' l cfg n z (fun _ => 0%Z).
Proof using Hn B C.
  destruct (int_from_ok [] (fun _ => [])) as (z & h' & pad & E & P & Hz & V); [cbn; lia|apply gfs_nil|]. exists z, h'. cbn [app] in Hz. rewrite Hz. done.
Qed.
Lemma int_biguint_ok v : (8 * length (to_bytes_le v) <= n)%nat -> exists z h', int_from_biguint v cfg n h = (Ok z, h') /\
  int_post h' i os [] (ai_val z) /\ int_val h' l cfg n z (fun _ => Z.of_N v).
Proof using Hn B C.
  intros Hv. rewrite <- bytes2bits_le_length in Hv. set (bits := bytes2bits_le (to_bytes_le v)) in *.
  destruct (mapM_inv (fun j => b <- st_nth bits j ;; r_constant l b) (range 0 (length bits))
    (fun gs h' => bs p h' l i os /\ mv l h h' [] gs /\ gfs h' l gs (fun _ => take (length gs) bits)) h) as (val & h1 & E1 & L1 & B1 & M1 & F1).
  { intros gs k h' [-> Hk]%range_lookup (B' & M' & F'). cbn [plus] in *. destruct (lookup_lt_is_Some_2 bits (length gs) Hk) as [b Hb].
    destruct (t_constant _ _ _ _ _ B' b) as (g & h2 & E2 & B2 & M2 & F2). exists g, h2.
    split; [by rewrite (st_bind_ok _ _ _ _ _ (st_nth_ok _ _ _ _ Hb))|]. split; [done|]. split.
    - eapply mv_app; [exact M'|exact M2|done|]. intros ? []%elem_of_nil.
    - rewrite app_length. cbn [length]. rewrite Nat.add_1_r, (take_S_r _ _ _ Hb). eapply (gfs_snoc _ _ _ _ _ (fun _ => b)); [by eapply gfs_mv|done]. }
  { split; [done|]. split; [apply mv_refl|apply gfs_nil]. }
  rewrite range_length, Nat.sub_0_r in L1.
  destruct (t_consts p h1 l i os false (n - length bits) B1) as (pad & h2 & E2 & L2 & B2 & M2 & F2).
  exists (AInt (val ++ pad) cfg), h2. split.
  - unfold int_from_biguint. fold bits. rewrite decide_True by done. rewrite (ik_ref _ _ _ _ _ C). by rewrite (st_bind_ok _ _ _ _ _ E1), (st_bind_ok _ _ _ _ _ E2).
  - split; [apply mk_post; [done|]; cbn [ai_val]; eapply mv_app; [exact M1|exact M2|done|]; intros ? []%elem_of_nil|].
    split; [done|cbn [ai_val]; rewrite app_length; lia|]. cbn [ai_val]. rewrite <- to_bytes_le_val. fold bits.
    eapply gfs_eq; [apply gfs_app; [eapply gfs_mv; [exact M2|exact F1]|exact F2]|]. intros ρ. cbn beta. rewrite zbits_pad by done. by rewrite L1, firstn_all.
Qed.
Lemma int_output_ok z Z : int_val h l cfg n z Z -> exists h', int_output z n h = (Ok tt, h') /\ int_post h' i (os ++ ai_val z) [] [].
Proof using Hn B C.
  intros [Hc Hl F]. destruct (t_outs p h l i os (ai_val z) B) as (h' & E & B' & M). { intros g Hg. by eapply gfs_in. }
  exists h'. split; [|by apply mk_post]. unfold int_output. rewrite Hc, (ik_ref _ _ _ _ _ C), <- E, <- Hl. apply (iterM_nth (b_output l)).
Qed.
Context (x y : aint) (X Y : (N -> bool) -> Z) (Hx : int_val h l cfg n x X) (Hy : int_val h l cfg n y Y).
Lemma slice_all v : length v = n -> st_slice v n h = (Ok v, h).
Proof. intros H. unfold st_slice. rewrite decide_True by lia. rewrite take_ge by lia. done. Qed.
Lemma int_cmp_ok f (F : list bool -> list bool -> bool) : mspec p h l (f cfg) (n + n) 1 (fun bits => [F (take n bits) (drop n bits)]) ->
  exists g h', int_cmp f md x y n h = (Ok g, h') /\ int_post h' i os (ai_val x ++ ai_val y) [g] /\ gf h' l g (fun ρ => F (zbits n (X ρ)) (zbits n (Y ρ))).
Proof using All.
  intros Hm. destruct (t_call_bit2 md p h l i os (f cfg) n (fun xs ys => [F xs ys]) (ai_val x) (ai_val y) _ _ B Hm
    (iv_val _ _ _ _ _ _ Hx) (iv_val _ _ _ _ _ _ Hy) (iv_len _ _ _ _ _ _ Hx) (iv_len _ _ _ _ _ _ Hy)) as (g & h' & E & B' & M & V).
  exists g, h'. split; [|split; [by apply mk_post|exact V]]. unfold int_cmp.
  rewrite (st_bind_ok _ _ _ _ _ (slice_all _ (iv_len _ _ _ _ _ _ Hx))), (st_bind_ok _ _ _ _ _ (slice_all _ (iv_len _ _ _ _ _ _ Hy))).
  by rewrite (iv_cfg _ _ _ _ _ _ Hx), (ik_ref _ _ _ _ _ C).
Qed.
Lemma int_call_ok f (F : list bool -> list bool -> list bool) V : mspec p h l (f cfg) (n + n) n (fun bits => F (take n bits) (drop n bits)) ->
  (forall ρ, F (zbits n (X ρ)) (zbits n (Y ρ)) = zbits n (V ρ)) ->
  exists z h', int_call f md x y h = (Ok z, h') /\ int_post h' i os (ai_val x ++ ai_val y) (ai_val z) /\ int_val h' l cfg n z V.
Proof using All.
  intros Hm HV. destruct (t_module2 md p h l i os (f cfg) n n F (ai_val x) (ai_val y) _ _ B Hm
    (iv_val _ _ _ _ _ _ Hx) (iv_val _ _ _ _ _ _ Hy) (iv_len _ _ _ _ _ _ Hx) (iv_len _ _ _ _ _ _ Hy) Hn) as (outs & h' & E & B' & M & L & Fo).
  exists (AInt outs cfg), h'. split; [|split; [by apply mk_post|split; [done|done|]]].
  - unfold int_call. rewrite (iv_cfg _ _ _ _ _ _ Hx), (ik_ref _ _ _ _ _ C). by rewrite (st_bind_ok _ _ _ _ _ (expect_ok _ _ _ _ E)).
  - eapply gfs_eq; [exact Fo|]. done.
Qed.
Lemma int_add_ok : exists z h', int_add md x y h = (Ok z, h') /\ int_post h' i os (ai_val x ++ ai_val y) (ai_val z) /\ int_val h' l cfg n z (fun ρ => X ρ + Y ρ)%Z.
Proof using All.
  apply (int_call_ok ic_add (addz n)); [apply C|]. intros ρ. unfold addz. apply zbits_inj. rewrite !zval_zbits. symmetry. apply Zplus_mod.
Qed.
Lemma int_sub_ok : exists z h', int_sub md x y h = (Ok z, h') /\ int_post h' i os (ai_val x ++ ai_val y) (ai_val z) /\ int_val h' l cfg n z (fun ρ => X ρ - Y ρ)%Z.
Proof using All.
  apply (int_call_ok ic_sub (subz n)); [apply C|]. intros ρ. unfold subz. apply zbits_inj. rewrite !zval_zbits. symmetry. apply Zminus_mod.
Qed.
Lemma int_mul_ok : exists z h', int_mul md x y h = (Ok z, h') /\ int_post h' i os (ai_val x ++ ai_val y) (ai_val z) /\ int_val h' l cfg n z (fun ρ => X ρ * Y ρ)%Z.
Proof using All.
  apply (int_call_ok ic_mul (mulz n)); [apply C|]. intros ρ. unfold mulz. apply zbits_inj. rewrite !zval_zbits. symmetry. apply Zmult_mod.
Qed.
Lemma same_zbits a b : same_bits (zbits n a) (zbits n b) = (a mod two_p n =? b mod two_p n)%Z.
Proof.
  assert (H : forall xs ys, length xs = length ys -> same_bits xs ys = true <-> xs = ys).
  { induction xs as [|u xs IH]; intros [|v ys] HL; cbn in HL; try done. unfold same_bits in *. cbn [zip zip_with forallb fst snd].
    rewrite andb_true_iff, IH, eqb_true_iff by lia. split; [by intros [-> ->]|by intros [= -> ->]]. }
  apply eq_true_iff_eq. rewrite H by (by rewrite !zbits_length). rewrite Z.eqb_eq. apply zbits_eq.
Qed.
Lemma lessz_zbits a b : lessz n (zbits n a) (zbits n b) = (signed n (a - b) <? 0)%Z.
Proof using Hn.
  unfold lessz. rewrite top_bit_neg by done. f_equal. unfold signed. rewrite !zval_zbits. by rewrite <- Zminus_mod.
Qed.
Definition zeq (a b : Z) : bool := (a mod two_p n =? b mod two_p n)%Z.
Definition zless (a b : Z) : bool := (signed n (a - b) <? 0)%Z.
Lemma int_eq_ok : exists g h', int_eq md x y n h = (Ok g, h') /\ int_post h' i os (ai_val x ++ ai_val y) [g] /\ gf h' l g (fun ρ => zeq (X ρ) (Y ρ)).
Proof using All.
  destruct (int_cmp_ok ic_eq _ (ik_eq _ _ _ _ _ C)) as (g & h' & E & P & F). exists g, h'. split; [done|]. split; [done|].
  eapply gf_eq; [exact F|]. intros ρ. apply same_zbits.
Qed.
Lemma int_neq_ok : exists g h', int_neq md x y n h = (Ok g, h') /\ int_post h' i os (ai_val x ++ ai_val y) [g] /\ gf h' l g (fun ρ => negb (zeq (X ρ) (Y ρ))).
Proof using All.
  destruct (int_cmp_ok ic_neq (fun a b => negb (same_bits a b)) (ik_neq _ _ _ _ _ C)) as (g & h' & E & P & F). exists g, h'. split; [done|]. split; [done|].
  eapply gf_eq; [exact F|]. intros ρ. cbn beta. by rewrite same_zbits.
Qed.
Lemma int_less_ok : exists g h', int_less md x y n h = (Ok g, h') /\ int_post h' i os (ai_val x ++ ai_val y) [g] /\ gf h' l g (fun ρ => zless (X ρ) (Y ρ)).
Proof using All.
  destruct (int_cmp_ok ic_less _ (ik_less _ _ _ _ _ C)) as (g & h' & E & P & F). exists g, h'. split; [done|]. split; [done|].
  eapply gf_eq; [exact F|]. intros ρ. apply lessz_zbits.
Qed.
Lemma int_less_or_eq_ok : exists g h', int_less_or_eq md x y n h = (Ok g, h') /\ int_post h' i os (ai_val x ++ ai_val y) [g] /\
  gf h' l g (fun ρ => zless (X ρ) (Y ρ) || zeq (X ρ) (Y ρ)).
Proof using All.
  destruct (int_cmp_ok ic_less_or_eq (fun a b => lessz n a b || same_bits a b) (ik_le _ _ _ _ _ C)) as (g & h' & E & P & F). exists g, h'. split; [done|]. split; [done|].
  eapply gf_eq; [exact F|]. intros ρ. cbn beta. by rewrite same_zbits, lessz_zbits.
Qed.
Lemma int_larger_ok : exists g h', int_larger md x y n h = (Ok g, h') /\ int_post h' i os (ai_val x ++ ai_val y) [g] /\
  gf h' l g (fun ρ => negb (zless (X ρ) (Y ρ) || zeq (X ρ) (Y ρ))).
Proof using All.
  destruct (int_cmp_ok ic_larger (fun a b => negb (lessz n a b || same_bits a b)) (ik_gt _ _ _ _ _ C)) as (g & h' & E & P & F). exists g, h'. split; [done|]. split; [done|].
  eapply gf_eq; [exact F|]. intros ρ. cbn beta. by rewrite same_zbits, lessz_zbits.
Qed.
Lemma int_larger_or_eq_ok : exists g h', int_larger_or_eq md x y n h = (Ok g, h') /\ int_post h' i os (ai_val x ++ ai_val y) [g] /\
  gf h' l g (fun ρ => negb (zless (X ρ) (Y ρ))).
Proof using All.
  destruct (int_cmp_ok ic_larger_or_eq (fun a b => negb (lessz n a b)) (ik_ge _ _ _ _ _ C)) as (g & h' & E & P & F). exists g, h'. split; [done|]. split; [done|].
  eapply gf_eq; [exact F|]. intros ρ. cbn beta. by rewrite lessz_zbits.
Qed.
End int_ops.

Lemma int_one_ok p h l i os cfg n : (0 < n)%nat -> bs p h l i os -> int_cfg p h l cfg n ->
  exists z h', int_one cfg n h = (Ok z, h') /\ int_post p h l cfg n h' i os [] (ai_val z) /\ int_val h' l cfg n z (fun _ => 1%Z).
Proof.
  intros Hn B C. destruct (t_constant _ _ _ _ _ B true) as (t & h1 & E1 & B1 & M1 & F1). pose proof (int_cfg_mv _ _ _ _ _ _ _ _ _ _ B M1 C) as C1.
  destruct (int_from_ok p h1 l i os cfg n Hn B1 C1 [t] (fun _ => [true])) as (z & h' & pad & E & (B' & M' & C') & Hz & V); [cbn; lia|by apply (gfs_one _ _ _ (fun _ => true))|].
  exists z, h'. unfold int_one. rewrite (ik_ref _ _ _ _ _ C). split; [by rewrite (st_bind_ok _ _ _ _ _ E1)|]. split; [|done].
  split; [done|]. split; [|done]. rewrite Hz. eapply mv_app; [exact M1|exact M'|done|]. intros ? []%elem_of_nil.
Qed.
Lemma int_neg_ok md p h l i os cfg n x X : (0 < n)%nat -> bs p h l i os -> int_cfg p h l cfg n -> int_val h l cfg n x X ->
  exists z h', int_neg md x n h = (Ok z, h') /\ bs p h' l i os /\ ext l h h' /\ int_cfg p h' l cfg n /\
    (forall g, g ∈ ai_val z -> ~ has_gate h l g /\ free h' l g) /\ int_val h' l cfg n z (fun ρ => - X ρ)%Z.
Proof.
  intros Hn B C Hx. destruct (int_zero_ok p h l i os cfg n Hn B C) as (z0 & h1 & E1 & (B1 & M1 & C1) & V1).
  destruct (int_sub_ok md p h1 l i os cfg n Hn B1 C1 z0 x _ _ V1 (int_val_mv _ _ _ _ _ _ _ _ _ M1 Hx)) as (z & h' & E & (B' & M' & C') & V).
  exists z, h'. split; [unfold int_neg; rewrite (iv_cfg _ _ _ _ _ _ Hx); by rewrite (st_bind_ok _ _ _ _ _ (expect_ok _ _ _ _ E1))|].
  split; [done|]. split; [eapply ext_trans; [apply M1|apply M']|]. split; [done|]. split.
  - intros g Hg. destruct (mv_new _ _ _ _ _ M' g Hg) as (H1 & H2 & H3). split; [|done]. intros H0. apply H1. eapply has_gate_hle; [apply M1|done].
  - eapply int_val_eq; [exact V|]. intros ρ. f_equal.
Qed.

(** * Shifts *)
Lemma mapM_nth {S A} (v : list A) (f : nat -> nat) xs (s : S) : Forall (fun j => f j < length v)%nat xs ->
  exists r, st_mapM (fun j => st_nth v (f j)) xs s = (Ok r, s) /\ length r = length xs /\ forall k x, xs !! k = Some x -> r !! k = v !! f x.
Proof.
  induction xs as [|x xs IH]; intros Hf; cbn [st_mapM]; [exists []; done|]. apply Forall_cons in Hf as [Hx Hf].
  destruct (lookup_lt_is_Some_2 v (f x) Hx) as [a Ha]. destruct (IH Hf) as (r & Er & Lr & Hr). exists (a :: r).
  rewrite (st_bind_ok _ _ _ _ _ (st_nth_ok _ _ _ _ Ha)), (st_bind_ok _ _ _ _ _ Er). split; [done|]. split; [cbn; lia|].
  intros [|k] y Hy; cbn in Hy |- *; [injection Hy as <-; by rewrite Ha|by apply Hr].
Qed.
Lemma mapM_const {S A B} (a : A) (xs : list B) (s : S) : st_mapM (fun _ => st_ret a) xs s = (Ok (replicate (length xs) a), s).
Proof. induction xs as [|x xs IH]; [done|]. cbn [st_mapM length]. unfold st_bind in *. cbn [st_ret]. by rewrite IH. Qed.
Lemma zbits_shiftl n k x : (k <= n)%nat -> replicate k false ++ take (n - k) (zbits n x) = zbits n (x * two_p k).
Proof.
  intros H. apply zval_inj; [rewrite app_length, replicate_length, take_length, !zbits_length; lia|].
  rewrite zval_app, zval_replicate_false, replicate_length, zval_take, !zval_zbits.
  pose proof (two_p_pos k) as Pk. pose proof (two_p_pos (n - k)) as Pn.
  assert (E : (two_p n = two_p (n - k) * two_p k)%Z) by (rewrite <- two_p_add; f_equal; lia).
  rewrite E at 2. rewrite Z.mul_mod_distr_r by lia.
  replace (x mod two_p n)%Z with (x mod (two_p (n - k) * two_p k))%Z by (by rewrite E).
  rewrite (Z.rem_mul_r x (two_p (n - k)) (two_p k)) by lia. rewrite Z.mul_comm with (n := two_p (n - k)). rewrite Z_mod_plus_full. rewrite Z.mod_mod by lia. lia.
Qed.
Lemma signed_bit n x j : (0 < n)%nat -> Z.testbit (signed n x) (Z.of_nat j) = Z.testbit x (Z.of_nat (if decide (j < n)%nat then j else (n - 1)%nat)).
Proof.
  intros Hn.
  assert (Hlow : forall j, (j < n)%nat -> Z.testbit (signed n x) (Z.of_nat j) = Z.testbit x (Z.of_nat j)).
  { intros k Hk. rewrite <- (zbits_nth n (signed n x) k Hk), <- (zbits_nth n x k Hk). f_equal. apply zbits_inj, signed_mod. }
  case_decide as Hj; [by apply Hlow|]. rewrite <- Hlow by lia. pose proof (signed_range n x Hn) as Hr. set (z := signed n x) in *.
  assert (Hbig : forall k, (n - 1 <= k)%nat -> Z.testbit z (Z.of_nat k) = (z <? 0)%Z).
  { intros k Hk. rewrite Z.testbit_odd, Z.shiftr_div_pow2 by lia. change (2 ^ Z.of_nat k)%Z with (two_p k).
    assert (Hle : (two_p (n - 1) <= two_p k)%Z) by (apply Z.pow_le_mono_r; lia). pose proof (two_p_pos k).
    destruct (Z.ltb_spec z 0).
    - replace (z / two_p k)%Z with (-1)%Z; [done|]. apply (Z.div_unique z (two_p k) (-1) (z + two_p k)); lia.
    - rewrite Z.div_small by lia. done. }
  rewrite !Hbig by lia. done.
Qed.
Lemma zbits_shiftr n k x : (0 < n)%nat -> (k <= n)%nat -> drop k (zbits n x) ++ replicate k (Z.testbit x (Z.of_nat (n - 1))) = zbits n (signed n x / two_p k).
Proof.
  intros Hn H. apply list_eq_same_length with (n := n); [apply zbits_length|rewrite app_length, replicate_length, drop_length, zbits_length; lia|].
  intros j a b Hj Ha Hb. rewrite zbits_lookup in Hb by done. injection Hb as <-. unfold two_p.
  rewrite Z.div_pow2_bits by lia. replace (Z.of_nat j + Z.of_nat k)%Z with (Z.of_nat (j + k)) by lia. rewrite signed_bit by done.
  destruct (decide (j < n - k)%nat) as [Hjk|Hjk].
  - rewrite lookup_app_l in Ha by (rewrite drop_length, zbits_length; lia). rewrite lookup_drop, zbits_lookup in Ha by lia. injection Ha as <-.
    rewrite decide_True by lia. do 2 f_equal. lia.
  - rewrite lookup_app_r in Ha by (rewrite drop_length, zbits_length; lia). rewrite drop_length, zbits_length in Ha. apply lookup_replicate in Ha as [-> _].
    rewrite decide_False by lia. done.
Qed.
Lemma list_eq_lookup {A} (a b : list A) : length a = length b -> (forall k, (k < length a)%nat -> a !! k = b !! k) -> a = b.
Proof.
  intros HL H. apply list_eq. intros k. destruct (decide (k < length a)%nat) as [Hk|Hk]; [by apply H|].
  rewrite !lookup_ge_None_2 by lia. done.
Qed.
Lemma int_shift_left_ok p h l i os cfg n x X k : bs p h l i os -> int_cfg p h l cfg n -> int_val h l cfg n x X -> (k <= n)%nat ->
  exists z h' zeros, int_shift_left x k n h = (Ok z, h') /\ int_post p h l cfg n h' i os [] zeros /\ ai_val z = zeros ++ take (n - k) (ai_val x) /\
    int_val h' l cfg n z (fun ρ => X ρ * two_p k)%Z.
Proof.
  intros B C [Hc Hl F] Hk. destruct (t_consts p h l i os false k B) as (zeros & h1 & E1 & L1 & B1 & M1 & F1).
  destruct (mapM_nth (ai_val x) (fun j => j - k)%nat (range k n) h1) as (r & Er & Lr & Hr).
  { apply Forall_lookup. intros j y [-> Hj]%range_lookup. lia. }
  assert (r = take (n - k) (ai_val x)) as ->.
  { apply list_eq_lookup; [rewrite Lr, range_length, take_length; lia|]. intros j Hj. rewrite Lr, range_length in Hj.
    assert (Hrj : range k n !! j = Some (k + j)%nat) by (unfold range; by rewrite lookup_seq_lt). rewrite (Hr _ _ Hrj). rewrite lookup_take by done. f_equal. lia. }
  exists (AInt (zeros ++ take (n - k) (ai_val x)) cfg), h1, zeros. split.
  { unfold int_shift_left. rewrite Hc, (ik_ref _ _ _ _ _ C). by rewrite (st_bind_ok _ _ _ _ _ E1), (st_bind_ok _ _ _ _ _ Er). }
  split; [split; [done|]; split; [done|exact (int_cfg_mv _ _ _ _ _ _ _ _ _ _ B M1 C)]|]. split; [done|].
  split; [done|cbn [ai_val]; rewrite app_length, take_length; lia|]. cbn [ai_val].
  eapply gfs_eq; [apply gfs_app; [exact F1|apply gfs_take; eapply gfs_mv; [exact M1|exact F]]|]. intros ρ. cbn beta. by apply zbits_shiftl.
Qed.
Lemma int_shift_right_ok (md : mode) h l cfg n x X k : (0 < n)%nat -> int_val h l cfg n x X -> (k <= n)%nat ->
  exists z, int_shift_right md x k n h = (Ok z, h) /\ (forall g, g ∈ ai_val z -> g ∈ ai_val x) /\ int_val h l cfg n z (fun ρ => signed n (X ρ) / two_p k)%Z.
Proof.
  intros Hn [Hc Hl F] Hk. destruct (gfs_lookup _ _ _ _ (n - 1)%nat F ltac:(lia)) as (top & Ht & Ft).
  destruct (mapM_nth (ai_val x) (fun j => j + k)%nat (range 0 (n - k)) h) as (r & Er & Lr & Hr).
  { apply Forall_lookup. intros j y [-> Hj]%range_lookup. lia. }
  assert (r = drop k (ai_val x)) as ->.
  { apply list_eq_lookup; [rewrite Lr, range_length, drop_length; lia|]. intros j Hj. rewrite Lr, range_length in Hj.
    assert (Hrj : range 0 (n - k) !! j = Some j) by (unfold range; by rewrite lookup_seq_lt by lia). rewrite (Hr _ _ Hrj). rewrite lookup_drop. f_equal. lia. }
  exists (AInt (drop k (ai_val x) ++ replicate k top) cfg). split.
  { unfold int_shift_right. rewrite (st_bind_ok _ _ _ _ _ (usize_sub_n_ok md n 1 h ltac:(lia))), (st_bind_ok _ _ _ _ _ (st_nth_ok _ _ _ _ Ht)).
    rewrite (st_bind_ok _ _ _ _ _ (usize_sub_n_ok md n k h ltac:(lia))), (st_bind_ok _ _ _ _ _ Er), (st_bind_ok _ _ _ _ _ (usize_sub_n_ok md n k h ltac:(lia))).
    rewrite (st_bind_ok _ _ _ _ _ (mapM_const top (range (n - k) n) h)), range_length. replace (n - (n - k))%nat with k by lia. by rewrite Hc. }
  split.
  { cbn [ai_val]. intros g [Hg|Hg]%elem_of_app; [|apply elem_of_replicate in Hg as [-> _]; by eapply elem_of_list_lookup_2].
    apply elem_of_list_lookup in Hg as [j Hj]. rewrite lookup_drop in Hj. by eapply elem_of_list_lookup_2. }
  split; [done|cbn [ai_val]; rewrite app_length, drop_length, replicate_length; lia|]. cbn [ai_val].
  assert (Fr : gfs h l (replicate k top) (fun ρ => replicate k (Z.testbit (X ρ) (Z.of_nat (n - 1))))).
  { assert (Ft' : gf h l top (fun ρ => Z.testbit (X ρ) (Z.of_nat (n - 1)))). { eapply gf_eq; [exact Ft|]. intros ρ. cbn beta. apply zbits_nth. lia. }
    clear - Ft'. induction k as [|k IH]; [apply gfs_nil|]. change (replicate (S k) top) with ([top] ++ replicate k top).
    eapply gfs_eq; [apply gfs_app; [apply gfs_one; exact Ft'|exact IH]|]. done. }
  eapply gfs_eq; [apply gfs_app; [apply gfs_drop; exact F|exact Fr]|]. intros ρ. cbn beta. by apply zbits_shiftr.
Qed.
