(** Properties of the prime field circuits: C46 to C49 and C57. *)
From Coq Require Import Znumtheory.
From Verif Require Import Prop_Utils.
From Verif Require Export Prop_Int FpFacts.
Open Scope list_scope.

(** * The configuration *)
(** The modulus and the Montgomery constant have at most [n / 8] bytes. *)
Definition fp_fits (n : nat) (p : N) (r : nat) : Prop :=
  (8 <= n)%nat /\ (p < 256 ^ N.of_nat (n / 8))%N /\ ((r < 8 * (n / 8))%nat \/ (1 <= r <= 8 * (n / 8))%nat /\ N.odd p = true).
Lemma fp_r_pow r : fp_r r = (2 ^ N.of_nat r)%N.
Proof. unfold fp_r. by rewrite N.shiftl_1_l. Qed.
Lemma fp_r_two_p r : Z.of_N (fp_r r) = two_p r.
Proof. rewrite fp_r_pow, N2Z.inj_pow, nat_N_Z. done. Qed.
(** The value that the product of every multiplication ends up with, modulo [2^n]. *)
Definition fp_mulc (n : nat) (p : Z) : Z := if (p <=? two_p (n - 1))%Z then 0%Z else (- p)%Z.
Lemma fp_montn_0 n r p pmi : (0 < n)%nat -> (0 <= p < two_p n)%Z -> fp_montn n r p pmi 0 = fp_mulc n p.
Proof.
  intros Hn Hp. assert (E : (two_p n = 2 * two_p (n - 1))%Z) by (replace n with (S (n - 1)) at 1 by lia; apply two_p_S). pose proof (two_p_pos (n - 1)) as H0.
  pose proof (two_p_pos r) as Hr.
  unfold fp_montn, fp_montz, mont_t. rewrite (Z.mod_0_l (two_p n)) by lia.
  rewrite (Z.mul_0_l pmi), (Z.mod_0_l (two_p r)), (Z.mul_0_l p), Z.add_0_r by lia.
  rewrite (signed_id n 0) by lia. rewrite Z.div_0_l by lia. unfold fp_mulc, zless. rewrite Z.sub_0_l. destruct (Z.leb_spec p (two_p (n - 1))).
  - rewrite signed_id by lia. destruct (Z.ltb_spec (- p) 0); cbn [negb Z.b2z]; lia.
  - rewrite (signed_cong n (- p) (- p + two_p n)) by (rewrite <- (Z_mod_plus_full (- p) 1); f_equal; lia). rewrite signed_id by lia.
    rewrite (proj2 (Z.ltb_ge _ _)) by lia. cbn [negb Z.b2z]. lia.
Qed.
Lemma mspec_eq p h l mid n_in n_out F F' : mspec p h l mid n_in n_out F -> (forall bits, length bits = n_in -> F bits = F' bits) -> mspec p h l mid n_in n_out F'.
Proof.
  intros (c & x & l' & m & E & S & Hm & Hne & Hnp & E' & Hi & Ho & Hw & Hu & Hc) H. exists c, x, l', m. do 10 (split; [done|]). intros bits Hl. rewrite <- H by done. by apply Hc.
Qed.
Record fp_cfg (p : nat) (h : heap) (l : nat) (cfg : fp_config) (n : nat) : Prop := {
  fk_ref : fc_ref cfg = l;
  fk_int : int_cfg p h l (fc_int cfg) n;
  fk_add : mspec p h l (fc_add cfg) (n + n) n (fun bits => zbits n (fp_addz n (Z.of_N (fc_p cfg)) (zval (take n bits)) (zval (drop n bits))));
  fk_sub : mspec p h l (fc_sub cfg) (n + n) n (fun bits => zbits n (fp_addz n (Z.of_N (fc_p cfg)) (zval (take n bits)) (- zval (drop n bits))));
  fk_mul : mspec p h l (fc_mul cfg) (n + n) n (fun bits => zbits n (fp_mulc n (Z.of_N (fc_p cfg))));
  fk_mont : mspec p h l (fc_mont_red cfg) n n (fun bits => zbits n (fp_montz n (fc_r_exp cfg) (Z.of_N (fc_p cfg)) (Z.of_N (fc_p_minus_inv cfg)) (zval bits)))
}.
Lemma fp_cfg_ext p h l cfg n i os h' : bs p h l i os -> ext l h h' -> int_cfg p h' l (fc_int cfg) n -> fp_cfg p h l cfg n -> fp_cfg p h' l cfg n.
Proof. intros B X C [H1 _ H3 H4 H5 H6]. split; [done|done|..]; by eapply mspec_bs_ext. Qed.
Lemma fp_pmi n p r : fp_fits n p r -> exists v, mod_inv (Z.of_N p) (Z.of_N (fp_r r)) = Ok v /\ (0 <= v <= two_p r)%Z /\ fits (fp_r r - Z.to_N v) n.
Proof.
  intros (Hn & Hp & Hr). rewrite fp_r_two_p. pose proof (two_p_pos r) as Hpos.
  assert (Hf : forall v, (0 <= v)%Z -> ((r < 8 * (n / 8))%nat \/ (0 < v)%Z /\ (r <= 8 * (n / 8))%nat) -> fits (fp_r r - Z.to_N v) n).
  { intros v Hv Hc. exists (n / 8)%nat. split; [apply Nat.div_le_lower_bound; lia|]. split; [apply Nat.mul_div_le; lia|].
    assert (E : (256 ^ N.of_nat (n / 8) = 2 ^ N.of_nat (8 * (n / 8)))%N).
    { rewrite Nat2N.inj_mul. change 256%N with (2 ^ 8)%N. by rewrite <- N.pow_mul_r. }
    rewrite E. rewrite fp_r_pow in *. assert (H2 : (0 < 2 ^ N.of_nat r)%N) by (apply N.neq_0_lt_0, N.pow_nonzero; done). destruct Hc as [Hc|[Hc1 Hc2]].
    - apply N.le_lt_trans with (2 ^ N.of_nat r)%N; [lia|]. apply N.pow_lt_mono_r; lia.
    - apply N.lt_le_trans with (2 ^ N.of_nat r)%N; [lia|]. apply N.pow_le_mono_r; lia. }
  destruct Hr as [Hr|[Hr Ho]].
  - unfold mod_inv. destruct (C34_terminates (Z.of_N p) (two_p r)) as (x & y & d & E). rewrite E. cbn [res_bind]. eexists. split; [done|].
    pose proof (ext_gcd_bounds _ _ _ _ _ _ (N2Z.is_nonneg p) (Z.lt_le_incl _ _ Hpos) E) as [B _]. assert (Hm : (Z.max (two_p r) 1 = two_p r)%Z) by lia. rewrite Hm in B.
    split; [destruct (Z.ltb_spec x 0); lia|]. apply Hf; [apply Z.abs_nonneg|by left].
  - destruct (C50_montgomery (Z.of_N p) (Z.of_nat r)) as (v & E & Hv & Hi & _); [lia|by destruct p as [|[q|q|] ]|lia|]. fold (two_p r) in *.
    exists v. split; [done|]. split; [lia|]. apply Hf; [lia|]. right. split; [|lia].
    destruct (Z.eqb_spec v 0) as [-> |]; [|lia]. rewrite Z.mul_0_r, Z.mod_0_l in Hi by lia. done.
Qed.
Lemma fp_config_new_ok md h l icfg n p r : fp_fits n p r -> base h l -> int_cfg l h l icfg n ->
  exists cfg h' v, fp_config_new md l icfg n p r h = (Ok cfg, h') /\ built h l h' /\ fp_cfg l h' l cfg n /\ fc_int cfg = icfg /\ fc_p cfg = p /\ fc_r_exp cfg = r /\
    fc_r2 cfg = 0 /\ mod_inv (Z.of_N p) (two_p r) = Ok v /\ Z.of_N (fc_p_minus_inv cfg) = (two_p r - v)%Z.
Proof.
  intros Hf Hb C. assert (Hn : (0 < n)%nat) by (destruct Hf; lia). destruct (fp_pmi n p r Hf) as (v & Ev & Hv & Fv).
  assert (Hr2 : fp_r2 r = 0). { unfold fp_r2. apply N.mod_mul. rewrite fp_r_pow. by apply N.pow_nonzero. }
  assert (Hrn : (r <= n)%nat). { destruct Hf as (? & ? & Hr). pose proof (Nat.mul_div_le n 8). lia. }
  assert (Hp : fits p n). { destruct Hf as (? & ? & _). exists (n / 8)%nat. split; [apply Nat.div_le_lower_bound; lia|]. split; [apply Nat.mul_div_le; lia|done]. }
  assert (Hp' : (0 <= Z.of_N p < two_p n)%Z).
  { split; [lia|]. destruct Hp as (k & H1 & H2 & H3). unfold two_p.
    apply Z.lt_le_trans with (2 ^ (8 * Z.of_nat k))%Z; [|apply Z.pow_le_mono_r; lia]. rewrite Z.pow_mul_r by lia. change (2 ^ 8)%Z with (Z.of_N 256).
    rewrite <- nat_N_Z, <- N2Z.inj_pow. lia. }
  apply iwf_big in Hp, Fv.
  destruct (fp_build_add_ok md l icfg n p h Hn Hp Hb C) as (a & h1 & E1 & T1 & S1). pose proof (built_base _ _ _ Hb T1) as Hb1.
  pose proof (int_cfg_built _ _ _ _ _ _ _ (base_d _ _ Hb) T1 C) as C1.
  destruct (fp_build_sub_ok md l icfg n (Z.of_N p) a h1 Hn Hb1 C1 S1) as (b & h2 & E2 & T2 & S2). pose proof (built_base _ _ _ Hb1 T2) as Hb2.
  pose proof (int_cfg_built _ _ _ _ _ _ _ (base_d _ _ Hb1) T2 C1) as C2. pose proof (mspec_built _ _ _ _ _ _ _ _ _ (base_d _ _ Hb1) T2 S1) as S1'.
  destruct (fp_build_mont_ok md l icfg n p _ r h2 Hn Hp Fv Hrn Hb2 C2) as (c & h3 & E3 & T3 & S3). pose proof (built_base _ _ _ Hb2 T3) as Hb3.
  pose proof (int_cfg_built _ _ _ _ _ _ _ (base_d _ _ Hb2) T3 C2) as C3. pose proof (mspec_built _ _ _ _ _ _ _ _ _ (base_d _ _ Hb2) T3 S1') as S1''.
  pose proof (mspec_built _ _ _ _ _ _ _ _ _ (base_d _ _ Hb2) T3 S2) as S2'.
  destruct (fp_build_mul_ok md l icfg n (Z.of_N p) _ r (fp_r2 r) c h3 Hn ltac:(rewrite Hr2; cbn; destruct Hf; lia) Hb3 C3 S3) as (d & h4 & E4 & T4 & S4).
  pose proof (int_cfg_built _ _ _ _ _ _ _ (base_d _ _ Hb3) T4 C3) as C4. pose proof (mspec_built _ _ _ _ _ _ _ _ _ (base_d _ _ Hb3) T4 S1'') as A4.
  pose proof (mspec_built _ _ _ _ _ _ _ _ _ (base_d _ _ Hb3) T4 S2') as B4. pose proof (mspec_built _ _ _ _ _ _ _ _ _ (base_d _ _ Hb3) T4 S3) as M4.
  eexists _, h4, v. split.
  { unfold fp_config_new. cbn zeta. unfold st_lift. rewrite Ev. unfold st_bind at 1. cbn [fst snd].
    assert (Eb : big_sub (fp_r r) (Z.to_N v) h = (Ok (fp_r r - Z.to_N v), h)).
    { unfold big_sub. rewrite (proj2 (N.leb_le _ _)); [done|]. apply N2Z.inj_le. rewrite fp_r_two_p. lia. }
    rewrite (st_bind_ok _ _ _ _ _ Eb), (st_bind_ok _ _ _ _ _ E1), (st_bind_ok _ _ _ _ _ E2), (st_bind_ok _ _ _ _ _ E3), (st_bind_ok _ _ _ _ _ E4). reflexivity. }
  split; [eapply built_trans; [exact T1|]; eapply built_trans; [exact T2|]; eapply built_trans; [exact T3|exact T4]|].
  split.
  { split; cbn; [done|done|done|done| |done]. eapply mspec_eq; [exact S4|]. intros bits _. cbn beta. rewrite Hr2. rewrite Z.mul_0_r, fp_montn_0 by done. done. }
  split; [done|]. split; [done|]. split; [done|]. split; [done|]. split; [by rewrite <- fp_r_two_p|]. cbn [fc_p_minus_inv]. rewrite N2Z.inj_sub; [rewrite fp_r_two_p; lia|].
  apply N2Z.inj_le. rewrite fp_r_two_p. lia.
Qed.

(** * Values *)
(** The sum as the circuit reduces it: a sum equal to the modulus is left alone. *)
Definition fp_reduce (p s : Z) : Z := (if s <? 0 then s + p else if p <? s then s - p else s)%Z.
Lemma fp_addz_reduce n p a b : (0 < n)%nat -> (0 <= p)%Z -> (2 * p <= two_p (n - 1))%Z -> (- p <= a + b < two_p (n - 1))%Z -> fp_addz n p a b = fp_reduce p (a + b).
Proof.
  intros Hn Hp Hp2 Hs. set (s := (a + b)%Z) in *. pose proof (two_p_pos (n - 1)) as H0.
  assert (Hz : zeq n s p = (s =? p)%Z). { apply cmp_equal_signed; [done|..]; replace (2 ^ (Z.of_nat n - 1))%Z with (two_p (n - 1)) by (unfold two_p; f_equal; lia); lia. }
  unfold fp_addz. fold s. cbn zeta. rewrite Hz. unfold zless. rewrite !signed_id by lia. unfold fp_reduce. rewrite Z.sub_0_r.
  destruct (Z.ltb_spec s 0), (Z.ltb_spec (s - p) 0), (Z.ltb_spec p s), (Z.eqb_spec s p); cbn [orb negb Z.b2z]; lia.
Qed.

(** * C46 *)
(** The module [mid] evaluates to [F] on operands satisfying [P]. *)
Definition arith2_on (P : Z -> Z -> Prop) (h : heap) (l : nat) (mid : N) (n n_out : nat) (F : Z -> Z -> list bool) : Prop :=
  exists l', get_module h l mid = Ok l' /\ inputs_of h l' = Ok (N.of_nat (n + n)) /\ outputs_of h l' = Ok (N.of_nat n_out) /\
  forall md, exists depth, forall fuel a b, (depth <= fuel)%nat -> P a b -> eval_output md h fuel l' (zbits n a ++ zbits n b) = Ok (F a b).
Lemma mspec_arith2_on (P : Z -> Z -> Prop) h l mid n G F : dinv h -> mspec l h l mid (n + n) n (fun bits => zbits n (G (zval (take n bits)) (zval (drop n bits)))) ->
  (forall a b, P a b -> eqn n (G (a mod two_p n)%Z (b mod two_p n)%Z) (F a b)) -> arith2_on P h l mid n n (fun a b => zbits n (F a b)).
Proof.
  intros D Hm HF. destruct (mspec_evaluates _ _ _ _ _ _ _ D Hm) as (l' & Hl & Hi & Ho & Hv). exists l'. split; [done|]. split; [done|]. split; [done|].
  intros md. destruct (Hv md) as [d Hd]. exists d. intros fuel a b Hf HP. rewrite Hd; [|done|by rewrite app_length, !zbits_length].
  destruct (zval_halves n a b) as [-> ->]. f_equal. apply zbits_inj. by apply HF.
Qed.
(** A configuration for integers, and from it one for the field. *)
Definition fp_setup (md : mode) (l n : nat) (p : N) (r : nat) : M fp_config := icfg <- int_config_new md l n ;; fp_config_new md l icfg n p r.
Lemma fp_setup_ok md h l n p r : fp_fits n p r -> base h l ->
  exists cfg h' v, fp_setup md l n p r h = (Ok cfg, h') /\ built h l h' /\ fp_cfg l h' l cfg n /\ fc_p cfg = p /\ fc_r_exp cfg = r /\
    fc_r2 cfg = 0 /\ mod_inv (Z.of_N p) (two_p r) = Ok v /\ Z.of_N (fc_p_minus_inv cfg) = (two_p r - v)%Z.
Proof.
  intros Hf Hb. assert (Hn : (0 < n)%nat) by (destruct Hf; lia). destruct (int_config_new_ok md h l n Hn Hb) as (icfg & h1 & E1 & T1 & C1).
  destruct (fp_config_new_ok md h1 l icfg n p r Hf (built_base _ _ _ Hb T1) C1) as (cfg & h' & v & E & T & C & _ & Hp & Hr & Hr2 & Hv & Hi). exists cfg, h', v.
  split; [unfold fp_setup; by rewrite (st_bind_ok _ _ _ _ _ E1)|]. split; [by eapply built_trans|]. done.
Qed.
Definition below (p : Z) (a b : Z) : Prop := (0 <= a < p /\ 0 <= b < p)%Z.
Theorem C46_add md h l n p r : fp_fits n p r -> base h l -> (2 * Z.of_N p <= 2 ^ (Z.of_nat n - 1))%Z ->
  exists cfg h', fp_setup md l n p r h = (Ok cfg, h') /\ built h l h' /\
    arith2_on (below (Z.of_N p)) h' l (fc_add cfg) n n (fun a b => zbits n (if a + b =? Z.of_N p then Z.of_N p else (a + b) mod Z.of_N p)%Z).
Proof.
  intros Hf Hb Hp. assert (Hn : (0 < n)%nat) by (destruct Hf; lia). replace (2 ^ (Z.of_nat n - 1))%Z with (two_p (n - 1)) in Hp by (unfold two_p; f_equal; lia).
  assert (E : (two_p n = 2 * two_p (n - 1))%Z) by (replace n with (S (n - 1)) at 1 by lia; apply two_p_S).
  destruct (fp_setup_ok md h l n p r Hf Hb) as (cfg & h' & v & Es & T & C & Ep & _). exists cfg, h'. split; [done|]. split; [done|].
  eapply (mspec_arith2_on _ _ _ _ _ (fp_addz n (Z.of_N p))); [apply T|rewrite <- Ep; apply C|]. intros a b [Ha Hb']. cbn beta.
  rewrite !Z.mod_small by lia. rewrite fp_addz_reduce by lia. unfold fp_reduce, eqn. f_equal.
  rewrite (proj2 (Z.ltb_ge (a + b) 0)) by lia. destruct (Z.eqb_spec (a + b) (Z.of_N p)) as [-> |Hne]; [by rewrite Z.ltb_irrefl|].
  destruct (Z.ltb_spec (Z.of_N p) (a + b)); [|rewrite Z.mod_small; lia]. rewrite <- (Z_mod_plus_full (a + b) (-1)), Z.mod_small; lia.
Qed.
Theorem C46_sub md h l n p r : fp_fits n p r -> base h l -> (2 * Z.of_N p <= 2 ^ (Z.of_nat n - 1))%Z ->
  exists cfg h', fp_setup md l n p r h = (Ok cfg, h') /\ built h l h' /\
    arith2_on (below (Z.of_N p)) h' l (fc_sub cfg) n n (fun a b => zbits n ((a - b) mod Z.of_N p)).
Proof.
  intros Hf Hb Hp. assert (Hn : (0 < n)%nat) by (destruct Hf; lia). replace (2 ^ (Z.of_nat n - 1))%Z with (two_p (n - 1)) in Hp by (unfold two_p; f_equal; lia).
  assert (E : (two_p n = 2 * two_p (n - 1))%Z) by (replace n with (S (n - 1)) at 1 by lia; apply two_p_S).
  destruct (fp_setup_ok md h l n p r Hf Hb) as (cfg & h' & v & Es & T & C & Ep & _). exists cfg, h'. split; [done|]. split; [done|].
  eapply (mspec_arith2_on _ _ _ _ _ (fun a b => fp_addz n (Z.of_N p) a (- b))); [apply T|rewrite <- Ep; apply C|]. intros a b [Ha Hb']. cbn beta.
  rewrite !Z.mod_small by lia. rewrite fp_addz_reduce by lia. unfold fp_reduce, eqn. f_equal.
  rewrite (proj2 (Z.ltb_ge (Z.of_N p) (a + - b))) by lia. destruct (Z.ltb_spec (a + - b) 0); [|rewrite Z.mod_small; lia].
  rewrite <- (Z_mod_plus_full (a - b) 1), Z.mod_small; lia.
Qed.
(** Modulus 13 on 8 bits: 9 + 7 = 3, 9 + 4 = 13 (not 0), 4 - 9 = 8. *)
Example C46_example : fp_fits 8 13 4 /\ base blank1 0 /\ (2 * 13 <= 2 ^ (Z.of_nat 8 - 1))%Z /\
  try_module (cfg <- fp_setup Debug 0 8 13 4 ;; st_ret (fc_add cfg)) blank1 0 200 (zbits 8 9 ++ zbits 8 7) = Some (zbits 8 3) /\
  try_module (cfg <- fp_setup Debug 0 8 13 4 ;; st_ret (fc_add cfg)) blank1 0 200 (zbits 8 9 ++ zbits 8 4) = Some (zbits 8 13) /\
  try_module (cfg <- fp_setup Debug 0 8 13 4 ;; st_ret (fc_sub cfg)) blank1 0 200 (zbits 8 4 ++ zbits 8 9) = Some (zbits 8 8).
Proof.
  split; [split; [lia|]; split; [done|]; left; cbn; lia|]. split; [apply fresh_base, fresh_blank1|]. split; [done|]. split; [|split]; vm_compute; reflexivity.
Qed.

(** * C48 *)
(** [r2] is zero whatever the exponent. *)
Theorem C48_r2 r : fp_r2 r = 0.
Proof. unfold fp_r2. apply N.mod_mul. rewrite fp_r_pow. by apply N.pow_nonzero. Qed.
(** The multiplier ignores its operands: it gives zero, or for moduli above [2^(n-1)] the number [2^n - p]. *)
Theorem C48_mul md h l n p r : fp_fits n p r -> base h l -> exists cfg h', fp_setup md l n p r h = (Ok cfg, h') /\ built h l h' /\ fc_r2 cfg = 0 /\
  arith2 h' l (fc_mul cfg) n n (fun _ _ => zbits n (if Z.of_N p <=? 2 ^ (Z.of_nat n - 1) then 0 else 2 ^ Z.of_nat n - Z.of_N p)%Z).
Proof.
  intros Hf Hb. assert (Hn : (0 < n)%nat) by (destruct Hf; lia). replace (2 ^ (Z.of_nat n - 1))%Z with (two_p (n - 1)) by (unfold two_p; f_equal; lia).
  destruct (fp_setup_ok md h l n p r Hf Hb) as (cfg & h' & v & Es & T & C & Ep & _ & Hr2 & _). exists cfg, h'. split; [done|]. split; [done|]. split; [done|].
  pose proof (fk_mul _ _ _ _ _ C) as Hm. rewrite Ep in Hm.
  eapply (mspec_arith2 h' l _ n n (fun _ _ => zbits n (fp_mulc n (Z.of_N p)))); [apply T|exact Hm|]. intros _ _. apply zbits_inj. unfold fp_mulc.
  destruct (Z.of_N p <=? two_p (n - 1))%Z; [done|]. fold (two_p n). rewrite <- (Z_mod_plus_full (- Z.of_N p) 1). f_equal. lia.
Qed.
(** 5 * 7 on modulus 13 gives 0, and on modulus 201 (above 128) gives 55. *)
Example C48_example : fp_fits 8 13 4 /\ fp_fits 8 201 4 /\ base blank1 0 /\
  try_module (cfg <- fp_setup Debug 0 8 13 4 ;; st_ret (fc_mul cfg)) blank1 0 200 (zbits 8 5 ++ zbits 8 7) = Some (zbits 8 0) /\
  try_module (cfg <- fp_setup Debug 0 8 201 4 ;; st_ret (fc_mul cfg)) blank1 0 200 (zbits 8 5 ++ zbits 8 7) = Some (zbits 8 55).
Proof.
  split; [split; [lia|]; split; [done|]; left; cbn; lia|]. split; [split; [lia|]; split; [done|]; left; cbn; lia|].
  split; [apply fresh_base, fresh_blank1|]. split; vm_compute; reflexivity.
Qed.

(** * C49 *)
(** The number that is added and the shifted sum of Montgomery's reduction of [val], with [pmi] for [- 1 / p] modulo [2^r]. *)
Definition redc_sum (r : nat) (p pmi val : Z) : Z := (val + ((val * pmi) mod 2 ^ Z.of_nat r) * p)%Z.
Definition redc_t (r : nat) (p pmi val : Z) : Z := (redc_sum r p pmi val / 2 ^ Z.of_nat r)%Z.
Theorem C49_mont_red md h l n p r : fp_fits n p r -> base h l -> (Z.of_N p <= 2 ^ (Z.of_nat n - 1))%Z ->
  exists cfg h' v l', fp_setup md l n p r h = (Ok cfg, h') /\ built h l h' /\ mod_inv (Z.of_N p) (2 ^ Z.of_nat r) = Ok v /\
    get_module h' l (fc_mont_red cfg) = Ok l' /\ inputs_of h' l' = Ok (N.of_nat n) /\ outputs_of h' l' = Ok (N.of_nat n) /\
    forall md', exists depth, forall fuel val, (depth <= fuel)%nat -> (0 <= val)%Z -> let pmi := (2 ^ Z.of_nat r - v)%Z in
      (redc_sum r (Z.of_N p) pmi val < 2 ^ (Z.of_nat n - 1))%Z ->
      eval_output md' h' fuel l' (zbits n val) =
        Ok (zbits n (if Z.of_N p <=? redc_t r (Z.of_N p) pmi val then redc_t r (Z.of_N p) pmi val - Z.of_N p else - redc_t r (Z.of_N p) pmi val)%Z).
Proof.
  intros Hf Hb Hp. assert (Hn : (0 < n)%nat) by (destruct Hf; lia). replace (2 ^ (Z.of_nat n - 1))%Z with (two_p (n - 1)) in * by (unfold two_p; f_equal; lia).
  assert (E : (two_p n = 2 * two_p (n - 1))%Z) by (replace n with (S (n - 1)) at 1 by lia; apply two_p_S).
  destruct (fp_setup_ok md h l n p r Hf Hb) as (cfg & h' & v & Es & T & C & Ep & Er & Hr2 & Ev & Hpmi). pose proof (fk_mont _ _ _ _ _ C) as Hm.
  rewrite Ep, Er, Hpmi in Hm. destruct (mspec_evaluates _ _ _ _ _ _ _ ltac:(apply T) Hm) as (l' & Hl & Hi & Ho & Hv). exists cfg, h', v, l'.
  do 6 (split; [done|]). intros md'. destruct (Hv md') as [d Hd]. exists d. intros fuel val Hfu H0. fold (two_p r). set (pmi := (two_p r - v)%Z). cbn zeta. intros Hs.
  rewrite Hd by (done || by rewrite zbits_length). f_equal. f_equal. unfold fp_montz, mont_t. fold pmi. pose proof (two_p_pos r) as Hr.
  assert (Hm0 : (0 <= (val * pmi) mod two_p r * Z.of_N p)%Z). { apply Z.mul_nonneg_nonneg; [apply Z.mod_pos_bound; lia|lia]. }
  unfold redc_sum in Hs. fold (two_p r) in Hs. rewrite zval_small by lia.
  assert (Hsg : signed n (val + (val * pmi) mod two_p r * Z.of_N p) = (val + (val * pmi) mod two_p r * Z.of_N p)%Z) by (apply signed_id; lia).
  rewrite Hsg. unfold redc_t, redc_sum. fold (two_p r). set (t := ((val + (val * pmi) mod two_p r * Z.of_N p) / two_p r)%Z).
  assert (Ht : (0 <= t < two_p (n - 1))%Z).
  { unfold t. split; [apply Z.div_pos; lia|]. apply Z.le_lt_trans with (val + (val * pmi) mod two_p r * Z.of_N p)%Z; [|lia]. apply Z.div_le_upper_bound; nia. }
  unfold zless. rewrite signed_id by lia. destruct (Z.ltb_spec (t - Z.of_N p) 0), (Z.leb_spec (Z.of_N p) t); cbn [negb Z.b2z]; lia.
Qed.
(** For an odd modulus the shifted sum is exact and is a representative of [val / 2^r] modulo [p], below [2 * p] when [val < p * 2^r]. So the circuit is
    right when [t >= p]; *)
Theorem C49_montgomery p r v val : Z.odd p = true -> (0 < p)%Z -> (1 <= r)%nat -> mod_inv p (2 ^ Z.of_nat r) = Ok v -> (0 <= val)%Z ->
  let t := redc_t r p (2 ^ Z.of_nat r - v) val in
  (t * 2 ^ Z.of_nat r = redc_sum r p (2 ^ Z.of_nat r - v) val /\ (t * 2 ^ Z.of_nat r) mod p = val mod p /\ ((t - p) * 2 ^ Z.of_nat r) mod p = val mod p /\
  (val < p * 2 ^ Z.of_nat r -> 0 <= t < 2 * p))%Z.
Proof.
  intros Ho Hp Hr Ev H0. destruct (C50_montgomery p (Z.of_nat r)) as (v' & Ev' & Hv & Hi & Hq & Hpm); [lia|done|lia|]. rewrite Ev in Ev'. injection Ev' as <-.
  fold (two_p r) in *. set (pmi := (two_p r - v)%Z) in *. pose proof (two_p_pos r) as Hpos. cbn zeta.
  assert (Hx : (redc_sum r p pmi val mod two_p r = 0)%Z).
  { unfold redc_sum. fold (two_p r). rewrite (Z.mod_eq (val * pmi)) by lia. pose proof (Z.div_mod (p * pmi) (two_p r) ltac:(lia)) as Hd. rewrite Hpm in Hd.
    replace (val + (val * pmi - two_p r * (val * pmi / two_p r)) * p)%Z with (val + val * (p * pmi) - two_p r * (val * pmi / two_p r) * p)%Z by ring. rewrite Hd.
    match goal with |- (?x mod _ = 0)%Z => replace x with ((val * (p * pmi / two_p r) + val - val * pmi / two_p r * p) * two_p r)%Z by ring end. apply Z_mod_mult. }
  assert (Ht : (redc_t r p pmi val * two_p r = redc_sum r p pmi val)%Z).
  { unfold redc_t. fold (two_p r). rewrite Z.mul_comm. symmetry. apply Z_div_exact_full_2; [lia|done]. }
  assert (Hm : ((redc_t r p pmi val * two_p r) mod p = val mod p)%Z). { rewrite Ht. unfold redc_sum. apply Z_mod_plus_full. }
  split; [done|]. split; [done|]. split.
  - rewrite Z.mul_sub_distr_r. rewrite (Z.mul_comm p). rewrite <- (Z_mod_plus_full _ (two_p r) p). rewrite <- Hm. f_equal. ring.
  - intros Hval. assert (Hmm : (0 <= (val * pmi) mod two_p r < two_p r)%Z) by (apply Z.mod_pos_bound; lia).
    unfold redc_sum in Ht. fold (two_p r) in Ht. nia.
Qed.
(** and wrong when [0 < t < p]: the result, read as an unsigned number, is not below [p]. *)
Theorem C49_not_reduced n p t : (1 <= n)%nat -> (p <= 2 ^ (Z.of_nat n - 1))%Z -> (0 < t < p)%Z -> (zval (zbits n (- t)) = 2 ^ Z.of_nat n - t /\ p < zval (zbits n (- t)))%Z.
Proof.
  intros Hn Hp Ht. rewrite zval_zbits. replace (2 ^ (Z.of_nat n - 1))%Z with (two_p (n - 1)) in * by (unfold two_p; f_equal; lia). fold (two_p n).
  assert (E : (two_p n = 2 * two_p (n - 1))%Z) by (replace n with (S (n - 1)) at 1 by lia; apply two_p_S).
  rewrite <- (Z_mod_plus_full (- t) 1), Z.mod_small by lia. lia.
Qed.
(** Modulus 5 and 2^r = 16: the reduction of 8 has t = 3 < 5 and comes out as -3; that of 77 has t = 7 and comes out as 2. *)
Example C49_example : fp_fits 8 5 4 /\ base blank1 0 /\ mod_inv 5 16 = Ok 13%Z /\ redc_sum 4 5 3 8 = 48%Z /\ redc_t 4 5 3 8 = 3%Z /\
  redc_sum 4 5 3 77 = 112%Z /\ redc_t 4 5 3 77 = 7%Z /\
  try_module (cfg <- fp_setup Debug 0 8 5 4 ;; st_ret (fc_mont_red cfg)) blank1 0 200 (zbits 8 8) = Some (zbits 8 (-3)) /\
  try_module (cfg <- fp_setup Debug 0 8 5 4 ;; st_ret (fc_mont_red cfg)) blank1 0 200 (zbits 8 77) = Some (zbits 8 2).
Proof.
  split; [split; [lia|]; split; [done|]; left; cbn; lia|]. split; [apply fresh_base, fresh_blank1|]. repeat split; vm_compute; reflexivity.
Qed.

(** The constant that [AllocFpConfig::new] stores, and hands to the circuit of C49, is the one Montgomery's reduction needs (C50). *)
Theorem C50_config md h l n p r : fp_fits n p r -> base h l -> N.odd p = true -> (1 <= r)%nat ->
  exists cfg h', fp_setup md l n p r h = (Ok cfg, h') /\ fc_p cfg = p /\ fc_r_exp cfg = r /\ (0 < fc_p_minus_inv cfg <= 2 ^ N.of_nat r)%N /\
    ((p * fc_p_minus_inv cfg) mod 2 ^ N.of_nat r = 2 ^ N.of_nat r - 1)%N.
Proof.
  intros Hf Hb Ho Hr. destruct (fp_setup_ok md h l n p r Hf Hb) as (cfg & h' & v & Es & _ & _ & Ep & Er & _ & Ev & Hpmi). exists cfg, h'.
  do 3 (split; [done|]). destruct (C50_montgomery (Z.of_N p) (Z.of_nat r)) as (v' & Ev' & Hv & _ & Hq & Hm); [lia|by destruct p as [|[q|q|] ]|lia|].
  fold (two_p r) in *. rewrite Ev in Ev'. injection Ev' as <-. rewrite <- Hpmi in Hm, Hq.
  assert (E2 : Z.of_N (2 ^ N.of_nat r) = two_p r) by (rewrite N2Z.inj_pow, nat_N_Z; done). split; [lia|].
  apply N2Z.inj. rewrite N2Z.inj_mod, N2Z.inj_mul, E2, Hm, N2Z.inj_sub, E2; [done|]. pose proof (two_p_pos r). lia.
Qed.
Example C50_config_example : fp_fits 8 13 4 /\ base blank1 0 /\
  fst ((cfg <- fp_setup Debug 0 8 13 4 ;; st_ret (fc_p_minus_inv cfg)) blank1) = Ok 11 /\ ((13 * 11) mod 16 = 15)%N.
Proof.
  split; [split; [lia|]; split; [done|]; left; cbn; lia|]. split; [apply fresh_base, fresh_blank1|]. split; [|done]. vm_compute. reflexivity.
Qed.

(** * Field expressions *)
Inductive fexp := FVar (k : nat) | FBig (v : N) | FZero | FOne | FAdd (e1 e2 : fexp) | FSub (e1 e2 : fexp) | FMul (e1 e2 : fexp) | FNeg (e : fexp).
Fixpoint fbuild (md : mode) (cfg : fp_config) (n : nat) (vars : list afp) (e : fexp) : M afp :=
  match e with
  | FVar k => st_nth vars k
  | FBig v => fp_from_biguint v cfg n
  | FZero => fp_zero cfg n
  | FOne => fp_one cfg n
  | FAdd e1 e2 => x <- fbuild md cfg n vars e1 ;; y <- fbuild md cfg n vars e2 ;; fp_add md x y n
  | FSub e1 e2 => x <- fbuild md cfg n vars e1 ;; y <- fbuild md cfg n vars e2 ;; fp_sub md x y n
  | FMul e1 e2 => x <- fbuild md cfg n vars e1 ;; y <- fbuild md cfg n vars e2 ;; fp_mul md x y n
  | FNeg e => x <- fbuild md cfg n vars e ;; fp_neg md x n
  end.
(** Programs: configure, allocate [m] variables as inputs, build, and output the value, or the bit of [eq]. *)
Definition fp_program (md : mode) (l n : nat) (p : N) (r m : nat) (e : fexp) : M unit :=
  cfg <- fp_setup md l n p r ;; vars <- st_mapM (fun _ => fp_new cfg n) (seq 0 m) ;; z <- fbuild md cfg n vars e ;; fp_output z n.
Definition fp_test (md : mode) (l n : nat) (p : N) (r m : nat) (e1 e2 : fexp) : M unit :=
  cfg <- fp_setup md l n p r ;; vars <- st_mapM (fun _ => fp_new cfg n) (seq 0 m) ;; x <- fbuild md cfg n vars e1 ;; y <- fbuild md cfg n vars e2 ;;
  g <- fp_eq md x y n ;; b_output l g.
(** What is computed, modulo [2^n]. *)
Fixpoint fvaln (n : nat) (p : Z) (vs : list Z) (e : fexp) : Z :=
  match e with
  | FVar k => nth k vs 0
  | FBig v => Z.of_N v
  | FZero => 0
  | FOne => 1
  | FAdd e1 e2 => fp_addz n p (fvaln n p vs e1) (fvaln n p vs e2)
  | FSub e1 e2 => fp_addz n p (fvaln n p vs e1) (- fvaln n p vs e2)
  | FMul e1 e2 => fp_mulc n p
  | FNeg e => fp_addz n p 0 (- fvaln n p vs e)
  end%Z.
Record fp_val (h : heap) (l : nat) (cfg : fp_config) (n : nat) (x : afp) (X : (N -> bool) -> Z) : Prop := {
  fv_cfg : af_cfg x = cfg;
  fv_int : int_val h l (fc_int cfg) n (af_val x) X
}.
Lemma fp_val_ext h l cfg n x X h' : ext l h h' -> fp_val h l cfg n x X -> fp_val h' l cfg n x X.
Proof. intros Xt [H1 H2]. split; [done|by eapply int_val_ext]. Qed.
Lemma fp_call_ok f md p h l i os cfg n x y X Y V G : (0 < n)%nat -> bs p h l i os -> fp_cfg p h l cfg n -> fp_val h l cfg n x X -> fp_val h l cfg n y Y ->
  mspec p h l (f cfg) (n + n) n G -> (forall ρ, G (zbits n (X ρ) ++ zbits n (Y ρ)) = zbits n (V ρ)) ->
  exists z h', fp_call f md x y n h = (Ok z, h') /\ bs p h' l i os /\ ext l h h' /\ fp_cfg p h' l cfg n /\ fin_outs l h h' (ai_val (af_val z)) /\ fp_val h' l cfg n z V.
Proof.
  intros Hn B C [Cx Vx] [Cy Vy] Hm HV.
  destruct (int_module_ok md p h l i os (fc_int cfg) n (f cfg) (n + n) G (ai_val (af_val x) ++ ai_val (af_val y)) _ V Hn B (fk_int _ _ _ _ _ C) Hm
    (gfs_app _ _ _ _ _ _ (iv_val _ _ _ _ _ _ Vx) (iv_val _ _ _ _ _ _ Vy))) as (outs & h1 & z & h' & E1 & E2 & B' & X' & C' & Fo & V').
  { rewrite app_length, (iv_len _ _ _ _ _ _ Vx), (iv_len _ _ _ _ _ _ Vy). done. } { exact HV. }
  exists (AFp z cfg), h'. split.
  { unfold fp_call, fp_from_gate_ids. rewrite Cx, (fk_ref _ _ _ _ _ C), (st_bind_ok _ _ _ _ _ (expect_ok _ _ _ _ E1)), (st_bind_ok _ _ _ _ _ (expect_ok _ _ _ _ E2)). done. }
  split; [done|]. split; [done|]. split; [exact (fp_cfg_ext _ _ _ _ _ _ _ _ B X' C' C)|]. split; [apply Fo, ext_refl|]. split; done.
Qed.
Definition fvars_at (h : heap) (l : nat) (cfg : fp_config) (n : nat) (vars : list afp) (Vs : list ((N -> bool) -> Z)) : Prop := Forall2 (fp_val h l cfg n) vars Vs.
Lemma fvars_at_ext h l cfg n vars Vs h' : ext l h h' -> fvars_at h l cfg n vars Vs -> fvars_at h' l cfg n vars Vs.
Proof. intros X V. eapply Forall2_impl; [exact V|]. intros x X0 Hx. by eapply fp_val_ext. Qed.
Fixpoint fwf (m n : nat) (e : fexp) : Prop :=
  match e with
  | FVar k => (k < m)%nat
  | FBig v => fits v n
  | FZero | FOne => True
  | FAdd e1 e2 | FSub e1 e2 | FMul e1 e2 => fwf m n e1 /\ fwf m n e2
  | FNeg e => fwf m n e
  end.
Definition built_fexp (p : nat) (h : heap) (l : nat) (i : N) (os : list N) (cfg : fp_config) (n : nat) (vars : list afp) (z : afp) (h' : heap) (V : (N -> bool) -> Z) : Prop :=
  bs p h' l i os /\ ext l h h' /\ fp_cfg p h' l cfg n /\ fp_val h' l cfg n z V /\
  ((forall x g, x ∈ vars -> g ∈ ai_val (af_val x) -> free h l g) -> forall g, g ∈ ai_val (af_val z) -> free h' l g).
Lemma fcall_exp p h h1 l i os cfg n vars z h' V : ext l h h1 -> bs p h' l i os -> ext l h1 h' -> fp_cfg p h' l cfg n -> fin_outs l h1 h' (ai_val (af_val z)) ->
  fp_val h' l cfg n z V -> built_fexp p h l i os cfg n vars z h' V.
Proof.
  intros X B X1 C [_ Fo] V'. split; [done|]. split; [by eapply ext_trans|]. split; [done|]. split; [done|]. intros _ g Hg. by apply Fo.
Qed.
Lemma fpost_exp p h l i os cfg n vars z h' V : bs p h l i os -> fp_cfg p h l cfg n -> int_post p h l (fc_int cfg) n h' i os [] (ai_val z) -> int_val h' l (fc_int cfg) n z V ->
  built_fexp p h l i os cfg n vars (AFp z cfg) h' V.
Proof.
  intros B C (B' & M & C') V'. split; [done|]. split; [apply M|]. split; [exact (fp_cfg_ext _ _ _ _ _ _ _ _ B (mv_ext _ _ _ _ _ M) C' C)|]. split; [by split|].
  intros _ g Hg. by apply (mv_new _ _ _ _ _ M g Hg).
Qed.
Lemma zhalves_eqn (F : Z -> Z -> Z) n a b : (forall a a' b b', eqn n a a' -> eqn n b b' -> eqn n (F a b) (F a' b')) ->
  zbits n (F (zval (take n (zbits n a ++ zbits n b))) (zval (drop n (zbits n a ++ zbits n b)))) = zbits n (F a b).
Proof. intros H. destruct (zval_halves n a b) as [-> ->]. apply zbits_inj. apply H; apply eqn_mod. Qed.
Lemma eqn_opp n b b' : eqn n b b' -> eqn n (- b) (- b').
Proof. intros H. rewrite <- (Z.sub_0_l b), <- (Z.sub_0_l b'). apply eqn_sub; [apply eqn_refl|done]. Qed.
Lemma fp_subz_eqn n p a a' b b' : eqn n a a' -> eqn n b b' -> eqn n (fp_addz n p a (- b)) (fp_addz n p a' (- b')).
Proof. intros H1 H2. apply fp_addz_eqn; [done|by apply eqn_opp]. Qed.
Section fbuild.
Context (md : mode) (p l : nat) (i : N) (os : list N) (cfg : fp_config) (n : nat) (Hn : (0 < n)%nat).
Lemma fp_add_val h x y X Y : bs p h l i os -> fp_cfg p h l cfg n -> fp_val h l cfg n x X -> fp_val h l cfg n y Y ->
  exists z h', fp_add md x y n h = (Ok z, h') /\ bs p h' l i os /\ ext l h h' /\ fp_cfg p h' l cfg n /\ fin_outs l h h' (ai_val (af_val z)) /\
    fp_val h' l cfg n z (fun ρ => fp_addz n (Z.of_N (fc_p cfg)) (X ρ) (Y ρ)).
Proof using Hn.
  intros B C Vx Vy. eapply (fp_call_ok fc_add md p h l i os cfg n x y X Y); [done|done|done|done|done|apply C|]. intros ρ. cbn beta.
  apply (zhalves_eqn (fp_addz n (Z.of_N (fc_p cfg)))). intros a a' b b'. apply fp_addz_eqn.
Qed.
Lemma fp_sub_val h x y X Y : bs p h l i os -> fp_cfg p h l cfg n -> fp_val h l cfg n x X -> fp_val h l cfg n y Y ->
  exists z h', fp_sub md x y n h = (Ok z, h') /\ bs p h' l i os /\ ext l h h' /\ fp_cfg p h' l cfg n /\ fin_outs l h h' (ai_val (af_val z)) /\
    fp_val h' l cfg n z (fun ρ => fp_addz n (Z.of_N (fc_p cfg)) (X ρ) (- Y ρ)).
Proof using Hn.
  intros B C Vx Vy. eapply (fp_call_ok fc_sub md p h l i os cfg n x y X Y); [done|done|done|done|done|apply C|]. intros ρ. cbn beta.
  apply (zhalves_eqn (fun a b => fp_addz n (Z.of_N (fc_p cfg)) a (- b))). intros a a' b b'. apply fp_subz_eqn.
Qed.
Lemma fbuild_ok Vs : forall e vars h, bs p h l i os -> fp_cfg p h l cfg n -> fvars_at h l cfg n vars Vs -> fwf (length Vs) n e ->
  exists z h', fbuild md cfg n vars e h = (Ok z, h') /\ built_fexp p h l i os cfg n vars z h' (fun ρ => fvaln n (Z.of_N (fc_p cfg)) (zvars Vs ρ) e).
Proof using Hn.
  induction e as [k|v| | |e1 IH1 e2 IH2|e1 IH1 e2 IH2|e1 IH1 e2 IH2|e IH]; cbn [fwf fbuild fvaln]; intros vars h B C V Hw.
  - destruct (lookup_lt_is_Some_2 Vs k Hw) as [X HX]. destruct (Forall2_lookup_r _ _ _ _ _ V HX) as (x & Hx & Hb).
    exists x, h. split; [by apply st_nth_ok|]. split; [done|]. split; [apply ext_refl|]. split; [done|]. split.
    + destruct Hb as [H1 H2]. split; [done|]. eapply int_val_eq; [exact H2|]. intros ρ. unfold zvars. f_equal. symmetry. apply nth_lookup_Some. by rewrite list_lookup_fmap, HX.
    + intros Hf g Hg. eapply Hf; [by eapply elem_of_list_lookup_2|done].
  - apply iwf_big in Hw. destruct (int_biguint_ok p h l i os _ n Hn B (fk_int _ _ _ _ _ C) v Hw) as (z & h' & E & P & Vz). exists (AFp z cfg), h'.
    split; [unfold fp_from_biguint; by rewrite (st_bind_ok _ _ _ _ _ (expect_ok _ _ _ _ E))|]. by apply fpost_exp.
  - destruct (int_zero_ok p h l i os _ n Hn B (fk_int _ _ _ _ _ C)) as (z & h' & E & P & Vz). exists (AFp z cfg), h'.
    split; [unfold fp_zero; by rewrite (st_bind_ok _ _ _ _ _ E)|]. by apply fpost_exp.
  - destruct (int_one_ok p h l i os _ n Hn B (fk_int _ _ _ _ _ C)) as (z & h' & E & P & Vz). exists (AFp z cfg), h'.
    split; [unfold fp_one; by rewrite (st_bind_ok _ _ _ _ _ E)|]. by apply fpost_exp.
  - destruct Hw as [W1 W2]. destruct (IH1 vars h B C V W1) as (x & h1 & E1 & B1 & X1 & C1 & V1 & _).
    destruct (IH2 vars h1 B1 C1 (fvars_at_ext _ _ _ _ _ _ _ X1 V) W2) as (y & h2 & E2 & B2 & X2 & C2 & V2 & _).
    destruct (fp_add_val h2 x y _ _ B2 C2 (fp_val_ext _ _ _ _ _ _ _ X2 V1) V2) as (z & h' & E & B' & X' & C' & Fo & Vz). exists z, h'.
    rewrite (st_bind_ok _ _ _ _ _ E1), (st_bind_ok _ _ _ _ _ E2). split; [done|]. eapply fcall_exp; [eapply ext_trans; [exact X1|exact X2]|done..].
  - destruct Hw as [W1 W2]. destruct (IH1 vars h B C V W1) as (x & h1 & E1 & B1 & X1 & C1 & V1 & _).
    destruct (IH2 vars h1 B1 C1 (fvars_at_ext _ _ _ _ _ _ _ X1 V) W2) as (y & h2 & E2 & B2 & X2 & C2 & V2 & _).
    destruct (fp_sub_val h2 x y _ _ B2 C2 (fp_val_ext _ _ _ _ _ _ _ X2 V1) V2) as (z & h' & E & B' & X' & C' & Fo & Vz). exists z, h'.
    rewrite (st_bind_ok _ _ _ _ _ E1), (st_bind_ok _ _ _ _ _ E2). split; [done|]. eapply fcall_exp; [eapply ext_trans; [exact X1|exact X2]|done..].
  - destruct Hw as [W1 W2]. destruct (IH1 vars h B C V W1) as (x & h1 & E1 & B1 & X1 & C1 & V1 & _).
    destruct (IH2 vars h1 B1 C1 (fvars_at_ext _ _ _ _ _ _ _ X1 V) W2) as (y & h2 & E2 & B2 & X2 & C2 & V2 & _).
    destruct (fp_call_ok fc_mul md p h2 l i os cfg n x y _ _ (fun _ => fp_mulc n (Z.of_N (fc_p cfg))) _ Hn B2 C2 (fp_val_ext _ _ _ _ _ _ _ X2 V1) V2 (fk_mul _ _ _ _ _ C2)
      ltac:(done)) as (z & h' & E & B' & X' & C' & Fo & Vz). exists z, h'.
    rewrite (st_bind_ok _ _ _ _ _ E1), (st_bind_ok _ _ _ _ _ E2). split; [done|]. eapply fcall_exp; [eapply ext_trans; [exact X1|exact X2]|done..].
  - destruct (IH vars h B C V Hw) as (x & h1 & E1 & B1 & X1 & C1 & V1 & _).
    destruct (int_zero_ok p h1 l i os _ n Hn B1 (fk_int _ _ _ _ _ C1)) as (z0 & h2 & E2 & (B2 & M2 & C2') & V2).
    pose proof (fp_cfg_ext _ _ _ _ _ _ _ _ B1 (mv_ext _ _ _ _ _ M2) C2' C1) as C2.
    destruct (fp_sub_val h2 (AFp z0 cfg) x (fun _ => 0%Z) _ B2 C2 ltac:(by split) (fp_val_ext _ _ _ _ _ _ _ (mv_ext _ _ _ _ _ M2) V1))
      as (z & h' & E & B' & X' & C' & Fo & Vz). exists z, h'. split.
    { rewrite (st_bind_ok _ _ _ _ _ E1). unfold fp_neg. rewrite (fv_cfg _ _ _ _ _ _ V1).
      assert (E2' : fp_zero cfg n h1 = (Ok (AFp z0 cfg), h2)) by (unfold fp_zero; by rewrite (st_bind_ok _ _ _ _ _ E2)).
      by rewrite (st_bind_ok _ _ _ _ _ (expect_ok _ _ _ _ E2')). }
    eapply fcall_exp; [eapply ext_trans; [exact X1|apply M2]|done..].
Qed.
End fbuild.
Lemma mapM_fp_new {A} cfg n (xs : list A) h vs h' : st_mapM (fun _ => int_new (fc_int cfg) n) xs h = (Ok vs, h') ->
  st_mapM (fun _ => fp_new cfg n) xs h = (Ok (map (fun v => AFp v cfg) vs), h').
Proof.
  revert h vs. induction xs as [|x xs IH]; intros h vs; cbn [st_mapM].
  - intros [= <- <-]. done.
  - intros (v & h1 & E1 & E2)%bind_Ok. apply bind_Ok in E2 as (vs' & h2 & E2 & E3). injection E3 as <- <-.
    assert (E1' : fp_new cfg n h = (Ok (AFp v cfg), h1)) by (unfold fp_new; by rewrite (st_bind_ok _ _ _ _ _ E1)).
    by rewrite (st_bind_ok _ _ _ _ _ E1'), (st_bind_ok _ _ _ _ _ (IH _ _ E2)).
Qed.
Lemma fp_vars_ok p h l i os cfg n m : (0 < n)%nat -> bs p h l i os -> fp_cfg p h l cfg n ->
  exists vars h', st_mapM (fun _ => fp_new cfg n) (seq 0 m) h = (Ok vars, h') /\ bs p h' l (i + N.of_nat (m * n)) os /\ ext l h h' /\
    fp_cfg p h' l cfg n /\ fvars_at h' l cfg n vars (map (fun k ρ => zval (inb (i + N.of_nat (k * n)) n ρ)) (seq 0 m)) /\
    forall x g, x ∈ vars -> g ∈ ai_val (af_val x) -> free h' l g.
Proof.
  intros Hn B C. destruct (int_vars_ok p h l i os _ n m Hn B (fk_int _ _ _ _ _ C)) as (vars & h' & E & Hl & B' & X & C' & V & F).
  exists (map (fun v => AFp v cfg) vars), h'. split; [by apply mapM_fp_new|]. split; [done|]. split; [done|].
  split; [exact (fp_cfg_ext _ _ _ _ _ _ _ _ B X C' C)|]. split.
  - unfold fvars_at. apply Forall2_fmap_l. eapply Forall2_impl; [exact V|]. intros x X0 Hx. by split.
  - intros x g Hx Hg. apply elem_of_list_fmap in Hx as (v & -> & Hv). by eapply F.
Qed.
Lemma fvaln_eqn n p m vs vs' e : fwf m n e -> (forall k, (k < m)%nat -> eqn n (nth k vs 0%Z) (nth k vs' 0%Z)) -> eqn n (fvaln n p vs e) (fvaln n p vs' e).
Proof.
  intros Hw Hv. induction e; cbn [fwf fvaln] in *; try apply eqn_refl.
  - by apply Hv.
  - apply fp_addz_eqn; [apply IHe1; tauto|apply IHe2; tauto].
  - apply fp_subz_eqn; [apply IHe1; tauto|apply IHe2; tauto].
  - apply fp_subz_eqn; [apply eqn_refl|by apply IHe].
Qed.
Lemma vars_input n m vs : length vs = m ->
  let ws := zvars (map (fun k ρ => zval (inb (0 + N.of_nat (k * n)) n ρ)) (seq 0 m)) (wires (concat (map (zbits n) vs))) in
  length (concat (map (zbits n) vs)) = (m * n)%nat /\ forall k, (k < m)%nat -> eqn n (nth k ws 0%Z) (nth k vs 0%Z).
Proof.
  intros Hm. assert (Hvs : Forall (fun v => length v = n) (map (zbits n) vs)). { apply Forall_map, Forall_forall. intros. apply zbits_length. }
  split; [by rewrite (concat_length _ n), map_length, Hm|].
  pose proof (inb_concat _ n Hvs) as Hi. rewrite map_length, Hm in Hi.
  assert (Hz : zvars (map (fun k ρ => zval (inb (0 + N.of_nat (k * n)) n ρ)) (seq 0 m)) (wires (concat (map (zbits n) vs))) = map (fun v => v mod two_p n)%Z vs).
  { unfold zvars. rewrite map_map. apply (f_equal (map zval)) in Hi. rewrite !map_map in Hi. etrans; [exact Hi|]. apply map_ext. intros a. apply zval_zbits. }
  cbn zeta. rewrite Hz. intros k Hk. destruct (lookup_lt_is_Some_2 vs k) as [v Hv]; [lia|]. rewrite (nth_lookup_Some _ _ _ _ Hv).
  rewrite (nth_lookup_Some (map (fun v => v mod two_p n)%Z vs) k 0%Z (v mod two_p n)%Z) by (by rewrite list_lookup_fmap, Hv). apply eqn_mod.
Qed.
Lemma fp_program_ok md h l n p r m e : fp_fits n p r -> BuildEval.fresh h l -> fwf m n e ->
  exists h', fp_program md l n p r m e h = (Ok tt, h') /\ inputs_of h' l = Ok (N.of_nat (m * n)) /\ outputs_of h' l = Ok (N.of_nat n) /\
  forall md', exists depth, forall fuel vs, (depth <= fuel)%nat -> length vs = m ->
    eval_output md' h' fuel l (concat (map (zbits n) vs)) = Ok (zbits n (fvaln n (Z.of_N p) vs e)).
Proof.
  intros Hf Hfr Hw. assert (Hn : (0 < n)%nat) by (destruct Hf; lia). destruct (fp_setup_ok md h l n p r Hf (fresh_base _ _ Hfr)) as (cfg & h1 & v & E1 & T1 & C1 & Ep & _).
  pose proof (bs_built _ _ _ _ _ T1 (fresh_bs _ _ Hfr)) as B1.
  destruct (fp_vars_ok l h1 l 0 [] cfg n m Hn B1 C1) as (vars & h2 & E2 & B2 & X2 & C2 & V2 & F2).
  destruct (fbuild_ok md l l _ [] cfg n Hn _ e vars h2 B2 C2 V2) as (z & h3 & E3 & B3 & X3 & C3 & [_ V3] & F3); [by rewrite map_length, seq_length|].
  destruct (int_output_ok l h3 l _ [] _ n Hn B3 (fk_int _ _ _ _ _ C3) (af_val z) _ V3) as (h4 & E4 & B4 & M4 & C4).
  exists h4. split; [unfold fp_program; by rewrite (st_bind_ok _ _ _ _ _ E1), (st_bind_ok _ _ _ _ _ E2), (st_bind_ok _ _ _ _ _ E3)|].
  cbn [app] in B4. rewrite N.add_0_l in B4.
  assert (Ev : evaluates h4 l (m * n) n (fun bits => zbits n (fvaln n (Z.of_N p) (zvars (map (fun k ρ => zval (inb (0 + N.of_nat (k * n)) n ρ)) (seq 0 m)) (wires bits)) e))).
  { eapply bs_evaluates; [exact B4|exact (gfs_mv _ _ _ _ _ _ _ _ M4 (iv_val _ _ _ _ _ _ V3))| |apply V3|by rewrite Ep].
    apply Forall_forall. intros g Hg.
    eapply (mv_free _ _ _ _ _ M4); [eapply gfs_in; [apply V3|done]| |by intros []%elem_of_nil]. apply F3; [|done]. intros x g0 Hx Hg0. by eapply F2. }
  destruct Ev as (H1 & H2 & H3). split; [done|]. split; [done|]. intros md'. destruct (H3 md') as [depth Hd]. exists depth. intros fuel vs Hfu Hm.
  destruct (vars_input n m vs Hm) as [Hl Hv]. rewrite Hd by done. f_equal. apply zbits_inj. by apply (fvaln_eqn n _ m).
Qed.
Lemma fp_test_ok md h l n p r m e1 e2 : fp_fits n p r -> BuildEval.fresh h l -> fwf m n e1 -> fwf m n e2 ->
  exists h', fp_test md l n p r m e1 e2 h = (Ok tt, h') /\ inputs_of h' l = Ok (N.of_nat (m * n)) /\ outputs_of h' l = Ok 1 /\
  forall md', exists depth, forall fuel vs, (depth <= fuel)%nat -> length vs = m ->
    eval_output md' h' fuel l (concat (map (zbits n) vs)) = Ok [zeq n (fvaln n (Z.of_N p) vs e1) (fvaln n (Z.of_N p) vs e2)].
Proof.
  intros Hf Hfr Hw1 Hw2. assert (Hn : (0 < n)%nat) by (destruct Hf; lia).
  destruct (fp_setup_ok md h l n p r Hf (fresh_base _ _ Hfr)) as (cfg & h1 & v & E1 & T1 & C1 & Ep & _).
  pose proof (bs_built _ _ _ _ _ T1 (fresh_bs _ _ Hfr)) as B1.
  destruct (fp_vars_ok l h1 l 0 [] cfg n m Hn B1 C1) as (vars & h2 & E2 & B2 & X2 & C2 & V2 & _).
  destruct (fbuild_ok md l l _ [] cfg n Hn _ e1 vars h2 B2 C2 V2) as (x & h3 & E3 & B3 & X3 & C3 & V3 & _); [by rewrite map_length, seq_length|].
  destruct (fbuild_ok md l l _ [] cfg n Hn _ e2 vars h3 B3 C3 (fvars_at_ext _ _ _ _ _ _ _ X3 V2)) as (y & h4 & E4 & B4 & X4 & C4 & V4 & _); [by rewrite map_length, seq_length|].
  destruct (int_eq_ok md l h4 l _ [] _ n Hn B4 (fk_int _ _ _ _ _ C4) (af_val x) (af_val y) _ _ (fv_int _ _ _ _ _ _ (fp_val_ext _ _ _ _ _ _ _ X4 V3)) (fv_int _ _ _ _ _ _ V4))
    as (g & h5 & E5 & (B5 & M5 & C5) & F5).
  destruct (t_output _ _ _ _ _ g B5 (proj1 F5)) as (h6 & E6 & B6 & M6).
  exists h6. split.
  { unfold fp_test, b_output, fp_eq. by rewrite (st_bind_ok _ _ _ _ _ E1), (st_bind_ok _ _ _ _ _ E2), (st_bind_ok _ _ _ _ _ E3), (st_bind_ok _ _ _ _ _ E4), (st_bind_ok _ _ _ _ _ E5),
    (st_bind_ok _ _ _ _ _ E6). }
  cbn [app] in B6. rewrite N.add_0_l in B6. set (Vs := map (fun k ρ => zval (inb (0 + N.of_nat (k * n)) n ρ)) (seq 0 m)) in *.
  assert (Ev : evaluates h6 l (m * n) 1 (fun bits => [zeq n (fvaln n (Z.of_N p) (zvars Vs (wires bits)) e1) (fvaln n (Z.of_N p) (zvars Vs (wires bits)) e2)])).
  { eapply bs_evaluates; [exact B6|exact (gfs_mv _ _ _ _ _ _ _ _ M6 (proj1 (gfs_one _ _ _ _) F5))| |done|by rewrite Ep].
    apply Forall_singleton. eapply (mv_free _ _ _ _ _ M6); [apply F5| |by intros []%elem_of_nil]. apply (mv_new _ _ _ _ _ M5 g). by apply elem_of_list_singleton. }
  destruct Ev as (H1 & H2 & H3). split; [done|]. split; [done|]. intros md'. destruct (H3 md') as [depth Hd]. exists depth. intros fuel vs Hfu Hm.
  destruct (vars_input n m vs Hm) as [Hl Hv]. rewrite Hd by done. do 2 f_equal. apply zeq_eqn; by apply (fvaln_eqn n _ m).
Qed.

(** * C57 *)
(** The value of an expression over operands between [0] and [p], both included: [p] is a second zero, and products are zero. *)
Fixpoint fval (p : Z) (vs : list Z) (e : fexp) : Z :=
  match e with
  | FVar k => nth k vs 0
  | FBig v => Z.of_N v
  | FZero => 0
  | FOne => 1
  | FAdd e1 e2 => let s := fval p vs e1 + fval p vs e2 in if p <? s then s - p else s
  | FSub e1 e2 => let d := fval p vs e1 - fval p vs e2 in if d <? 0 then d + p else d
  | FMul e1 e2 => 0
  | FNeg e => if fval p vs e =? 0 then 0 else p - fval p vs e
  end%Z.
(** Its meaning in the ring of integers. *)
Fixpoint fring (vs : list Z) (e : fexp) : Z :=
  match e with
  | FVar k => nth k vs 0
  | FBig v => Z.of_N v
  | FZero => 0
  | FOne => 1
  | FAdd e1 e2 => fring vs e1 + fring vs e2
  | FSub e1 e2 => fring vs e1 - fring vs e2
  | FMul e1 e2 => fring vs e1 * fring vs e2
  | FNeg e => - fring vs e
  end%Z.
Fixpoint mul_free (e : fexp) : Prop :=
  match e with
  | FVar _ | FBig _ | FZero | FOne => True
  | FAdd e1 e2 | FSub e1 e2 => mul_free e1 /\ mul_free e2
  | FMul _ _ => False
  | FNeg e => mul_free e
  end.
(** Variables below [m] and constants at most [p]. *)
Fixpoint fok (m : nat) (p : N) (e : fexp) : Prop :=
  match e with
  | FVar k => (k < m)%nat
  | FBig v => v <= p
  | FZero | FOne => True
  | FAdd e1 e2 | FSub e1 e2 | FMul e1 e2 => fok m p e1 /\ fok m p e2
  | FNeg e => fok m p e
  end.
Definition in_field (p : Z) (vs : list Z) : Prop := Forall (fun v => 0 <= v <= p)%Z vs.
Lemma C57_range m p vs e : (1 <= p)%N -> fok m p e -> in_field (Z.of_N p) vs -> length vs = m -> (0 <= fval (Z.of_N p) vs e <= Z.of_N p)%Z.
Proof.
  intros Hp Hk Hv Hm. induction e; cbn [fok fval] in *; try lia.
  - destruct (lookup_lt_is_Some_2 vs k) as [v Hv']; [lia|]. rewrite (nth_lookup_Some _ _ _ _ Hv'). by apply (Forall_lookup_1 _ _ _ _ Hv Hv').
  - destruct Hk as [K1 K2]. specialize (IHe1 K1). specialize (IHe2 K2). cbn zeta. destruct (Z.ltb_spec (Z.of_N p) (fval (Z.of_N p) vs e1 + fval (Z.of_N p) vs e2)); lia.
  - destruct Hk as [K1 K2]. specialize (IHe1 K1). specialize (IHe2 K2). cbn zeta. destruct (Z.ltb_spec (fval (Z.of_N p) vs e1 - fval (Z.of_N p) vs e2) 0); lia.
  - specialize (IHe Hk). destruct (Z.eqb_spec (fval (Z.of_N p) vs e) 0); lia.
Qed.
Lemma fvaln_fval n m p vs e : (0 < n)%nat -> (1 <= p)%N -> (2 * Z.of_N p < two_p (n - 1))%Z -> fok m p e -> in_field (Z.of_N p) vs -> length vs = m ->
  fvaln n (Z.of_N p) vs e = fval (Z.of_N p) vs e.
Proof.
  intros Hn Hp Hp2 Hk Hv Hm. induction e; cbn [fok fval fvaln] in *; try done.
  - destruct Hk as [K1 K2]. rewrite IHe1, IHe2 by done. pose proof (C57_range m p vs e1 Hp K1 Hv Hm). pose proof (C57_range m p vs e2 Hp K2 Hv Hm).
    rewrite fp_addz_reduce by lia. unfold fp_reduce. by rewrite (proj2 (Z.ltb_ge _ 0)) by lia.
  - destruct Hk as [K1 K2]. rewrite IHe1, IHe2 by done. pose proof (C57_range m p vs e1 Hp K1 Hv Hm). pose proof (C57_range m p vs e2 Hp K2 Hv Hm).
    rewrite fp_addz_reduce by lia. unfold fp_reduce. rewrite Z.add_opp_r. rewrite (proj2 (Z.ltb_ge (Z.of_N p) _)) by lia. done.
  - unfold fp_mulc. rewrite (proj2 (Z.leb_le _ _)) by lia. done.
  - rewrite IHe by done. pose proof (C57_range m p vs e Hp Hk Hv Hm). rewrite fp_addz_reduce by lia. unfold fp_reduce. rewrite Z.add_0_l.
    rewrite (proj2 (Z.ltb_ge (Z.of_N p) _)) by lia. destruct (Z.ltb_spec (- fval (Z.of_N p) vs e) 0), (Z.eqb_spec (fval (Z.of_N p) vs e) 0); lia.
Qed.
Lemma fok_fwf m n p r e : fp_fits n p r -> fok m p e -> fwf m n e.
Proof.
  intros Hf. induction e; cbn [fok fwf]; try tauto. intros Hv. destruct Hf as (H1 & H2 & _). exists (n / 8)%nat. split; [apply Nat.div_le_lower_bound; lia|].
  split; [apply Nat.mul_div_le; lia|lia].
Qed.
(** Every expression, over operands and constants between [0] and [p], builds without an error, and the finished circuit evaluates to [fval]. *)
Theorem C57_expressions md h l n p r m e : fp_fits n p r -> BuildEval.fresh h l -> (1 <= p)%N -> (2 * Z.of_N p < 2 ^ (Z.of_nat n - 1))%Z -> fok m p e ->
  exists h', fp_program md l n p r m e h = (Ok tt, h') /\ inputs_of h' l = Ok (N.of_nat (m * n)) /\ outputs_of h' l = Ok (N.of_nat n) /\
  forall md', exists depth, forall fuel vs, (depth <= fuel)%nat -> length vs = m -> in_field (Z.of_N p) vs ->
    eval_output md' h' fuel l (concat (map (zbits n) vs)) = Ok (zbits n (fval (Z.of_N p) vs e)).
Proof.
  intros Hf Hfr Hp Hp2 Hk. assert (Hn : (0 < n)%nat) by (destruct Hf; lia). replace (2 ^ (Z.of_nat n - 1))%Z with (two_p (n - 1)) in Hp2 by (unfold two_p; f_equal; lia).
  destruct (fp_program_ok md h l n p r m e Hf Hfr (fok_fwf _ _ _ _ _ Hf Hk)) as (h' & E & Hi & Ho & Ev).
  exists h'. split; [done|]. split; [done|]. split; [done|]. intros md'. destruct (Ev md') as [d Hd]. exists d. intros fuel vs Hfu Hm Hv. rewrite Hd by done.
  by rewrite (fvaln_fval n m).
Qed.
(** Without products that value is right modulo [p]. *)
Theorem C57_ring p vs e : (1 <= p)%Z -> mul_free e -> (fval p vs e mod p = fring vs e mod p)%Z.
Proof.
  intros Hp Hf. induction e; cbn [mul_free fval fring] in *; try done.
  - destruct Hf as [F1 F2]. rewrite (Zplus_mod (fring vs e1)), <- IHe1, <- IHe2, <- Zplus_mod by done. cbn zeta. destruct (p <? _)%Z; [|done].
    rewrite <- (Z_mod_plus_full _ 1 p). f_equal. lia.
  - destruct Hf as [F1 F2]. rewrite (Zminus_mod (fring vs e1)), <- IHe1, <- IHe2, <- Zminus_mod by done. cbn zeta. destruct (_ <? 0)%Z; [|done].
    rewrite <- (Z_mod_plus_full (fval p vs e1 - fval p vs e2) 1 p). f_equal. lia.
  - rewrite <- (Z.sub_0_l (fring vs e)), Zminus_mod, <- IHe, <- Zminus_mod by done. destruct (Z.eqb_spec (fval p vs e) 0) as [-> |Hne]; [done|].
    rewrite <- (Z_mod_plus_full (0 - _) 1 p). f_equal. lia.
Qed.

(** * C47 *)
(** [(x + (-x)).eq(zero)] is false for every [x] but zero, although the ring value is zero. *)
Theorem C47_inverse md h l n p r : fp_fits n p r -> BuildEval.fresh h l -> (2 * Z.of_N p <= 2 ^ (Z.of_nat n - 1))%Z ->
  exists h', fp_test md l n p r 1 (FAdd (FVar 0) (FNeg (FVar 0))) FZero h = (Ok tt, h') /\ inputs_of h' l = Ok (N.of_nat n) /\ outputs_of h' l = Ok 1 /\
  forall md', exists depth, forall fuel a, (depth <= fuel)%nat -> (0 <= a < Z.of_N p)%Z -> eval_output md' h' fuel l (zbits n a) = Ok [(a =? 0)%Z].
Proof.
  intros Hf Hfr Hp2. assert (Hn : (0 < n)%nat) by (destruct Hf; lia). replace (2 ^ (Z.of_nat n - 1))%Z with (two_p (n - 1)) in Hp2 by (unfold two_p; f_equal; lia).
  destruct (fp_test_ok md h l n p r 1 (FAdd (FVar 0) (FNeg (FVar 0))) FZero Hf Hfr) as (h' & E & Hi & Ho & Ev); [cbn; lia|done|]. rewrite Nat.mul_1_l in Hi.
  exists h'. split; [done|]. split; [done|]. split; [done|]. intros md'. destruct (Ev md') as [d Hd]. exists d. intros fuel a Hfu Ha.
  specialize (Hd fuel [a] Hfu eq_refl). cbn [map concat] in Hd. rewrite app_nil_r in Hd. rewrite Hd. do 2 f_equal. cbn [fvaln nth].
  assert (E2 : (two_p n = 2 * two_p (n - 1))%Z) by (replace n with (S (n - 1)) at 1 by lia; apply two_p_S).
  rewrite (fp_addz_reduce n _ 0 (- a)) by lia.
  assert (Hr : fp_reduce (Z.of_N p) (0 + - a) = if (a =? 0)%Z then 0%Z else (Z.of_N p - a)%Z).
  { unfold fp_reduce. rewrite (proj2 (Z.ltb_ge (Z.of_N p) _)) by lia. destruct (Z.ltb_spec (0 + - a) 0), (Z.eqb_spec a 0); lia. }
  rewrite Hr, fp_addz_reduce by (destruct (Z.eqb_spec a 0); lia). unfold zeq, fp_reduce. rewrite (Z.mod_0_l (two_p n)) by lia.
  destruct (Z.eqb_spec a 0) as [-> |Hne].
  - rewrite Z.add_0_r. cbn [Z.ltb Z.compare]. rewrite (proj2 (Z.ltb_ge (Z.of_N p) 0)) by lia. rewrite Z.mod_0_l by lia. done.
  - replace (a + (Z.of_N p - a))%Z with (Z.of_N p) by lia. rewrite (proj2 (Z.ltb_ge _ 0)), Z.ltb_irrefl by lia. rewrite Z.mod_small by lia. apply Z.eqb_neq. lia.
Qed.
Example C47_example : fp_fits 8 13 4 /\ BuildEval.fresh blank1 0 /\
  try_program (fp_test Debug 0 8 13 4 1 (FAdd (FVar 0) (FNeg (FVar 0))) FZero) 300 (zbits 8 6) = Some [false] /\
  try_program (fp_test Debug 0 8 13 4 1 (FAdd (FVar 0) (FNeg (FVar 0))) FZero) 300 (zbits 8 0) = Some [true].
Proof. split; [split; [lia|]; split; [done|]; left; cbn; lia|]. split; [apply fresh_blank1|]. split; vm_compute; reflexivity. Qed.
(** (x - y) + -(3 + y) on modulus 13 with x = 4, y = 9: -5 - 12 = -17 = 9. *)
Definition fexp_demo : fexp := FAdd (FSub (FVar 0) (FVar 1)) (FNeg (FAdd (FBig 3) (FVar 1))).
Example C57_example : fp_fits 8 13 4 /\ BuildEval.fresh blank1 0 /\ fok 2 13 fexp_demo /\ in_field 13 [4; 9]%Z /\ (2 * 13 < 2 ^ (Z.of_nat 8 - 1))%Z /\
  fval 13 [4; 9]%Z fexp_demo = 9%Z /\ fring [4; 9]%Z fexp_demo = (-17)%Z /\
  try_program (fp_program Debug 0 8 13 4 2 fexp_demo) 300 (zbits 8 4 ++ zbits 8 9) = Some (zbits 8 9).
Proof.
  split; [split; [lia|]; split; [done|]; left; cbn; lia|]. split; [apply fresh_blank1|]. split; [cbn; lia|]. split; [repeat constructor; lia|]. split; [done|].
  repeat split; vm_compute; reflexivity.
Qed.
