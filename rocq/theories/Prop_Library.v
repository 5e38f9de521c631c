(** Properties C65 and C66: the shipped netlists as modules of other circuits. *)
From Verif Require Import Netlist ZBits Net_adder64 Net_sub64 Net_neg64 Net_mult2_64 Net_udivide64 Net_divide64 Net_aes128.
From Verif Require Import Prop_Arith64 Prop_Mult64 Prop_Div64 AesCheck Prop_Aes Prop_Design.
Open Scope Z_scope.
Open Scope list_scope.

(** * Netlists as modules *)
Definition nl_def (n : netlist) : mdef := DText (nl_text n).
Definition nl_sig (n : netlist) : nat * nat := (N.to_nat (nl_in n), N.to_nat (nl_out n)).
(** What [text_ok] asks about the number of outputs. *)
Definition nl_full (n : netlist) : bool := (0 <? nl_out n)%N && (nl_out n <=? N.of_nat (length (nl_gates n)))%N.
Lemma nl_module n f : nl_good n f -> nl_full n = true ->
  text_ok (nl_text n) /\ dsig [] (nl_def n) = nl_sig n /\ forall ins, length ins = N.to_nat (nl_in n) -> text_fun (nl_text n) ins = f ins.
Proof.
  intros (Hh & Hg & Hf) Hl. unfold nl_full in Hl. apply andb_true_iff in Hl as [Hl1 Hl2]. apply N.ltb_lt in Hl1. apply N.leb_le in Hl2.
  assert (parse_prog (nl_text n) = Some (nl_prog n)) as P.
  { apply nl_parse; [done|]. unfold gates_ok in Hg. apply andb_true_iff in Hg as [Hw Hg]. apply N.ltb_lt in Hw.
    destruct (ssa _ _ _ _) eqn:E; [|done]. eapply ssa_small; [| |exact E]; [done|]. lia. }
  assert (Ein : Bristol.nsum (pr_in (nl_prog n)) = nl_in n) by (unfold nl_in, nl_prog; by destruct (nl_head n) as [[[? ?] ?] ?]).
  assert (Eout : Bristol.nsum (pr_out (nl_prog n)) = nl_out n) by (unfold nl_out, nl_prog; by destruct (nl_head n) as [[[? ?] ?] ?]).
  assert (Ew : pr_wires (nl_prog n) = nl_wires n) by (unfold nl_wires, nl_prog; by destruct (nl_head n) as [[[? ?] ?] ?]).
  assert (El : pr_lines (nl_prog n) = map cg_line (nl_gates n)) by (unfold nl_prog; by destruct (nl_head n) as [[[? ?] ?] ?]).
  assert (Ru : forall inputs, N.of_nat (length inputs) = nl_in n -> run_prog EqCopies (nl_prog n) inputs = Some (f inputs)).
  { intros inputs Hi. destruct (nl_run n inputs Hh Hg Hi) as (v & Vi & Vs & ->). rewrite (Hf v Vs). by rewrite Vi. }
  pose proof (nl_out_le n Hh) as Ho. split; [|split].
  - exists (nl_prog n). split; [done|]. split; [rewrite Ru; [eauto|]; rewrite replicate_length, Ein; lia|]. split; [|rewrite Eout, El, map_length; done].
    intros gl w Hgl Hw Hx. apply elem_of_output_wires in Hx; [|done]. unfold gates_ok in Hg. apply andb_true_iff in Hg as [_ Hg].
    destruct (ssa _ _ _ _) eqn:E; [|done]. rewrite Ew, Eout in Hx. rewrite El in Hgl.
    assert ((w < nl_wires n - nl_out n)%N); [|lia]. eapply ssa_free; [exact E|exact Hgl|exact Hw].
  - unfold dsig, nl_def, nl_sig. by rewrite P, Ein, Eout.
  - intros ins Hi. unfold text_fun. rewrite P, Ru; [done|]. lia.
Qed.
(** A library of netlists. *)
Definition nl_ok (n : netlist) : Prop := exists f, nl_good n f /\ nl_full n = true.
Lemma nl_lib ns : Forall nl_ok ns -> forall sg fs, lwf sg (map nl_def ns) /\ sigs sg (map nl_def ns) = sg ++ map nl_sig ns /\
  funs fs (map nl_def ns) = fs ++ map (fun n => text_fun (nl_text n)) ns.
Proof.
  induction 1 as [|n ns (f & Hg & Hf) _ IH]; intros sg fs; cbn [map lwf sigs funs]; [by rewrite !app_nil_r|].
  destruct (nl_module n f Hg Hf) as (H1 & H2 & _). assert (Hd : dsig sg (nl_def n) = nl_sig n) by exact H2.
  destruct (IH (sg ++ [dsig sg (nl_def n)]) (fs ++ [dfun fs (nl_def n)])) as (I1 & I2 & I3).
  split; [done|]. rewrite I2, I3, Hd, <- !app_assoc. done.
Qed.
(** The value of a call. *)
Lemma nl_call ns j n f ins e : Forall nl_ok ns -> ns !! j = Some n -> nl_good n f -> nl_full n = true -> length (mval (funs [] (map nl_def ns)) ins e) = N.to_nat (nl_in n) ->
  mval (funs [] (map nl_def ns)) ins (MCall j e) = f (mval (funs [] (map nl_def ns)) ins e).
Proof.
  intros Ho Hj Hg Hf Hl. cbn [mval]. destruct (nl_lib ns Ho [] []) as (_ & _ & Hfs). rewrite Hfs at 1. cbn [app].
  rewrite (nth_lookup_Some _ _ _ (text_fun (nl_text n))) by (by rewrite list_lookup_fmap, Hj). by apply (nl_module n f Hg Hf).
Qed.

(** * C65: 64-bit words *)
(** Expressions over input words; the operations are modules read from the shipped netlists, except the bitwise ones, which are gates. *)
Inductive wexp :=
| WIn (k : nat) | WConst (z : Z) | WAdd (e1 e2 : wexp) | WSub (e1 e2 : wexp) | WNeg (e : wexp) | WMul (e1 e2 : wexp) | WMulHi (e1 e2 : wexp)
| WDivU (e1 e2 : wexp) | WDivS (e1 e2 : wexp) | WAnd (e1 e2 : wexp) | WOr (e1 e2 : wexp) | WXor (e1 e2 : wexp) | WNot (e : wexp).
(** The value of an expression, an integer from 0 to [2^64 - 1]. *)
Fixpoint wval (vs : list Z) (e : wexp) : Z :=
  match e with
  | WIn k => nth k vs 0 mod 2 ^ 64
  | WConst z => z mod 2 ^ 64
  | WAdd e1 e2 => (wval vs e1 + wval vs e2) mod 2 ^ 64
  | WSub e1 e2 => (wval vs e1 - wval vs e2) mod 2 ^ 64
  | WNeg e => (- wval vs e) mod 2 ^ 64
  | WMul e1 e2 => (wval vs e1 * wval vs e2) mod 2 ^ 64
  | WMulHi e1 e2 => wval vs e1 * wval vs e2 / 2 ^ 64
  | WDivU e1 e2 => if wval vs e2 =? 0 then 2 ^ 64 - 1 else wval vs e1 / wval vs e2
  | WDivS e1 e2 => let a := signed64 (wval vs e1) in let b := signed64 (wval vs e2) in (if b =? 0 then by_zero a else Z.quot a b) mod 2 ^ 64
  | WAnd e1 e2 => Z.land (wval vs e1) (wval vs e2)
  | WOr e1 e2 => Z.lor (wval vs e1) (wval vs e2)
  | WXor e1 e2 => Z.lxor (wval vs e1) (wval vs e2)
  | WNot e => 2 ^ 64 - 1 - wval vs e
  end.
(** A program of words: named words, which extend the inputs, then outputs. *)
Fixpoint wenv (vs : list Z) (lets : list wexp) : list Z := match lets with [] => vs | e :: lets => wenv (vs ++ [wval vs e]) lets end.
Definition wrun (vs : list Z) (lets outs : list wexp) : list Z := map (wval (wenv vs lets)) outs.
(** All names exist. *)
Fixpoint wwf (m : nat) (e : wexp) : Prop :=
  match e with
  | WIn k => (k < m)%nat
  | WConst _ => True
  | WNeg e | WNot e => wwf m e
  | WAdd e1 e2 | WSub e1 e2 | WMul e1 e2 | WMulHi e1 e2 | WDivU e1 e2 | WDivS e1 e2 | WAnd e1 e2 | WOr e1 e2 | WXor e1 e2 => wwf m e1 /\ wwf m e2
  end.
Fixpoint wlwf (m : nat) (lets : list wexp) : Prop := match lets with [] => True | e :: lets => wwf m e /\ wlwf (S m) lets end.
(** An output that is not merely a name. *)
Definition wop (e : wexp) : Prop := match e with WIn _ => False | _ => True end.

(** ** The design *)
Definition word_nls : list netlist := [adder64; sub64; neg64; mult2_64; udivide64; divide64].
Definition word_lib : list mdef := map nl_def word_nls.
Fixpoint wexp_of (e : wexp) : mexp :=
  match e with
  | WIn k => MIn (64 * k) 64
  | WConst z => MConst (zbits 64 z)
  | WAdd e1 e2 => MCall 0 (MCat (wexp_of e1) (wexp_of e2))
  | WSub e1 e2 => MCall 1 (MCat (wexp_of e1) (wexp_of e2))
  | WNeg e => MCall 2 (wexp_of e)
  | WMul e1 e2 => MSel 64 64 (MCall 3 (MCat (wexp_of e1) (wexp_of e2)))
  | WMulHi e1 e2 => MSel 0 64 (MCall 3 (MCat (wexp_of e1) (wexp_of e2)))
  | WDivU e1 e2 => MCall 4 (MCat (wexp_of e1) (wexp_of e2))
  | WDivS e1 e2 => MCall 5 (MCat (wexp_of e1) (wexp_of e2))
  | WAnd e1 e2 => MBin GoAnd (wexp_of e1) (wexp_of e2)
  | WOr e1 e2 => MBin GoOr (wexp_of e1) (wexp_of e2)
  | WXor e1 e2 => MBin GoXor (wexp_of e1) (wexp_of e2)
  | WNot e => MNot (wexp_of e)
  end.
Definition wouts (outs : list wexp) : mexp := foldr (fun e acc => MCat (wexp_of e) acc) (MConst []) outs.
Definition word_design (md : mode) (l m : nat) (lets outs : list wexp) : M unit := design md l word_lib (64 * m) (map wexp_of lets) (wouts outs).

(** ** Outputs that are made by the last expression are never read *)
Lemma mroots_lt sg n e j : mwf sg n e -> Some j ∈ mroots sg e -> (j < n)%nat.
Proof.
  induction e as [a k|bits|e1 IH1 e2 IH2|a k e IH|e IH|o e1 IH1 e2 IH2|i e IH]; cbn [mwf mroots]; intros H Hj; try (by apply elem_of_replicate in Hj as [? _]).
  - apply elem_of_list_In, in_map_iff in Hj as (x & [= ->] & Hx). apply in_seq in Hx. lia.
  - destruct H as [H1 H2]. apply elem_of_app in Hj as [Hj|Hj]; auto.
  - destruct H as [_ H]. apply IH; [done|]. apply elem_of_list_lookup in Hj as [q Hq].
    destruct (decide (q < k)%nat); [|rewrite lookup_take_ge in Hq by lia; done].
    rewrite lookup_take in Hq by lia. rewrite lookup_drop in Hq. by apply elem_of_list_lookup_2 in Hq.
Qed.
Lemma mused_lt sg n e j : mwf sg n e -> j ∈ mused sg e -> (j < n)%nat.
Proof.
  assert (R : forall e, mwf sg n e -> j ∈ omap id (mroots sg e) -> (j < n)%nat).
  { intros e0 H (x & Hx & Ex)%elem_of_list_omap. cbn in Ex. subst x. by eapply mroots_lt. }
  induction e as [a k|bits|e1 IH1 e2 IH2|a k e IH|e IH|o e1 IH1 e2 IH2|i e IH]; cbn [mwf mused]; intros H Hj.
  - by apply elem_of_nil in Hj.
  - by apply elem_of_nil in Hj.
  - destruct H as [H1 H2]. apply elem_of_app in Hj as [Hj|Hj]; auto.
  - destruct H as [_ H]. auto.
  - apply elem_of_app in Hj as [Hj|Hj]; [auto|by eapply R].
  - destruct H as (_ & H1 & H2). apply elem_of_app in Hj as [Hj|Hj]; [auto|]. apply elem_of_app in Hj as [Hj|Hj]; [auto|].
    apply elem_of_app in Hj as [Hj|Hj]; [by eapply (R e1)|by eapply (R e2)].
  - destruct H as (_ & _ & H). apply elem_of_app in Hj as [Hj|Hj]; [auto|by eapply R].
Qed.
Lemma mroots_length sg n e : mwf sg n e -> length (mroots sg e) = msize sg e.
Proof.
  induction e as [a k|bits|e1 IH1 e2 IH2|a k e IH|e IH|o e1 IH1 e2 IH2|i e IH]; cbn [mwf mroots msize]; intros H; try (by rewrite replicate_length).
  - by rewrite map_length, seq_length.
  - destruct H as [H1 H2]. by rewrite app_length, IH1, IH2.
  - destruct H as [H1 H2]. rewrite take_length, drop_length, IH by done. lia.
Qed.
Definition cells_ok (cs : cells) (n : nat) : Prop := length (cs_of cs) = n /\ Forall (fun c => c < cs_next cs)%nat (cs_of cs) /\ Forall (fun c => c < cs_next cs)%nat (cs_used cs).
Lemma cell_at cs n j : cells_ok cs n -> (j < n)%nat -> (nth j (cs_of cs) 0 < cs_next cs)%nat.
Proof. intros (L & H & _) Hj. rewrite Forall_forall in H. apply H. rewrite elem_of_list_In. apply nth_In. by rewrite L. Qed.
Lemma cells_step sg cs n e : cells_ok cs n -> mwf sg n e -> cells_ok (cstep sg cs e) (n + msize sg e).
Proof.
  intros C Hw. pose proof C as (L & H1 & H2). unfold cstep, cells_ok. cbn [cs_of cs_used cs_next]. split; [|split].
  - rewrite app_length, L. unfold croots. by rewrite imap_length, (mroots_length _ n).
  - apply Forall_app. split; [eapply Forall_impl; [exact H1|]; cbn; lia|]. apply Forall_forall. intros c Hc. unfold croots in Hc.
    apply elem_of_lookup_imap in Hc as (k & r & -> & Hr). pose proof (lookup_lt_Some _ _ _ Hr) as Hk. rewrite (mroots_length _ n) in Hk by done.
    destruct r as [j|]; [|lia]. apply elem_of_list_lookup_2 in Hr. pose proof (cell_at _ _ _ C (mroots_lt _ _ _ _ Hw Hr)). lia.
  - apply Forall_app. split; [eapply Forall_impl; [exact H2|]; cbn; lia|]. apply Forall_forall. intros c Hc.
    apply elem_of_list_In, in_map_iff in Hc as (j & <- & Hj%elem_of_list_In). pose proof (cell_at _ _ _ C (mused_lt _ _ _ _ Hw Hj)). lia.
Qed.
Lemma cells_lets sg lets : forall cs n, cells_ok cs n -> mlwf sg n lets -> cells_ok (clets sg cs lets) (mlen sg n lets).
Proof. induction lets as [|e lets IH]; intros cs n C H; [done|]. destruct H as [H1 H2]. cbn [clets mlen]. apply IH; [by apply cells_step|done]. Qed.
Lemma fresh_outs sg n lets e c : body_wf sg n lets e -> Forall (eq None) (mroots sg e) -> c ∈ bouts sg n lets e -> c ∉ bused sg n lets e.
Proof.
  intros [H1 H2] Hn Ho Hu. assert (C : cells_ok (Cells (seq 0 n) [] n) n).
  { split; [cbn; apply seq_length|]. split; [|constructor]. cbn. apply Forall_forall. intros x Hx%elem_of_list_In%in_seq. lia. }
  pose proof (cells_lets sg lets _ _ C H1) as C'. unfold bouts in Ho. unfold bused in Hu. set (cs := clets sg _ lets) in *. clearbody cs.
  unfold croots in Ho. apply elem_of_lookup_imap in Ho as (k & r & -> & Hr). apply elem_of_list_lookup_2 in Hr.
  rewrite Forall_forall in Hn. rewrite <- (Hn _ Hr) in Hu. unfold cstep in Hu. cbn [cs_used] in Hu.
  apply elem_of_app in Hu as [Hu|Hu].
  - destruct C' as (_ & _ & C'). rewrite Forall_forall in C'. specialize (C' _ Hu). cbn in C'. lia.
  - apply elem_of_list_In, in_map_iff in Hu as (j & E & Hj%elem_of_list_In). pose proof (cell_at _ _ _ C' (mused_lt _ _ _ _ H2 Hj)). lia.
Qed.

(** ** Values *)
Lemma adder64_ok : nl_ok adder64. Proof. eexists. split; [exact adder64_good|vm_compute; reflexivity]. Qed.
Lemma sub64_ok : nl_ok sub64. Proof. eexists. split; [exact sub64_good|vm_compute; reflexivity]. Qed.
Lemma neg64_ok : nl_ok neg64. Proof. eexists. split; [exact neg64_good|vm_compute; reflexivity]. Qed.
Lemma mult2_64_ok : nl_ok mult2_64. Proof. eexists. split; [exact mult2_64_good|vm_compute; reflexivity]. Qed.
Lemma udivide64_ok : nl_ok udivide64. Proof. eexists. split; [exact udivide64_good|vm_compute; reflexivity]. Qed.
Lemma divide64_ok : nl_ok divide64. Proof. eexists. split; [exact divide64_good|vm_compute; reflexivity]. Qed.
Lemma word_nls_ok : Forall nl_ok word_nls.
Proof. exact (Forall_cons_2 _ _ _ adder64_ok (Forall_cons_2 _ _ _ sub64_ok (Forall_cons_2 _ _ _ neg64_ok (Forall_cons_2 _ _ _ mult2_64_ok (Forall_cons_2 _ _ _ udivide64_ok (Forall_cons_2 _ _ _ divide64_ok (Forall_nil_2 _))))))). Qed.
Lemma word_sigs : sigs [] word_lib = map nl_sig word_nls.
Proof. destruct (nl_lib word_nls word_nls_ok [] []) as (_ & H & _). unfold word_lib. rewrite H. apply app_nil_l. Qed.
Lemma word_sigs_are : sigs [] word_lib = [(128, 64); (128, 64); (64, 64); (128, 128); (128, 64); (128, 64)]%nat.
Proof. rewrite word_sigs. vm_compute. reflexivity. Qed.
Lemma wexp_wf m e : wwf m e -> mwf (sigs [] word_lib) (64 * m) (wexp_of e) /\ msize (sigs [] word_lib) (wexp_of e) = 64%nat.
Proof.
  rewrite word_sigs_are. set (sg := [(128, 64); _; _; _; _; _]%nat).
  induction e; cbn [wwf wexp_of mwf msize]; intros H; try (destruct H as [Ha Hb]; specialize (IHe1 Ha) as [W1 S1]; specialize (IHe2 Hb) as [W2 S2]);
    try (specialize (IHe H) as [W1 S1]); rewrite ?S1, ?S2; unfold sg_at, sg; cbn [nth fst snd length]; rewrite ?zbits_length; split_and?; try done; try lia.
Qed.
Lemma wval_range vs e : 0 <= wval vs e < 2 ^ 64.
Proof.
  assert (T : 0 < 2 ^ 64) by lia.
  assert (B : forall z, 0 <= z < 2 ^ 64 <-> 0 <= z /\ Z.shiftr z 64 = 0).
  { intros z. rewrite Z.shiftr_div_pow2 by lia. split; [intros; split; [lia|by apply Z.div_small]|]. intros [Hz Hd]. apply Z.div_small_iff in Hd; lia. }
  induction e; cbn [wval]; try (apply Z.mod_pos_bound; done).
  - split; [apply Z.div_pos; [nia|lia]|]. apply Z.div_lt_upper_bound; [lia|]. nia.
  - destruct (Z.eqb_spec (wval vs e2) 0); [lia|]. split; [apply Z.div_pos; lia|]. apply Z.div_lt_upper_bound; [lia|]. nia.
  - apply B. apply B in IHe1 as [H1 S1], IHe2 as [H2 S2]. rewrite Z.shiftr_land, S1, S2. split; [by apply Z.land_nonneg; left|done].
  - apply B. apply B in IHe1 as [H1 S1], IHe2 as [H2 S2]. rewrite Z.shiftr_lor, S1, S2. split; [by apply Z.lor_nonneg|done].
  - apply B. apply B in IHe1 as [H1 S1], IHe2 as [H2 S2]. rewrite Z.shiftr_lxor, S1, S2. split; [by apply Z.lxor_nonneg|done].
  - lia.
Qed.
Lemma zbits_zip (f : bool -> bool -> bool) (g : Z -> Z -> Z) n a b : (forall i, Z.testbit (g a b) i = f (Z.testbit a i) (Z.testbit b i)) ->
  zip_with f (zbits n a) (zbits n b) = zbits n (g a b).
Proof. intros H. unfold zbits. generalize (seq 0 n). induction l as [|i l IH]; [done|]. cbn [map zip_with]. by rewrite H, IH. Qed.
Lemma zbits_negb n a : map negb (zbits n a) = zbits n (two_p n - 1 - a).
Proof.
  apply zval_inj; [by rewrite map_length, !zbits_length|]. rewrite zval_negb, zbits_length, !zval_zbits. pose proof (two_p_pos n).
  pose proof (Z.mod_pos_bound a (two_p n) ltac:(lia)). apply Z.mod_unique with (q := - (a / two_p n)); [left; lia|]. pose proof (Z.div_mod a (two_p n) ltac:(lia)). lia.
Qed.
Lemma word_pick {A} (f : A -> list bool) k vs : Forall (fun v => length (f v) = 64%nat) vs -> (k < length vs)%nat ->
  exists v, vs !! k = Some v /\ take 64 (drop (64 * k) (concat (map f vs))) = f v.
Proof.
  revert k. induction vs as [|v vs IH]; intros k H Hk; [cbn in Hk; lia|]. inversion H as [|?? H1 H2]; subst. destruct k as [|k].
  - exists v. split; [done|]. rewrite Nat.mul_0_r, drop_0. cbn [map concat]. by rewrite take_app_alt.
  - cbn [length] in Hk. destruct (IH k H2 ltac:(lia)) as (w & Hw & E). exists w. split; [done|]. cbn [map concat].
    replace (64 * S k)%nat with (length (f v) + 64 * k)%nat by lia. by rewrite <- drop_drop, drop_app.
Qed.
Lemma adder64_full : nl_full adder64 = true. Proof. vm_compute. reflexivity. Qed.
Lemma adder64_in : N.to_nat (nl_in adder64) = 128%nat. Proof. vm_compute. reflexivity. Qed.
Lemma adder64_at : word_nls !! 0%nat = Some adder64. Proof. reflexivity. Qed.
Lemma sub64_full : nl_full sub64 = true. Proof. vm_compute. reflexivity. Qed.
Lemma sub64_in : N.to_nat (nl_in sub64) = 128%nat. Proof. vm_compute. reflexivity. Qed.
Lemma sub64_at : word_nls !! 1%nat = Some sub64. Proof. reflexivity. Qed.
Lemma neg64_full : nl_full neg64 = true. Proof. vm_compute. reflexivity. Qed.
Lemma neg64_in : N.to_nat (nl_in neg64) = 64%nat. Proof. vm_compute. reflexivity. Qed.
Lemma neg64_at : word_nls !! 2%nat = Some neg64. Proof. reflexivity. Qed.
Lemma mult2_64_full : nl_full mult2_64 = true. Proof. vm_compute. reflexivity. Qed.
Lemma mult2_64_in : N.to_nat (nl_in mult2_64) = 128%nat. Proof. vm_compute. reflexivity. Qed.
Lemma mult2_64_at : word_nls !! 3%nat = Some mult2_64. Proof. reflexivity. Qed.
Lemma udivide64_full : nl_full udivide64 = true. Proof. vm_compute. reflexivity. Qed.
Lemma udivide64_in : N.to_nat (nl_in udivide64) = 128%nat. Proof. vm_compute. reflexivity. Qed.
Lemma udivide64_at : word_nls !! 4%nat = Some udivide64. Proof. reflexivity. Qed.
Lemma divide64_full : nl_full divide64 = true. Proof. vm_compute. reflexivity. Qed.
Lemma divide64_in : N.to_nat (nl_in divide64) = 128%nat. Proof. vm_compute. reflexivity. Qed.
Lemma divide64_at : word_nls !! 5%nat = Some divide64. Proof. reflexivity. Qed.
Definition wfs : list (list bool -> list bool) := funs [] word_lib.
Lemma wfs_call j n f ins e : word_nls !! j = Some n -> nl_good n f -> nl_full n = true -> length (mval wfs ins e) = N.to_nat (nl_in n) ->
  mval wfs ins (MCall j e) = f (mval wfs ins e).
Proof. apply nl_call, word_nls_ok. Qed.
Lemma wfs_is : funs [] word_lib = wfs. Proof. reflexivity. Qed.
#[local] Opaque wfs.
Definition words (vs : list Z) : list bool := concat (map (zbits 64) vs).
Lemma words_length vs : length (words vs) = (64 * length vs)%nat.
Proof. unfold words. induction vs as [|v vs IH]; [done|]. cbn [map concat length]. rewrite app_length, zbits_length, IH. lia. Qed.
Lemma words_snoc vs v : words (vs ++ [v]) = words vs ++ zbits 64 v.
Proof. unfold words. rewrite map_app, concat_app. cbn [map concat]. by rewrite app_nil_r. Qed.
Lemma mval_sel fs ins a k e : mval fs ins (MSel a k e) = take k (drop a (mval fs ins e)). Proof. done. Qed.
Lemma wexp_value vs e : wwf (length vs) e -> mval wfs (words vs) (wexp_of e) = zbits 64 (wval vs e).
Proof.
  assert (T : forall a b, 0 <= a < 2 ^ 64 -> 0 <= b < 2 ^ 64 -> let i := zbits 64 a ++ zbits 64 b in zval (take 64 i) = a /\ zval (drop 64 i) = b).
  { intros a b Ha Hb. destruct (two_words a b) as (_ & E1 & E2). cbv zeta. by rewrite E1, E2, !Z.mod_small. }
  induction e as [k|z|e1 IH1 e2 IH2|e1 IH1 e2 IH2|e IH|e1 IH1 e2 IH2|e1 IH1 e2 IH2|e1 IH1 e2 IH2|e1 IH1 e2 IH2|e1 IH1 e2 IH2|e1 IH1 e2 IH2|e1 IH1 e2 IH2|e IH];
    cbn [wwf wexp_of wval]; intros H;
    try (destruct H as [Ha Hb]; specialize (IH1 Ha); specialize (IH2 Hb); pose proof (wval_range vs e1) as R1; pose proof (wval_range vs e2) as R2;
      destruct (T _ _ R1 R2) as [T1 T2]; assert (IH : mval wfs (words vs) (MCat (wexp_of e1) (wexp_of e2)) = zbits 64 (wval vs e1) ++ zbits 64 (wval vs e2)) by (cbn [mval]; by rewrite IH1, IH2);
      assert (LI : length (mval wfs (words vs) (MCat (wexp_of e1) (wexp_of e2))) = 128%nat) by (rewrite IH, app_length, !zbits_length; reflexivity)).
  - cbn [mval]. destruct (word_pick (zbits 64) k vs) as (v & Hv & E); [apply Forall_forall; intros; apply zbits_length|done|]. unfold words. rewrite E.
    apply zbits64_eq. rewrite (nth_lookup_Some _ _ _ _ Hv). by rewrite Z.mod_mod.
  - cbn [mval]. apply zbits64_eq. by rewrite Z.mod_mod.
  - rewrite (wfs_call 0 _ _ (words vs) (MCat (wexp_of e1) (wexp_of e2)) adder64_at adder64_good adder64_full); [|rewrite adder64_in; exact LI]. cbv beta. rewrite IH, T1, T2. apply zbits64_eq. by rewrite Z.mod_mod.
  - rewrite (wfs_call 1 _ _ (words vs) (MCat (wexp_of e1) (wexp_of e2)) sub64_at sub64_good sub64_full); [|rewrite sub64_in; exact LI]. cbv beta. rewrite IH, T1, T2. apply zbits64_eq. by rewrite Z.mod_mod.
  - specialize (IH H). rewrite (wfs_call 2 _ _ (words vs) (wexp_of e) neg64_at neg64_good neg64_full); [|rewrite neg64_in; rewrite IH, zbits_length; reflexivity]. cbv beta. rewrite IH.
    rewrite zval_small by apply wval_range. apply zbits64_eq. by rewrite Z.mod_mod.
  - pose proof (wfs_call 3 _ _ (words vs) (MCat (wexp_of e1) (wexp_of e2)) mult2_64_at mult2_64_good mult2_64_full ltac:(rewrite mult2_64_in; exact LI)) as HW.
    rewrite mval_sel, HW. cbv beta zeta. rewrite IH, T1, T2.
    rewrite drop_app_alt by (by rewrite zbits_length). rewrite take_ge by (by rewrite zbits_length). apply zbits64_eq. by rewrite Z.mod_mod.
  - pose proof (wfs_call 3 _ _ (words vs) (MCat (wexp_of e1) (wexp_of e2)) mult2_64_at mult2_64_good mult2_64_full ltac:(rewrite mult2_64_in; exact LI)) as HW.
    rewrite mval_sel, HW. cbv beta zeta. rewrite IH, T1, T2.
    rewrite drop_0, take_app_alt by (by rewrite zbits_length). done.
  - rewrite (wfs_call 4 _ _ (words vs) (MCat (wexp_of e1) (wexp_of e2)) udivide64_at udivide64_good udivide64_full); [|rewrite udivide64_in; exact LI]. cbv beta zeta. rewrite IH, T1, T2. done.
  - rewrite (wfs_call 5 _ _ (words vs) (MCat (wexp_of e1) (wexp_of e2)) divide64_at divide64_good divide64_full); [|rewrite divide64_in; exact LI]. cbv beta zeta. rewrite IH, T1, T2. apply zbits64_eq. by rewrite Z.mod_mod.
  - cbn [mval]. rewrite IH1, IH2. apply zbits_zip. intros. apply Z.land_spec.
  - cbn [mval]. rewrite IH1, IH2. apply zbits_zip. intros. apply Z.lor_spec.
  - cbn [mval]. rewrite IH1, IH2. apply zbits_zip. intros. apply Z.lxor_spec.
  - cbn [mval]. rewrite IH by done. apply zbits_negb.
Qed.
Lemma wlets_wf lets : forall m, wlwf m lets -> mlwf (sigs [] word_lib) (64 * m) (map wexp_of lets) /\ mlen (sigs [] word_lib) (64 * m) (map wexp_of lets) = (64 * (m + length lets))%nat.
Proof.
  induction lets as [|e lets IH]; intros m H; cbn [map mlwf mlen length]; [split; [done|f_equal; lia]|]. destruct H as [H1 H2]. destruct (wexp_wf m e H1) as [W Sz]. rewrite Sz.
  replace (64 * m + 64)%nat with (64 * S m)%nat by lia. destruct (IH (S m) H2) as [I1 I2]. split; [done|]. rewrite I2. f_equal. lia.
Qed.
Lemma wouts_wf m outs : Forall (wwf m) outs -> mwf (sigs [] word_lib) (64 * m) (wouts outs) /\ msize (sigs [] word_lib) (wouts outs) = (64 * length outs)%nat.
Proof.
  induction 1 as [|e outs He _ [I1 I2]]; [done|]. cbn [wouts foldr mwf msize length]. fold (wouts outs). destruct (wexp_wf m e He) as [W Sz].
  split; [done|]. rewrite Sz, I2. lia.
Qed.
Lemma wop_roots e : wop e -> Forall (eq None) (mroots (sigs [] word_lib) (wexp_of e)).
Proof.
  assert (R : forall k, Forall (eq (@None nat)) (replicate k None)) by (intros k; apply Forall_forall; intros x Hx%elem_of_replicate_inv; done).
  destruct e; cbn [wop wexp_of mroots]; intros H; try done; apply Forall_take, Forall_drop, R.
Qed.
Lemma wouts_roots outs : Forall wop outs -> Forall (eq None) (mroots (sigs [] word_lib) (wouts outs)).
Proof. induction 1 as [|e outs He _ IH]; [constructor|]. cbn [wouts foldr mroots]. apply Forall_app. split; [by apply wop_roots|done]. Qed.
Lemma wenv_value lets : forall vs, wlwf (length vs) lets -> menv wfs (words vs) (map wexp_of lets) = words (wenv vs lets) /\ length (wenv vs lets) = (length vs + length lets)%nat.
Proof.
  induction lets as [|e lets IH]; intros vs H; cbn [map menv wenv length]; [split; [done|lia]|]. destruct H as [H1 H2].
  rewrite (wexp_value vs e H1), <- words_snoc. destruct (IH (vs ++ [wval vs e])) as [I1 I2].
  { rewrite app_length. cbn. by rewrite Nat.add_1_r. }
  split; [done|]. rewrite I2, app_length. cbn. lia.
Qed.
Lemma wouts_value vs outs : Forall (wwf (length vs)) outs -> mval wfs (words vs) (wouts outs) = words (map (wval vs) outs).
Proof.
  induction 1 as [|e outs He _ IH]; [done|]. cbn [wouts foldr mval]. fold (wouts outs). rewrite IH, (wexp_value vs e He). done.
Qed.
Lemma wrun_value vs lets outs : wlwf (length vs) lets -> Forall (wwf (length vs + length lets)) outs ->
  bval wfs (words vs) (map wexp_of lets) (wouts outs) = words (wrun vs lets outs).
Proof. intros Hl Ho. destruct (wenv_value lets vs Hl) as [E L]. unfold bval. rewrite E. apply wouts_value. by rewrite L. Qed.
Lemma word_lib_wf : lwf [] word_lib.
Proof. exact (proj1 (nl_lib word_nls word_nls_ok [] [])). Qed.
Lemma word_body_wf m lets outs : wlwf m lets -> Forall (wwf (m + length lets)) outs -> body_wf (sigs [] word_lib) (64 * m) (map wexp_of lets) (wouts outs).
Proof. intros Hl Ho. destruct (wlets_wf lets m Hl) as [L1 L2]. split; [done|]. rewrite L2. by apply wouts_wf. Qed.

(** * C65 *)
Theorem C65_words md h l m lets outs : BuildEval.fresh h l -> wlwf m lets -> Forall (wwf (m + length lets)) outs -> Forall wop outs ->
  exists h', word_design md l m lets outs h = (Ok tt, h') /\ inputs_of h' l = Ok (N.of_nat (64 * m)) /\ outputs_of h' l = Ok (N.of_nat (64 * length outs)) /\
    forall md', exists depth, forall fuel vs, (depth <= fuel)%nat -> length vs = m ->
      eval_output md' h' fuel l (concat (map (zbits 64) vs)) = Ok (concat (map (zbits 64) (wrun vs lets outs))).
Proof.
  intros Hf Hl Ho Hp. pose proof (word_body_wf m lets outs Hl Ho) as Hw.
  destruct (C64_designs md h l word_lib (64 * m) (map wexp_of lets) (wouts outs) Hf word_lib_wf Hw) as (h' & E & Hi & Hn & Ev).
  { intros c. apply fresh_outs; [exact Hw|by apply wouts_roots]. }
  exists h'. split; [exact E|]. split; [exact Hi|]. split; [by rewrite Hn, (proj2 (wouts_wf _ _ Ho))|].
  intros md'. destruct (Ev md') as [d Hd]. exists d. intros fuel vs Hfu Hm. subst m. fold (words vs). rewrite Hd; [|done|apply words_length].
  f_equal. rewrite wfs_is. by apply wrun_value.
Qed.
Theorem C65_exported md h l m lets outs : BuildEval.fresh h l -> cinv h -> wlwf m lets -> Forall (wwf (m + length lets)) outs ->
  exists h', word_design md l m lets outs h = (Ok tt, h') /\ inputs_of h' l = Ok (N.of_nat (64 * m)) /\
    exports h' l (fun ins res => exists vs, length vs = m /\ ins = concat (map (zbits 64) vs) /\ res = concat (map (zbits 64) (wrun vs lets outs))).
Proof.
  intros Hf C Hl Ho. pose proof (word_body_wf m lets outs Hl Ho) as Hw.
  destruct (C64_exported md h l word_lib (64 * m) (map wexp_of lets) (wouts outs) Hf C word_lib_wf Hw) as (h' & E & Hi & Ex).
  exists h'. split; [exact E|]. split; [exact Hi|]. intros c first Hc H1 H2. destruct (Ex c first Hc H1 H2) as (consts & ws & text & p & X1 & X2 & X3 & X4 & X5).
  exists consts, ws, text, p. do 4 (split; [done|]). intros q pad ins res (vs & Hm & -> & ->). intros Hpad. apply X5; [|done]. subst m. split; [apply words_length|].
  rewrite wfs_is. fold (words vs). symmetry. by apply wrun_value.
Qed.
(** The mean of two words by a shared sum, with its remainder and a signed quotient: the hypotheses hold, and the values are those one expects. *)
Definition mean_lets : list wexp := [WAdd (WIn 0) (WIn 1); WDivU (WIn 2) (WConst 2)].
Definition mean_outs : list wexp := [WOr (WIn 3) (WConst 0); WSub (WIn 2) (WMul (WConst 2) (WIn 3)); WDivS (WNeg (WIn 3)) (WConst 4)].
Example C65_example : BuildEval.fresh blank1 0 /\ wlwf 2 mean_lets /\ Forall (wwf (2 + length mean_lets)) mean_outs /\ Forall wop mean_outs /\
  wrun [7; 16] mean_lets mean_outs = [11; 1; 2 ^ 64 - 2].
Proof. split; [apply fresh_blank1|]. split; [cbn; lia|]. split; [repeat constructor|]. split; [repeat constructor|]. vm_compute. reflexivity. Qed.

(** * C66: blocks of 16 bytes *)
(** Expressions over blocks: inputs, constants, exclusive or, and encryption of the second block under the first. *)
Inductive bexp := BIn (k : nat) | BConst (s : list N) | BXor (e1 e2 : bexp) | BEnc (key e : bexp).
Fixpoint blk (vs : list (list N)) (e : bexp) : list N :=
  match e with
  | BIn k => nth k vs []
  | BConst s => s
  | BXor e1 e2 => xor_bytes (blk vs e1) (blk vs e2)
  | BEnc k e => aes128_encrypt (blk vs k) (blk vs e)
  end.
Fixpoint blkenv (vs : list (list N)) (lets : list bexp) : list (list N) := match lets with [] => vs | e :: lets => blkenv (vs ++ [blk vs e]) lets end.
Definition blkrun (vs : list (list N)) (lets outs : list bexp) : list (list N) := map (blk (blkenv vs lets)) outs.
Fixpoint blkwf (m : nat) (e : bexp) : Prop :=
  match e with BIn k => (k < m)%nat | BConst s => is_state s | BXor e1 e2 | BEnc e1 e2 => blkwf m e1 /\ blkwf m e2 end.
Fixpoint blklwf (m : nat) (lets : list bexp) : Prop := match lets with [] => True | e :: lets => blkwf m e /\ blklwf (S m) lets end.
Definition blkop (e : bexp) : Prop := match e with BIn _ => False | _ => True end.

(** ** The design *)
Definition aes_lib : list mdef := [nl_def aes128].
Fixpoint bexp_of (e : bexp) : mexp :=
  match e with
  | BIn k => MIn (128 * k) 128
  | BConst s => MConst (bytes_bits s)
  | BXor e1 e2 => MBin GoXor (bexp_of e1) (bexp_of e2)
  | BEnc k e => MCall 0 (MCat (bexp_of e) (bexp_of k))
  end.
Definition blkouts (outs : list bexp) : mexp := foldr (fun e acc => MCat (bexp_of e) acc) (MConst []) outs.
Definition block_design (md : mode) (l m : nat) (lets outs : list bexp) : M unit := design md l aes_lib (128 * m) (map bexp_of lets) (blkouts outs).

(** ** AES gives blocks *)
Definition is_word (w : list N) : Prop := length w = 4%nat /\ Forall is_byte w.
Lemma xor_word a b : is_word a -> is_word b -> is_word (xor_bytes a b).
Proof.
  intros [La Fa] [Lb Fb]. split; [unfold xor_bytes; rewrite zip_with_length, La, Lb; done|]. clear La Lb. revert b Fb.
  induction Fa as [|x a Hx _ IH]; intros [|y b] Fb; try constructor; inversion Fb; subst; [by apply lxor_byte|by apply IH].
Qed.
Lemma rcon_byte i : is_byte (rcon i).
Proof. destruct i as [|[|i]]; [done|done|]. apply xtime_byte. Qed.
Lemma expand_words_ok k : forall i w, length w = i -> (4 <= i)%nat -> Forall is_word w -> length (expand_words k i w) = (i + k)%nat /\ Forall is_word (expand_words k i w).
Proof.
  induction k as [|k IH]; intros i w L Hi F; cbn [expand_words]; [split; [lia|done]|]. rewrite Forall_forall in F.
  assert (N : forall j, (j < i)%nat -> is_word (nth j w [])) by (intros j Hj; apply F, elem_of_list_In, nth_In; lia).
  assert (R : forall x, is_word x -> is_word (sub_word (rot_word x))).
  { intros x [Lx Fx]. do 4 (destruct x as [|? x]; [done|]). destruct x; [|done]. split; [done|]. cbn [rot_word app sub_word map]. repeat constructor; apply sub_byte_byte. }
  destruct (IH (S i) (w ++ [xor_bytes (nth (i - 4) w []) (if (i mod 4 =? 0)%nat then xor_bytes (sub_word (rot_word (nth (i - 1) w []))) [rcon (i / 4); 0%N; 0%N; 0%N] else nth (i - 1) w [])])) as [I1 I2].
  - rewrite app_length, L. cbn. lia.
  - lia.
  - apply Forall_app. split; [by apply Forall_forall|]. constructor; [|constructor]. apply xor_word; [apply N; lia|].
    destruct (i mod 4 =? 0)%nat; [|apply N; lia]. apply xor_word; [apply R, N; lia|]. split; [done|]. constructor; [apply rcon_byte|]. repeat constructor.
  - split; [rewrite I1; lia|done].
Qed.
Lemma round_key_state w r : (4 * r + 4 <= length w)%nat -> Forall is_word w -> is_state (round_key w r).
Proof.
  intros L F. unfold round_key. assert (Fq : Forall is_word (take 4 (drop (4 * r) w))) by (by apply Forall_take, Forall_drop).
  apply quad_state. split; [rewrite take_length, drop_length; lia|exact Fq].
Qed.
Lemma rounds_state w rs : forall s, Forall (fun r => 4 * r + 4 <= length w)%nat rs -> Forall is_word w -> is_state s -> is_state (rounds w rs s).
Proof.
  induction rs as [|r rs IH]; intros s Hr F Hs; [done|]. inversion Hr; subst. cbn [rounds]. apply IH; [done|done|].
  apply xor_state; [by apply mix_state, shift_state, sub_state|by apply round_key_state].
Qed.
Lemma aes_state key block : is_state key -> is_state block -> is_state (aes128_encrypt key block).
Proof.
  intros Hk Hb. unfold aes128_encrypt. destruct (key_words_quad key Hk) as [ [Lq Fq] _].
  destruct (expand_words_ok 40 4 (key_words key) Lq ltac:(lia) Fq) as [L F]. set (w := expand_words 40 4 (key_words key)) in *. clearbody w. cbv zeta.
  apply xor_state; [apply shift_state, sub_state, rounds_state; [|done|apply xor_state; [done|by apply round_key_state; [lia|]] ]|by apply round_key_state; [lia|] ].
  apply Forall_forall. intros r Hr%elem_of_list_In%in_seq. lia.
Qed.
Lemma bytes_bits_xor a b : bytes_bits (xor_bytes a b) = zip_with xorb (bytes_bits a) (bytes_bits b).
Proof.
  revert b. unfold bytes_bits, xor_bytes. induction a as [|x a IH]; intros [|y b]; [done|done| |].
  - cbn [zip_with map concat]. symmetry. apply zip_with_nil_r.
  - cbn [zip_with map concat]. rewrite IH, AesCheck.byte_bits_lxor. by rewrite zip_with_app.
Qed.

(** ** Sizes and values *)
Lemma aes128_ok : nl_ok aes128. Proof. eexists. split; [exact aes128_good|vm_compute; reflexivity]. Qed.
Lemma aes128_full : nl_full aes128 = true. Proof. vm_compute. reflexivity. Qed.
Lemma aes128_in : N.to_nat (nl_in aes128) = 256%nat. Proof. vm_compute. reflexivity. Qed.
Definition aes_nls : list netlist := [aes128].
Lemma aes_nls_ok : Forall nl_ok aes_nls. Proof. exact (Forall_cons_2 _ _ _ aes128_ok (Forall_nil_2 _)). Qed.
Lemma aes_nls_at : aes_nls !! 0%nat = Some aes128. Proof. reflexivity. Qed.
Lemma aes_sigs : sigs [] aes_lib = [(256, 128)%nat].
Proof.
  destruct (nl_lib aes_nls aes_nls_ok [] []) as (_ & H & _). change aes_lib with (map nl_def aes_nls). rewrite H. vm_compute. reflexivity.
Qed.
Lemma aes_lib_wf : lwf [] aes_lib. Proof. exact (proj1 (nl_lib aes_nls aes_nls_ok [] [])). Qed.
Definition afs : list (list bool -> list bool) := funs [] aes_lib.
Lemma afs_call ins e : length (mval afs ins e) = 256%nat ->
  mval afs ins (MCall 0 e) = bytes_bits (aes128_encrypt (bits_bytes (drop 128 (mval afs ins e))) (bits_bytes (take 128 (mval afs ins e)))).
Proof. intros H. exact (nl_call aes_nls 0 aes128 _ ins e aes_nls_ok aes_nls_at aes128_good aes128_full (eq_trans H (eq_sym aes128_in))). Qed.
Lemma afs_is : funs [] aes_lib = afs. Proof. reflexivity. Qed.
#[local] Opaque afs.
Definition blocks (vs : list (list N)) : list bool := concat (map bytes_bits vs).
Lemma state_bits s : is_state s -> length (bytes_bits s) = 128%nat. Proof. intros [L _]. by rewrite bytes_bits_length, L. Qed.
Lemma blocks_length vs : Forall is_state vs -> length (blocks vs) = (128 * length vs)%nat.
Proof. unfold blocks. induction 1 as [|v vs Hv _ IH]; [done|]. cbn [map concat length]. rewrite app_length, state_bits, IH by done. lia. Qed.
Lemma blocks_snoc vs v : blocks (vs ++ [v]) = blocks vs ++ bytes_bits v.
Proof. unfold blocks. rewrite map_app, concat_app. cbn [map concat]. by rewrite app_nil_r. Qed.
Lemma block_pick k vs : Forall is_state vs -> (k < length vs)%nat -> is_state (nth k vs []) /\ take 128 (drop (128 * k) (blocks vs)) = bytes_bits (nth k vs []).
Proof.
  revert k. unfold blocks. induction vs as [|v vs IH]; intros k H Hk; [cbn in Hk; lia|]. inversion H as [|?? H1 H2]; subst. cbn [map concat]. destruct k as [|k]; cbn [nth].
  - split; [done|]. rewrite Nat.mul_0_r, drop_0. by rewrite take_app_alt by (by rewrite state_bits).
  - cbn [length] in Hk. destruct (IH k H2 ltac:(lia)) as [St E]. split; [done|].
    replace (128 * S k)%nat with (length (bytes_bits v) + 128 * k)%nat by (rewrite state_bits by done; lia). by rewrite <- drop_drop, drop_app.
Qed.
Lemma bexp_value vs e : Forall is_state vs -> blkwf (length vs) e -> is_state (blk vs e) /\ mval afs (blocks vs) (bexp_of e) = bytes_bits (blk vs e).
Proof.
  intros Hs. induction e as [k|s|e1 IH1 e2 IH2|e1 IH1 e2 IH2]; cbn [blkwf blk bexp_of]; intros H.
  - cbn [mval]. by apply block_pick.
  - done.
  - destruct H as [Ha Hb]. destruct (IH1 Ha) as [S1 E1], (IH2 Hb) as [S2 E2]. split; [by apply xor_state|]. cbn [mval]. rewrite E1, E2. symmetry. apply bytes_bits_xor.
  - destruct H as [Ha Hb]. destruct (IH1 Ha) as [S1 E1], (IH2 Hb) as [S2 E2]. split; [by apply aes_state|].
    assert (E : mval afs (blocks vs) (MCat (bexp_of e2) (bexp_of e1)) = bytes_bits (blk vs e2) ++ bytes_bits (blk vs e1)) by (cbn [mval]; by rewrite E1, E2).
    rewrite afs_call; rewrite E; [|by rewrite app_length, !state_bits].
    rewrite take_app_alt, drop_app_alt by (by rewrite state_bits). by rewrite !bits_bytes_bits by (apply S1 || apply S2).
Qed.
Lemma bexp_wf m e : blkwf m e -> mwf (sigs [] aes_lib) (128 * m) (bexp_of e) /\ msize (sigs [] aes_lib) (bexp_of e) = 128%nat.
Proof.
  rewrite aes_sigs. induction e as [k|s|e1 IH1 e2 IH2|e1 IH1 e2 IH2]; cbn [blkwf bexp_of mwf msize]; intros H.
  - split; [lia|done].
  - split; [done|by apply state_bits].
  - destruct H as [Ha Hb]. destruct (IH1 Ha) as [S1 E1], (IH2 Hb) as [S2 E2]. rewrite E1, E2. done.
  - destruct H as [Ha Hb]. destruct (IH1 Ha) as [S1 E1], (IH2 Hb) as [S2 E2]. rewrite E1, E2. unfold sg_at. cbn [nth fst snd length]. split_and?; try done; lia.
Qed.
Lemma blets_wf lets : forall m, blklwf m lets -> mlwf (sigs [] aes_lib) (128 * m) (map bexp_of lets) /\ mlen (sigs [] aes_lib) (128 * m) (map bexp_of lets) = (128 * (m + length lets))%nat.
Proof.
  induction lets as [|e lets IH]; intros m H; cbn [map mlwf mlen length]; [split; [done|f_equal; lia]|]. destruct H as [H1 H2]. destruct (bexp_wf m e H1) as [W Sz]. rewrite Sz.
  replace (128 * m + 128)%nat with (128 * S m)%nat by lia. destruct (IH (S m) H2) as [I1 I2]. split; [done|]. rewrite I2. f_equal. lia.
Qed.
Lemma bouts_wf m outs : Forall (blkwf m) outs -> mwf (sigs [] aes_lib) (128 * m) (blkouts outs) /\ msize (sigs [] aes_lib) (blkouts outs) = (128 * length outs)%nat.
Proof.
  induction 1 as [|e outs He _ [I1 I2]]; [done|]. cbn [blkouts foldr mwf msize length]. fold (blkouts outs). destruct (bexp_wf m e He) as [W Sz].
  split; [done|]. rewrite Sz, I2. lia.
Qed.
Lemma bouts_roots outs : Forall blkop outs -> Forall (eq None) (mroots (sigs [] aes_lib) (blkouts outs)).
Proof.
  assert (R : forall k, Forall (eq (@None nat)) (replicate k None)) by (intros k; apply Forall_forall; intros x Hx%elem_of_replicate_inv; done).
  induction 1 as [|e outs He _ IH]; [constructor|]. cbn [blkouts foldr mroots]. apply Forall_app. split; [|done]. destruct e; [done|apply R..].
Qed.
Lemma benv_value lets : forall vs, Forall is_state vs -> blklwf (length vs) lets ->
  menv afs (blocks vs) (map bexp_of lets) = blocks (blkenv vs lets) /\ length (blkenv vs lets) = (length vs + length lets)%nat /\ Forall is_state (blkenv vs lets).
Proof.
  induction lets as [|e lets IH]; intros vs Hs H; cbn [map menv blkenv length]; [split; [done|]; split; [lia|done]|]. destruct H as [H1 H2].
  destruct (bexp_value vs e Hs H1) as [S E]. rewrite E, <- blocks_snoc. destruct (IH (vs ++ [blk vs e])) as (I1 & I2 & I3).
  { apply Forall_app. split; [done|]. by constructor. }
  { rewrite app_length. cbn [length]. by rewrite Nat.add_1_r. }
  split; [done|]. split; [|done]. rewrite I2, app_length. cbn [length]. lia.
Qed.
Lemma brun_value vs lets outs : Forall is_state vs -> blklwf (length vs) lets -> Forall (blkwf (length vs + length lets)) outs ->
  bval afs (blocks vs) (map bexp_of lets) (blkouts outs) = blocks (blkrun vs lets outs).
Proof.
  intros Hs Hl Ho. destruct (benv_value lets vs Hs Hl) as (E & L & S). unfold bval. rewrite E. rewrite <- L in Ho. unfold blkrun. revert Ho S. generalize (blkenv vs lets). intros us Ho S.
  induction Ho as [|e outs He _ IH]; [done|]. cbn [blkouts foldr mval]. fold (blkouts outs). rewrite IH, (proj2 (bexp_value us e S He)). done.
Qed.
Lemma block_body_wf m lets outs : blklwf m lets -> Forall (blkwf (m + length lets)) outs -> body_wf (sigs [] aes_lib) (128 * m) (map bexp_of lets) (blkouts outs).
Proof. intros Hl Ho. destruct (blets_wf lets m Hl) as [L1 L2]. split; [done|]. rewrite L2. by apply bouts_wf. Qed.

(** * C66 *)
Theorem C66_blocks md h l m lets outs : BuildEval.fresh h l -> blklwf m lets -> Forall (blkwf (m + length lets)) outs -> Forall blkop outs ->
  exists h', block_design md l m lets outs h = (Ok tt, h') /\ inputs_of h' l = Ok (N.of_nat (128 * m)) /\ outputs_of h' l = Ok (N.of_nat (128 * length outs)) /\
    forall md', exists depth, forall fuel vs, (depth <= fuel)%nat -> length vs = m -> Forall is_state vs ->
      eval_output md' h' fuel l (concat (map bytes_bits vs)) = Ok (concat (map bytes_bits (blkrun vs lets outs))).
Proof.
  intros Hf Hl Ho Hp. pose proof (block_body_wf m lets outs Hl Ho) as Hw.
  destruct (C64_designs md h l aes_lib (128 * m) (map bexp_of lets) (blkouts outs) Hf aes_lib_wf Hw) as (h' & E & Hi & Hn & Ev).
  { intros c. apply fresh_outs; [exact Hw|by apply bouts_roots]. }
  exists h'. split; [exact E|]. split; [exact Hi|]. split; [by rewrite Hn, (proj2 (bouts_wf _ _ Ho))|].
  intros md'. destruct (Ev md') as [d Hd]. exists d. intros fuel vs Hfu Hm Hs. subst m. fold (blocks vs). rewrite Hd; [|done|by apply blocks_length].
  f_equal. rewrite afs_is. by apply brun_value.
Qed.
Theorem C66_exported md h l m lets outs : BuildEval.fresh h l -> cinv h -> blklwf m lets -> Forall (blkwf (m + length lets)) outs ->
  exists h', block_design md l m lets outs h = (Ok tt, h') /\ inputs_of h' l = Ok (N.of_nat (128 * m)) /\
    exports h' l (fun ins res => exists vs, length vs = m /\ Forall is_state vs /\ ins = concat (map bytes_bits vs) /\ res = concat (map bytes_bits (blkrun vs lets outs))).
Proof.
  intros Hf C Hl Ho. pose proof (block_body_wf m lets outs Hl Ho) as Hw.
  destruct (C64_exported md h l aes_lib (128 * m) (map bexp_of lets) (blkouts outs) Hf C aes_lib_wf Hw) as (h' & E & Hi & Ex).
  exists h'. split; [exact E|]. split; [exact Hi|]. intros c first Hc H1 H2. destruct (Ex c first Hc H1 H2) as (consts & ws & text & p & X1 & X2 & X3 & X4 & X5).
  exists consts, ws, text, p. do 4 (split; [done|]). intros q pad ins res (vs & Hm & Hs & -> & ->). intros Hpad. apply X5; [|done]. subst m. split; [by apply blocks_length|].
  rewrite afs_is. fold (blocks vs). symmetry. by apply brun_value.
Qed.

(** ** Cipher block chaining *)
(** Every block is combined with the encryption of the one before it, the first with [c] (NIST SP 800-38A, 6.2). *)
Fixpoint chain {A B} (f : A -> B -> A) (c : A) (ps : list B) : list A := match ps with [] => [] | p :: ps => f c p :: chain f (f c p) ps end.
Definition cbc_step (key c p : list N) : list N := aes128_encrypt key (xor_bytes p c).
Definition cbc (key c : list N) (ps : list (list N)) : list (list N) := chain (cbc_step key) c ps.
(** The inputs are the initial block, the key and [n] blocks of plain text. The results are used by the next block and cannot be outputs of the circuit
    (the evaluator may drop them, C14), so they are copied. *)
Definition zero_block : list N := replicate 16 0%N.
Definition cbc_let (n j : nat) : bexp := BEnc (BIn 1) (BXor (BIn (2 + j)) (BIn (if (j =? 0)%nat then 0 else n + 1 + j))).
Definition cbc_lets (n : nat) : list bexp := map (cbc_let n) (seq 0 n).
Definition cbc_outs (n : nat) : list bexp := map (fun j => BXor (BIn (n + 2 + j)) (BConst zero_block)) (seq 0 n).
Lemma chain_length {A B} (f : A -> B -> A) c ps : length (chain f c ps) = length ps.
Proof. revert c. induction ps as [|p ps IH]; intros c; [done|]. cbn [chain length]. by rewrite IH. Qed.
Lemma last_cons {A} (x c : A) l : List.last (x :: l) c = List.last l x.
Proof. revert x c. induction l as [|y l IH]; intros x c; [done|]. transitivity (List.last (y :: l) c); [done|]. by rewrite !IH. Qed.
Lemma chain_snoc {A B} (f : A -> B -> A) c ps p : chain f c (ps ++ [p]) = chain f c ps ++ [f (List.last (chain f c ps) c) p].
Proof. revert c. induction ps as [|q ps IH]; intros c; [done|]. cbn [app chain]. rewrite IH, last_cons. done. Qed.
Lemma cbc_length key c ps : length (cbc key c ps) = length ps. Proof. apply chain_length. Qed.
Lemma cbc_snoc key c ps p : cbc key c (ps ++ [p]) = cbc key c ps ++ [cbc_step key (List.last (cbc key c ps) c) p].
Proof. apply chain_snoc. Qed.
Lemma cbc_env iv key n : forall post pre, (length pre + length post)%nat = n ->
  blkenv (iv :: key :: (pre ++ post) ++ cbc key iv pre) (map (cbc_let n) (seq (length pre) (length post))) = iv :: key :: (pre ++ post) ++ cbc key iv (pre ++ post).
Proof.
  induction post as [|p post IH]; intros pre Hn; [cbn; by rewrite !app_nil_r|]. cbn [length seq map blkenv].
  assert (E : blk (iv :: key :: (pre ++ p :: post) ++ cbc key iv pre) (cbc_let n (length pre)) = cbc_step key (List.last (cbc key iv pre) iv) p).
  { unfold cbc_let. cbn [blk]. unfold cbc_step. assert (P : nth (2 + length pre) (iv :: key :: (pre ++ p :: post) ++ cbc key iv pre) [] = p).
    { cbn [Nat.add nth]. rewrite <- app_assoc, app_nth2, Nat.sub_diag by lia. done. }
    rewrite P. change (nth 1 (iv :: key :: (pre ++ p :: post) ++ cbc key iv pre) []) with key. apply (f_equal (fun c => aes128_encrypt key (xor_bytes p c))).
    destruct (Nat.eqb_spec (length pre) 0) as [E|E]; [by destruct pre|].
    replace (n + 1 + length pre)%nat with (S (S (length (pre ++ p :: post) + (length pre - 1)))) by (rewrite app_length; cbn [length] in *; lia).
    cbn [nth]. rewrite app_nth2_plus. rewrite <- (cbc_length key iv pre).
    destruct (@List.exists_last _ (cbc key iv pre)) as (ys & y & Ey); [intros Hnil; apply (f_equal length) in Hnil; rewrite cbc_length in Hnil; done|].
    rewrite Ey, List.last_last, app_length. cbn [length]. by rewrite Nat.add_sub, nth_middle. }
  rewrite E. specialize (IH (pre ++ [p])). assert ((pre ++ [p]) ++ post = pre ++ p :: post) as A by (by rewrite <- app_assoc). rewrite A in IH. rewrite app_length in IH. cbn [length] in IH.
  rewrite <- (Nat.add_1_r (length pre)). rewrite <- IH by (cbn [length] in Hn; lia). f_equal. cbn [app]. by rewrite cbc_snoc, <- !app_assoc.
Qed.
Lemma cbc_states key ps : is_state key -> Forall is_state ps -> forall c, is_state c -> Forall is_state (cbc key c ps).
Proof. intros Hk. induction 1 as [|p ps Hp _ IH]; intros c Hc; [constructor|]. unfold cbc. cbn [chain]. assert (is_state (cbc_step key c p)) by (by apply aes_state, xor_state). constructor; [done|by apply IH]. Qed.
Lemma xor_zero s : is_state s -> xor_bytes s zero_block = s.
Proof.
  intros [L _]. unfold zero_block. rewrite <- L. clear L. unfold xor_bytes. induction s as [|x s IH]; [done|]. cbn [length replicate zip_with]. by rewrite IH, N.lxor_0_r.
Qed.
Lemma cbc_run iv key ps : Forall is_state (iv :: key :: ps) -> blkrun (iv :: key :: ps) (cbc_lets (length ps)) (cbc_outs (length ps)) = cbc key iv ps.
Proof.
  intros Hs. inversion Hs as [|?? Hi Hs1]; subst. inversion Hs1 as [|?? Hk Hp]; subst. unfold blkrun, cbc_lets.
  pose proof (cbc_env iv key (length ps) ps [] eq_refl) as E. cbn [app cbc length] in E. rewrite app_nil_r in E. rewrite E.
  unfold cbc_outs. rewrite map_map. pose proof (cbc_states key ps Hk Hp iv Hi) as Hc. pose proof (cbc_length key iv ps) as L. clear E Hs Hs1. revert Hc L. generalize (cbc key iv ps). intros cs Hc L.
  apply list_eq. intros j. rewrite list_lookup_fmap. destruct (decide (j < length ps)%nat) as [Hj|Hj].
  - rewrite lookup_seq_lt by done. cbn [fmap option_fmap option_map]. destruct (lookup_lt_is_Some_2 cs j ltac:(lia)) as [x Hx]. rewrite Hx. f_equal. cbn [blk Nat.add].
    replace (length ps + 2 + j)%nat with (S (S (length ps + j))) by lia. cbn [nth]. rewrite app_nth2_plus, (nth_lookup_Some _ _ _ _ Hx). apply xor_zero. rewrite Forall_forall in Hc. apply Hc. by eapply elem_of_list_lookup_2.
  - rewrite lookup_seq_ge, (lookup_ge_None_2 cs) by lia. done.
Qed.
Lemma cbc_wf n : blklwf (n + 2) (cbc_lets n) /\ Forall (blkwf (n + 2 + length (cbc_lets n))) (cbc_outs n) /\ Forall blkop (cbc_outs n).
Proof.
  unfold cbc_lets, cbc_outs. rewrite map_length, seq_length. split; [|split].
  - assert (H : forall k j, (j + k <= n)%nat -> blklwf (n + 2 + j) (map (cbc_let n) (seq j k))).
    { induction k as [|k IH]; intros j Hj; [done|]. cbn [seq map blklwf]. split; [cbn; destruct (Nat.eqb_spec j 0); lia|]. rewrite <- Nat.add_succ_r. apply IH. lia. }
    specialize (H n 0%nat ltac:(lia)). by rewrite Nat.add_0_r in H.
  - apply Forall_map, Forall_forall. intros j Hj%elem_of_list_In%in_seq. cbn [blkwf]. split; [lia|]. split; [done|]. by apply Forall_replicate.
  - apply Forall_map, Forall_forall. done.
Qed.
Theorem C66_cbc md h l n : BuildEval.fresh h l ->
  exists h', block_design md l (n + 2) (cbc_lets n) (cbc_outs n) h = (Ok tt, h') /\
    forall md', exists depth, forall fuel iv key ps, (depth <= fuel)%nat -> length ps = n -> is_state iv -> is_state key -> Forall is_state ps ->
      eval_output md' h' fuel l (bytes_bits iv ++ bytes_bits key ++ concat (map bytes_bits ps)) = Ok (concat (map bytes_bits (cbc key iv ps))).
Proof.
  intros Hf. destruct (cbc_wf n) as (W1 & W2 & W3). destruct (C66_blocks md h l _ _ _ Hf W1 W2 W3) as (h' & E & _ & _ & Ev). exists h'. split; [done|].
  intros md'. destruct (Ev md') as [d Hd]. exists d. intros fuel iv key ps Hfu Hn Hi Hk Hp.
  specialize (Hd fuel (iv :: key :: ps) Hfu). cbn [map concat length] in Hd. rewrite Hd; [|lia|constructor; [done|by constructor]].
  do 3 f_equal. subst n. apply cbc_run. constructor; [done|]. by constructor.
Qed.
(** Vectors F.2.1 of NIST SP 800-38A (CBC-AES128.Encrypt), two blocks. *)
Definition sp_key : list N := [43; 126; 21; 22; 40; 174; 210; 166; 171; 247; 21; 136; 9; 207; 79; 60]%N.
Definition sp_iv : list N := [0; 1; 2; 3; 4; 5; 6; 7; 8; 9; 10; 11; 12; 13; 14; 15]%N.
Definition sp_plain : list (list N) :=
  [[107; 193; 190; 226; 46; 64; 159; 150; 233; 61; 126; 17; 115; 147; 23; 42]; [174; 45; 138; 87; 30; 3; 172; 156; 158; 183; 111; 172; 69; 175; 142; 81]]%N.
Example C66_example : BuildEval.fresh blank1 0 /\ is_state sp_iv /\ is_state sp_key /\ Forall is_state sp_plain /\
  cbc sp_key sp_iv sp_plain = [[118; 73; 171; 172; 129; 25; 178; 70; 206; 233; 142; 155; 18; 233; 25; 125]; [80; 134; 203; 155; 80; 114; 25; 238; 149; 219; 17; 58; 145; 118; 120; 178]]%N.
Proof. split; [apply fresh_blank1|]. split; [by repeat constructor|]. split; [by repeat constructor|]. split; [by repeat constructor|]. vm_compute. reflexivity. Qed.
