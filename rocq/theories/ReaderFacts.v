(** The reader simulates the execution of the program the text denotes. *)
From Verif Require Export Build Bristol Reader.
Open Scope N_scope.
Open Scope list_scope.

(** * Parsing loops *)
Lemma parse_usize_none t : num_value t = None -> forall n, parse_usize t <> Ok n.
Proof. intros H n E. apply parse_usize_value in E. congruence. Qed.
Lemma rd_operands_ok gw : forall toks k gs r, rd_operands gw toks k = Ok (gs, r) <->
  exists ws, k <= N.of_nat (length toks) /\ mapM num_value (take (N.to_nat k) toks) = Some ws /\ mapM (fun w => gw !! w) ws = Some gs /\
    r = drop (N.to_nat k) toks.
Proof.
  induction toks as [|t ts IH]; intros k gs r; cbn [rd_operands]; destruct (N.eqb_spec k 0) as [-> |Hk].
  - simpl. split; [intros [= <- <-]; exists []; done|]. intros (ws & _ & [= <-] & [= <-] & ->). done.
  - split; [done|]. intros (ws & H & _). simpl in H. lia.
  - simpl. split; [intros [= <- <-]; exists []; split; [lia|done]|]. intros (ws & _ & [= <-] & [= <-] & ->). done.
  - destruct (N.to_nat k) as [|k'] eqn:Ek; [lia|]. cbn [take drop length mapM].
    destruct (num_value t) as [w|] eqn:Et.
    + rewrite (proj2 (parse_usize_value t w) Et). cbn [res_bind]. cbn [mbind option_bind].
      specialize (IH (k - 1)). replace (N.to_nat (k - 1)) with k' in IH by lia.
      destruct (gw !! w) as [g|] eqn:Eg.
      * destruct (rd_operands gw ts (k - 1)) as [[gs' r']|e|p|] eqn:Er; cbn [res_bind].
        -- destruct (proj1 (IH gs' r') eq_refl) as (ws & H1 & H2 & H3 & H4). split.
           ++ intros [= <- <-]. exists (w :: ws). split; [lia|]. rewrite H2. split; [done|]. cbn [mapM]. rewrite Eg, H3. done.
           ++ intros (ws' & _ & H2' & H3' & ->). rewrite H2 in H2'. injection H2' as <-. cbn [mapM] in H3'. rewrite Eg, H3 in H3'.
              injection H3' as <-. by subst.
        -- split; [done|]. intros (ws' & H1 & H2' & H3' & ->). destruct (mapM num_value (take k' ts)) as [ws|]; [|done].
           injection H2' as <-. cbn [mapM] in H3'. rewrite Eg in H3'. destruct (mapM _ ws) as [gs''|] eqn:E3; [|done].
           assert (Err e = Ok (gs'', drop k' ts)) as Hx; [|done]. apply IH. exists ws. split; [lia|done].
        -- split; [done|]. intros (ws' & H1 & H2' & H3' & ->). destruct (mapM num_value (take k' ts)) as [ws|]; [|done].
           injection H2' as <-. cbn [mapM] in H3'. rewrite Eg in H3'. destruct (mapM _ ws) as [gs''|] eqn:E3; [|done].
           assert (Panic p = Ok (gs'', drop k' ts)) as Hx; [|done]. apply IH. exists ws. split; [lia|done].
        -- split; [done|]. intros (ws' & H1 & H2' & H3' & ->). destruct (mapM num_value (take k' ts)) as [ws|]; [|done].
           injection H2' as <-. cbn [mapM] in H3'. rewrite Eg in H3'. destruct (mapM _ ws) as [gs''|] eqn:E3; [|done].
           assert (NoFuel = Ok (gs'', drop k' ts)) as Hx; [|done]. apply IH. exists ws. split; [lia|done].
      * split; [done|]. intros (ws' & H1 & H2' & H3' & ->). destruct (mapM num_value (take k' ts)) as [ws|]; [|done].
        injection H2' as <-. cbn [mapM] in H3'. rewrite Eg in H3'. done.
    + split; [|by intros (ws' & _ & ? & _)]. destruct (parse_usize t) as [n| | |] eqn:En; try done.
      apply parse_usize_value in En. congruence.
Qed.
Lemma rd_nums_ok : forall toks k ws r, rd_nums toks k = Ok (ws, r) <->
  k <= N.of_nat (length toks) /\ mapM num_value (take (N.to_nat k) toks) = Some ws /\ r = drop (N.to_nat k) toks.
Proof.
  induction toks as [|t ts IH]; intros k ws r; cbn [rd_nums]; destruct (N.eqb_spec k 0) as [-> |Hk].
  - simpl. split; [by intros [= <- <-]|]. by intros (_ & [= <-] & ->).
  - split; [done|]. intros (H & _). simpl in H. lia.
  - simpl. split; [intros [= <- <-]; split; [lia|done]|]. by intros (_ & [= <-] & ->).
  - destruct (N.to_nat k) as [|k'] eqn:Ek; [lia|]. cbn [take drop length mapM].
    destruct (num_value t) as [w|] eqn:Et.
    + rewrite (proj2 (parse_usize_value t w) Et). cbn [res_bind mbind option_bind].
      specialize (IH (k - 1)). replace (N.to_nat (k - 1)) with k' in IH by lia.
      destruct (mapM num_value (take k' ts)) as [ws0|] eqn:E2; cbn [mbind option_bind].
      * destruct (N.leb_spec (k - 1) (N.of_nat (length ts))) as [L|L].
        -- rewrite (proj2 (IH ws0 (drop k' ts))) by done. cbn [res_bind]. split.
           ++ intros [= <- <-]. split; [lia|done].
           ++ intros (_ & [= <-] & ->). done.
        -- split.
           ++ destruct (rd_nums ts (k - 1)) as [[a b]| | |] eqn:Er; try done. destruct (proj1 (IH a b) eq_refl) as [? _]. lia.
           ++ intros [? _]. lia.
      * split; [|by intros (_ & ? & _)]. destruct (rd_nums ts (k - 1)) as [[a b]| | |] eqn:Er; try done.
        by destruct (proj1 (IH a b) eq_refl) as (_ & ? & _).
    + split; [|by intros (_ & ? & _)]. destruct (parse_usize t) as [n| | |] eqn:En; try done.
      apply parse_usize_value in En. congruence.
Qed.
Lemma rd_sum_ok md : forall toks k s n, s < 2 ^ 64 -> (md = Debug \/ forall ns, mapM num_value (take (N.to_nat k) toks) = Some ns -> s + nsum ns < 2 ^ 64) ->
  rd_sum md toks k s = Ok n <->
  exists ns, k <= N.of_nat (length toks) /\ mapM num_value (take (N.to_nat k) toks) = Some ns /\ n = s + nsum ns /\ n < 2 ^ 64.
Proof.
  induction toks as [|t ts IH]; intros k s n Hs Hmd; cbn [rd_sum]; destruct (N.eqb_spec k 0) as [-> |Hk].
  - simpl. split; [intros [= <-]; exists []; simpl; rewrite N.add_0_r; done|]. intros (ws & _ & [= <-] & -> & _). f_equal. simpl; lia.
  - split; [done|]. intros (ws & H & _). simpl in H. lia.
  - simpl. split; [intros [= <-]; exists []; simpl; rewrite N.add_0_r; split; [lia|done]|]. intros (ws & _ & [= <-] & -> & _). f_equal. simpl; lia.
  - destruct (N.to_nat k) as [|k'] eqn:Ek; [lia|]. cbn [take drop length mapM] in *.
    destruct (num_value t) as [w|] eqn:Et.
    + rewrite (proj2 (parse_usize_value t w) Et). cbn [res_bind mbind option_bind] in *.
      unfold usize_add. change usize_modulus with (2 ^ 64). destruct (N.ltb_spec (s + w) (2 ^ 64)) as [L|L]; cbn [res_bind].
      * specialize (IH (k - 1) (s + w) n L). replace (N.to_nat (k - 1)) with k' in IH by lia. rewrite IH; clear IH.
        -- split.
           ++ intros (ns & H1 & H2 & H3 & H4). exists (w :: ns). rewrite H2. split; [lia|]. split; [done|]. simpl. split; [lia|done].
           ++ intros (ns & H1 & H2 & H3 & H4). destruct (mapM num_value (take k' ts)) as [ns'|]; [|done]. injection H2 as <-. exists ns'.
              split; [lia|]. split; [done|]. simpl in H3. split; [lia|done].
        -- destruct Hmd as [-> |Hmd]; [by left|right]. intros ns Hns. rewrite Hns in Hmd. specialize (Hmd (w :: ns) eq_refl). simpl in Hmd. lia.
      * split.
        -- destruct md; [done|]. destruct Hmd as [|Hmd]; [done|]. cbn [res_bind]. 
           intros Hr. exfalso.
           assert (exists ns', mapM num_value (take k' ts) = Some ns') as [ns' Hns].
           { clear -Hr Ek. revert k k' Ek Hr. generalize ((s + w) mod 2 ^ 64). induction ts as [|t ts IH]; intros v k k' Ek Hr; cbn [rd_sum] in Hr.
             - destruct (N.eqb_spec (k - 1) 0); [|done]. replace k' with O by lia. by exists [].
             - destruct (N.eqb_spec (k - 1) 0); [replace k' with O by lia; by exists []|].
               destruct k' as [|k']; [lia|]. cbn [take mapM]. destruct (parse_usize t) as [x| | |] eqn:Ex; try done.
               apply parse_usize_value in Ex. rewrite Ex. cbn [mbind option_bind res_bind] in *.
               destruct (usize_add Release v x) as [v'| | |]; try done. cbn [res_bind] in Hr.
               destruct (IH v' (k - 1) k') as [ns' ->]; [lia|done|]. by eexists. }
           rewrite Hns in Hmd. specialize (Hmd _ eq_refl). simpl in Hmd. lia.
        -- intros (ns & H1 & H2 & H3 & H4). destruct (mapM num_value (take k' ts)) as [ns'|]; [|done]. injection H2 as <-. simpl in H3. lia.
    + split; [|by intros (ws' & _ & ? & _)]. destruct (parse_usize t) as [x| | |] eqn:En; try done.
      apply parse_usize_value in En. congruence.
Qed.

(** * Simulation *)
(** Wire by wire, the reader's map and the execution environment (a function of the inputs) correspond. *)
Definition fval (F : (N -> bool) -> gmap N bool) (w : N) (ρ : N -> bool) : bool := default false (F ρ !! w).
Definition sim (h : heap) (l : nat) (gw : gmap N N) (F : (N -> bool) -> gmap N bool) : Prop :=
  forall w, match gw !! w with
            | Some g => (forall ρ, is_Some (F ρ !! w)) /\ gf h l g (fval F w)
            | None => forall ρ, F ρ !! w = None
            end.
Lemma sim_ext h h' l gw F : ext l h h' -> sim h l gw F -> sim h' l gw F.
Proof. intros X S w. specialize (S w). destruct (gw !! w); [|done]. destruct S. split; [done|]. by eapply gf_ext. Qed.
Lemma sim_insert h l gw F w g f : sim h l gw F -> gf h l g f -> sim h l (<[w := g]> gw) (fun ρ => <[w := f ρ]> (F ρ)).
Proof.
  intros S G w'. destruct (decide (w = w')) as [-> |Hn].
  - rewrite lookup_insert. split; [intros ρ; rewrite lookup_insert; eauto|]. eapply gf_eq; [exact G|]. intros ρ. unfold fval. by rewrite lookup_insert.
  - rewrite lookup_insert_ne by done. specialize (S w'). destruct (gw !! w') as [g'|].
    + destruct S as [S1 S2]. split; [intros ρ; by rewrite lookup_insert_ne|]. eapply gf_eq; [exact S2|]. intros ρ. unfold fval. by rewrite lookup_insert_ne.
    + intros ρ. by rewrite lookup_insert_ne.
Qed.
Lemma sim_mapM h l gw F ws gs : sim h l gw F -> mapM (fun w => gw !! w) ws = Some gs ->
  (forall ρ, mapM (fun w => F ρ !! w) ws = Some (map (fun w => fval F w ρ) ws)) /\ Forall2 (fun g w => gf h l g (fval F w)) gs ws.
Proof.
  intros S. revert gs. induction ws as [|w ws IH]; intros gs E; cbn [mapM] in E.
  - injection E as <-. split; [done|constructor].
  - pose proof (S w) as Sw. destruct (gw !! w) as [g|]; [|done]. destruct (mapM _ ws) as [gs'|]; [|done]. injection E as <-.
    destruct (IH gs' eq_refl) as [H1 H2]. split.
    + intros ρ. cbn [mapM map]. rewrite H1. destruct Sw as [Sw _]. unfold fval at 2. destruct (Sw ρ) as [b ->]. done.
    + constructor; [apply Sw|done].
Qed.
Lemma sim_mapM_none h l gw F ws ρ : sim h l gw F -> mapM (fun w => gw !! w) ws = None -> mapM (fun w => F ρ !! w) ws = None.
Proof.
  intros S. induction ws as [|w ws IH]; intros E; cbn [mapM] in *; [done|].
  pose proof (S w) as Sw. destruct (gw !! w) as [g|].
  - destruct Sw as [Sw _]. destruct (Sw ρ) as [b ->]. destruct (mapM (fun w => gw !! w) ws); [done|]. simpl. by rewrite IH.
  - by rewrite Sw.
Qed.

Definition arity (k : gkind) : nat := match k with KXor | KAnd | KOr => 2 | _ => 1 end.
(** Gates created for a line. *)
Definition kind_cost (k : gkind) : N := match k with KEqw | KEq => 2 | _ => 1 end.
Definition kind_val (k : gkind) (vs : list bool) : bool := default false (kind_fun k vs).
Lemma kind_fun_some k vs : is_Some (kind_fun k vs) <-> (arity k <= length vs)%nat.
Proof.
  split.
  - intros [b E]. destruct k, vs as [|x [|y vs]]; simpl in *; try done; lia.
  - intros H. destruct k, vs as [|x [|y vs]]; simpl in *; try lia; eauto.
Qed.
Section Counted.
Context {nc : N}.
(** The counters of the circuit being built; the number of constants does not change. *)
Definition cnt (h : heap) (l : nat) (il ol ng : N) : Prop :=
  exists c, h_circ h !! l = Some c /\ input_len c = il /\ output_len c = ol /\ num_gate c = ng /\ num_const c = nc.
Lemma cnt_push h l c gt c' il ol ng : h_circ h !! l = Some c' -> push c gt c' -> is_input gt = false -> is_logic gt = true ->
  input_len c = il /\ output_len c = ol /\ num_gate c = ng /\ num_const c = nc -> cnt h l il ol (ng + 1).
Proof.
  intros E P Hi Hl (H1 & H2 & H3 & H4). exists c'. split; [done|]. rewrite (p_il _ _ _ P), (p_ol _ _ _ P), (p_ng _ _ _ P), (p_nc _ _ _ P), Hi, Hl.
  assert (is_const gt = false) as -> by (destruct gt; done). lia.
Qed.

Lemma rd_gate_ok h l gw F k gs ws os o il ol ng : wk h l -> cnt h l il ol ng -> sim h l gw F ->
  Forall2 (fun g w => gf h l g (fval F w)) gs ws -> (arity k <= length gs)%nat -> head os = Some o ->
  exists g h', rd_gate l (kind_name k) gs os (gw, h) = (Ok tt, (<[o := g]> gw, h')) /\ wk h' l /\ ext l h h' /\ cnt h' l il ol (ng + kind_cost k) /\
    sim h' l (<[o := g]> gw) (fun ρ => <[o := kind_val k (map (fun w => fval F w ρ) ws)]> (F ρ)).
Proof.
  intros W (c & E & Hc) S FF Ha Ho. destruct os as [|o' os]; [done|]. injection Ho as ->.
  destruct k; cbn [arity] in Ha; (destruct gs as [|a gs]; [simpl in Ha; lia|]); apply Forall2_cons_inv_l in FF as (wa & ws' & Fa & FF & ->).
  2,3,4: (destruct gs as [|b gs]; [simpl in Ha; lia|]); apply Forall2_cons_inv_l in FF as (wb & ws'' & Fb & FF & ->).
  - destruct (s_not h l c W E a _ Fa) as (h' & c' & Er & W' & X & E' & P & G). exists (gate_index c), h'.
    split; [unfold rd_gate, st_bind, rd_h; simpl; rewrite Er; done|]. split; [done|]. split; [done|].
    split; [eapply cnt_push; eauto; done|]. apply sim_insert; [by eapply sim_ext|done].
  - destruct (s_xor h l c W E a b _ _ Fa Fb) as (h' & c' & Er & W' & X & E' & P & G). exists (gate_index c), h'.
    split; [unfold rd_gate, st_bind, rd_h; simpl; rewrite Er; done|]. split; [done|]. split; [done|].
    split; [eapply cnt_push; eauto; done|]. apply sim_insert; [by eapply sim_ext|done].
  - destruct (s_and h l c W E a b _ _ Fa Fb) as (h' & c' & Er & W' & X & E' & P & G). exists (gate_index c), h'.
    split; [unfold rd_gate, st_bind, rd_h; simpl; rewrite Er; done|]. split; [done|]. split; [done|].
    split; [eapply cnt_push; eauto; done|]. apply sim_insert; [by eapply sim_ext|done].
  - destruct (s_or h l c W E a b _ _ Fa Fb) as (h' & c' & Er & W' & X & E' & P & G). exists (gate_index c), h'.
    split; [unfold rd_gate, st_bind, rd_h; simpl; rewrite Er; done|]. split; [done|]. split; [done|].
    split; [eapply cnt_push; eauto; done|]. apply sim_insert; [by eapply sim_ext|done].
  - destruct (s_identity h l c W E a _ Fa) as (h' & c1 & c2 & Er & W' & X & E' & P1 & P2 & G). exists (gate_index c + 1), h'.
    split; [unfold rd_gate, st_bind, rd_h; simpl; rewrite Er; done|]. split; [done|]. split; [done|].
    split; [|apply sim_insert; [by eapply sim_ext|done]]. replace (ng + kind_cost KEqw) with (ng + 1 + 1) by (simpl; lia). eapply cnt_push; eauto.
    rewrite (p_il _ _ _ P1), (p_ol _ _ _ P1), (p_ng _ _ _ P1), (p_nc _ _ _ P1). simpl. lia.
  - destruct (s_identity h l c W E a _ Fa) as (h' & c1 & c2 & Er & W' & X & E' & P1 & P2 & G). exists (gate_index c + 1), h'.
    split; [unfold rd_gate, st_bind, rd_h; simpl; rewrite Er; done|]. split; [done|]. split; [done|].
    split; [|apply sim_insert; [by eapply sim_ext|done]]. replace (ng + kind_cost KEq) with (ng + 1 + 1) by (simpl; lia). eapply cnt_push; eauto.
    rewrite (p_il _ _ _ P1), (p_ol _ _ _ P1), (p_ng _ _ _ P1), (p_nc _ _ _ P1). simpl. lia.
Qed.
Lemma rd_gate_inv l ty gs os s s' : rd_gate l ty gs os s = (Ok tt, s') ->
  exists k, kind_of_name ty = Some k /\ (arity k <= length gs)%nat /\ is_Some (head os).
Proof.
  unfold rd_gate. intros H.
  destruct (String.eqb_spec ty "INV") as [-> |]; [exists KInv|].
  2: destruct (String.eqb_spec ty "XOR") as [-> |]; [exists KXor|].
  3: destruct (String.eqb_spec ty "AND") as [-> |]; [exists KAnd|].
  4: destruct (String.eqb_spec ty "OR") as [-> |]; [exists KOr|].
  5: destruct (String.eqb_spec ty "EQ") as [-> |]; [exists KEq|].
  6: destruct (String.eqb_spec ty "EQW") as [-> |]; [exists KEqw|].
  7: done.
  all: unfold st_bind, st_nth in H; destruct gs as [|a gs]; simpl in H; try done.
  2,3,4: destruct gs as [|b gs]; simpl in H; try done.
  all: destruct (rd_h _ s) as [[g|e|p|] s1]; try done; destruct os as [|o os]; simpl in H; try done.
  all: split; [done|]; split; [simpl; lia|]; eauto.
Qed.

(** * One line *)
Lemma next_num_ok toks n r : next_num toks = Ok (n, r) <-> exists t, toks = t :: r /\ num_value t = Some n.
Proof.
  unfold next_num, next_tok. destruct toks as [|t ts]; cbn [res_bind]; [split; [done|]; by intros (? & ? & _)|].
  split.
  - destruct (parse_usize t) as [x| | |] eqn:E; try done. cbn [res_bind]. intros [= <- <-]. apply parse_usize_value in E. eauto.
  - intros (t' & [= -> ->] & H%parse_usize_value). by rewrite H.
Qed.
Lemma parse_line_iff toks gl : parse_line toks = Some gl <->
  exists tn tm rest ty r, toks = tn :: tm :: rest /\
    num_value tn = Some (N.of_nat (length (gl_ins gl))) /\ num_value tm = Some (N.of_nat (length (gl_outs gl))) /\
    N.of_nat (length (gl_ins gl)) <= N.of_nat (length rest) /\
    mapM num_value (take (length (gl_ins gl)) rest) = Some (gl_ins gl) /\
    N.of_nat (length (gl_outs gl)) <= N.of_nat (length (drop (length (gl_ins gl)) rest)) /\
    mapM num_value (take (length (gl_outs gl)) (drop (length (gl_ins gl)) rest)) = Some (gl_outs gl) /\
    drop (length (gl_outs gl)) (drop (length (gl_ins gl)) rest) = ty :: r /\ kind_of_name ty = Some (gl_kind gl).
Proof.
  split.
  - unfold parse_line. destruct toks as [|tn [|tm rest]]; try done.
    destruct (num_value tn) as [n|] eqn:En; [|done]. destruct (num_value tm) as [m|] eqn:Em; [|done]. cbn [mbind option_bind].
    destruct (N.ltb_spec (n + m) (N.of_nat (length rest))) as [L|]; [|done].
    destruct (mapM num_value (take (N.to_nat n) rest)) as [ins|] eqn:Ei; [|done]. cbn [mbind option_bind].
    destruct (mapM num_value (take (N.to_nat m) _)) as [outs|] eqn:Eo; [|done]. cbn [mbind option_bind].
    destruct (rest !! N.to_nat (n + m)) as [ty|] eqn:Et; [|done]. cbn [mbind option_bind].
    destruct (kind_of_name ty) as [k|] eqn:Ek; [|done]. cbn [mbind option_bind]. intros [= <-]. cbn [gl_ins gl_outs gl_kind].
    pose proof (mapM_length _ _ _ Ei) as Li. rewrite take_length in Li.
    pose proof (mapM_length _ _ _ Eo) as Lo. rewrite take_length, drop_length in Lo.
    assert (length ins = N.to_nat n) as Li' by lia. assert (length outs = N.to_nat m) as Lo' by lia.
    rewrite Li', Lo'. exists tn, tm, rest, ty, (drop (S (N.to_nat (n + m))) rest). rewrite !N2Nat.id. split; [done|].
    split; [done|]. split; [done|]. split; [lia|]. split; [done|]. split; [rewrite drop_length; lia|]. split; [done|]. split; [|done].
    rewrite drop_drop. replace (N.to_nat n + N.to_nat m)%nat with (N.to_nat (n + m)) by lia. by apply drop_S.
  - intros (tn & tm & rest & ty & r & -> & Hn & Hm & L1 & H1 & L2 & H2 & H3 & H4). unfold parse_line. rewrite Hn, Hm. cbn [mbind option_bind].
    assert (rest !! (length (gl_ins gl) + length (gl_outs gl))%nat = Some ty) as Ht.
    { rewrite <- !lookup_drop in *. rewrite <- (Nat.add_0_r (length (gl_outs gl))), <- lookup_drop, H3. done. }
    pose proof (lookup_lt_Some _ _ _ Ht). rewrite (proj2 (N.ltb_lt _ _)) by lia. rewrite !Nat2N.id, H1, H2.
    replace (N.to_nat _) with (length (gl_ins gl) + length (gl_outs gl))%nat by lia. rewrite Ht. cbn [mbind option_bind]. rewrite H4. by destruct gl.
Qed.
Lemma rd_line_gate l toks gl gs gw h : parse_line toks = Some gl -> mapM (fun w => gw !! w) (gl_ins gl) = Some gs ->
  rd_line l toks (gw, h) = rd_gate l (kind_name (gl_kind gl)) gs (gl_outs gl) (gw, h).
Proof.
  intros H Hg. apply parse_line_iff in H as (tn & tm & rest & ty & r & -> & Hn & Hm & L1 & H1 & L2 & H2 & H3 & H4).
  unfold rd_line, st_bind, st_lift, rd_map.
  rewrite (proj2 (next_num_ok (tn :: tm :: rest) (N.of_nat (length (gl_ins gl))) (tm :: rest))) by eauto.
  rewrite (proj2 (next_num_ok (tm :: rest) (N.of_nat (length (gl_outs gl))) rest)) by eauto. cbn [fst].
  rewrite (proj2 (rd_operands_ok gw rest (N.of_nat (length (gl_ins gl))) gs (drop (length (gl_ins gl)) rest))).
  2: { exists (gl_ins gl). rewrite Nat2N.id. eauto. }
  rewrite (proj2 (rd_nums_ok (drop (length (gl_ins gl)) rest) (N.of_nat (length (gl_outs gl))) (gl_outs gl) (ty :: r))) by (rewrite ?Nat2N.id; eauto).
  cbn [next_tok]. apply kind_of_name_iff in H4 as ->. done.
Qed.
Lemma rd_line_inv l toks gw h s' : rd_line l toks (gw, h) = (Ok tt, s') ->
  exists gl gs, parse_line toks = Some gl /\ mapM (fun w => gw !! w) (gl_ins gl) = Some gs /\
    (arity (gl_kind gl) <= length (gl_ins gl))%nat /\ is_Some (head (gl_outs gl)).
Proof.
  unfold rd_line, st_bind, st_lift, rd_map. destruct (next_num toks) as [[n t1]| | |] eqn:E1; try done.
  apply next_num_ok in E1 as (tn & -> & Hn). destruct (next_num t1) as [[m t2]| | |] eqn:E2; try done.
  apply next_num_ok in E2 as (tm & -> & Hm). cbn [fst]. destruct (rd_operands gw t2 n) as [[gs t3]| | |] eqn:E3; try done.
  apply rd_operands_ok in E3 as (ws & L1 & H1 & Hg & ->).
  destruct (rd_nums _ m) as [[os t4]| | |] eqn:E4; try done. apply rd_nums_ok in E4 as (L2 & H2 & ->).
  destruct (next_tok _) as [[ty t5]| | |] eqn:E5; try done. intros H. apply rd_gate_inv in H as (k & Hk & Ha & Ho).
  pose proof (mapM_length _ _ _ H1) as Li. rewrite take_length in Li.
  pose proof (mapM_length _ _ _ H2) as Lo. rewrite take_length in Lo.
  assert (length ws = N.to_nat n) as Li' by lia. assert (length os = N.to_nat m) as Lo' by lia.
  exists (GLine k ws os), gs. split.
  - apply parse_line_iff. cbn [gl_ins gl_outs gl_kind]. exists tn, tm, t2, ty, t5. rewrite Li', Lo', !N2Nat.id. 
    repeat (split; [done|]). split; [|done]. destruct (drop (N.to_nat m) (drop (N.to_nat n) t2)); [done|]. injection E5 as -> ->. done.
  - split; [done|]. cbn [gl_ins gl_outs gl_kind]. split; [|done]. pose proof (mapM_length _ _ _ Hg). lia.
Qed.
(** A line executes exactly when the reader's map knows its operands and it has enough operands and an output. *)
Lemma exec_line_sim h l gw F gl ρ : sim h l gw F -> is_Some (exec_line EqCopies (F ρ) gl) ->
  exists gs o, mapM (fun w => gw !! w) (gl_ins gl) = Some gs /\ (arity (gl_kind gl) <= length (gl_ins gl))%nat /\ head (gl_outs gl) = Some o.
Proof.
  intros S [e E]. unfold exec_line, line_value in E.
  destruct (mapM (fun w => gw !! w) (gl_ins gl)) as [gs|] eqn:Eg.
  - destruct (sim_mapM _ _ _ _ _ _ S Eg) as [H1 _]. rewrite H1 in E. cbn [mbind option_bind] in E.
    destruct (kind_fun _ _) as [v|] eqn:Ev; [|done]. destruct (head (gl_outs gl)) as [o|] eqn:Eo; [|done].
    exists gs, o. split; [done|]. split; [|done]. assert (is_Some (kind_fun (gl_kind gl) (map (fun w => fval F w ρ) (gl_ins gl)))) as Hk by eauto.
    apply kind_fun_some in Hk. by rewrite map_length in Hk.
  - rewrite (sim_mapM_none _ _ _ _ _ ρ S Eg) in E. done.
Qed.
Lemma exec_line_val h l gw F gl gs o ρ : sim h l gw F -> mapM (fun w => gw !! w) (gl_ins gl) = Some gs ->
  (arity (gl_kind gl) <= length (gl_ins gl))%nat -> head (gl_outs gl) = Some o ->
  exec_line EqCopies (F ρ) gl = Some (<[o := kind_val (gl_kind gl) (map (fun w => fval F w ρ) (gl_ins gl))]> (F ρ)).
Proof.
  intros S Eg Ha Ho. unfold exec_line, line_value. destruct (sim_mapM _ _ _ _ _ _ S Eg) as [H1 _]. rewrite H1, Ho. cbn [mbind option_bind].
  unfold kind_val. destruct (proj2 (kind_fun_some (gl_kind gl) (map (fun w => fval F w ρ) (gl_ins gl)))) as [v ->]; [by rewrite map_length|].
  done.
Qed.
Lemma rd_line_ok h l gw F toks gl il ol ng ρ : wk h l -> cnt h l il ol ng -> sim h l gw F -> parse_line toks = Some gl ->
  is_Some (exec_line EqCopies (F ρ) gl) ->
  exists gw' h' F', rd_line l toks (gw, h) = (Ok tt, (gw', h')) /\ wk h' l /\ ext l h h' /\ cnt h' l il ol (ng + kind_cost (gl_kind gl)) /\
    sim h' l gw' F' /\ forall ρ, exec_line EqCopies (F ρ) gl = Some (F' ρ).
Proof.
  intros W C S P He. destruct (exec_line_sim _ _ _ _ _ _ S He) as (gs & o & Eg & Ha & Ho).
  destruct (sim_mapM _ _ _ _ _ _ S Eg) as [_ FF].
  destruct (rd_gate_ok h l gw F (gl_kind gl) gs (gl_ins gl) (gl_outs gl) o il ol ng W C S FF) as (g & h' & Er & W' & X & C' & S').
  - by rewrite (Forall2_length _ _ _ FF).
  - done.
  - do 3 eexists. rewrite (rd_line_gate l toks gl gs gw h P Eg). split; [exact Er|]. split; [done|]. split; [done|]. split; [done|].
    split; [exact S'|]. intros ρ'. by eapply exec_line_val.
Qed.

(** * All lines *)
Definition lines_cost (gls : list gline) : N := nsum (map (fun gl => kind_cost (gl_kind gl)) gls).
Lemma rd_lines_ok l il ol ρ : forall ls gls h gw F ng, wk h l -> cnt h l il ol ng -> sim h l gw F ->
  mapM (fun x => parse_line (tokens x)) (until_empty ls) = Some gls -> is_Some (exec_lines EqCopies (F ρ) gls) ->
  exists gw' h' F', rd_lines l ls (gw, h) = (Ok tt, (gw', h')) /\ wk h' l /\ ext l h h' /\ cnt h' l il ol (ng + lines_cost gls) /\
    sim h' l gw' F' /\ forall ρ, exec_lines EqCopies (F ρ) gls = Some (F' ρ).
Proof.
  induction ls as [|x r IH]; intros gls h gw F ng W C S P He; cbn [until_empty rd_lines] in *.
  - injection P as <-. exists gw, h, F. split; [done|]. split; [done|]. split; [apply ext_refl|]. 
    replace (ng + lines_cost []) with ng by (cbn; lia). done.
  - destruct (String.eqb x "").
    + injection P as <-. exists gw, h, F. split; [done|]. split; [done|]. split; [apply ext_refl|]. 
      replace (ng + lines_cost []) with ng by (cbn; lia). done.
    + cbn [mapM] in P. destruct (parse_line (tokens x)) as [gl|] eqn:Ep; [|done]. cbn [mbind option_bind] in P.
      destruct (mapM _ (until_empty r)) as [gls'|] eqn:Er; [|done]. injection P as <-. cbn [exec_lines] in He.
      destruct (exec_line EqCopies (F ρ) gl) as [e1|] eqn:E1; [|by destruct He].
      destruct (rd_line_ok h l gw F (tokens x) gl il ol ng ρ W C S Ep) as (gw1 & h1 & F1 & Er1 & W1 & X1 & C1 & S1 & V1); [eauto|].
      destruct (IH gls' h1 gw1 F1 _ W1 C1 S1 eq_refl) as (gw2 & h2 & F2 & Er2 & W2 & X2 & C2 & S2 & V2).
      { rewrite V1 in E1. injection E1 as ->. done. }
      exists gw2, h2, F2. split; [unfold st_bind; by rewrite Er1|]. split; [done|]. split; [by eapply ext_trans|]. split.
      { replace (ng + lines_cost (gl :: gls')) with (ng + kind_cost (gl_kind gl) + lines_cost gls') by (unfold lines_cost; cbn [map nsum fold_right]; unfold nsum; lia). done. }
      split; [done|]. intros ρ'. cbn [exec_lines]. rewrite V1. apply V2.
Qed.
Lemma rd_lines_inv l il ol : forall ls h gw F ng s', wk h l -> cnt h l il ol ng -> sim h l gw F -> rd_lines l ls (gw, h) = (Ok tt, s') ->
  exists gls, mapM (fun x => parse_line (tokens x)) (until_empty ls) = Some gls /\ forall ρ, is_Some (exec_lines EqCopies (F ρ) gls).
Proof.
  induction ls as [|x r IH]; intros h gw F ng s' W C S H; cbn [until_empty rd_lines] in *; [exists []; eauto|].
  destruct (String.eqb x ""); [exists []; eauto|].
  unfold st_bind in H. destruct (rd_line l (tokens x) (gw, h)) as [[[]|e|p|] s1] eqn:E1; try done.
  destruct (rd_line_inv _ _ _ _ _ E1) as (gl & gs & Ep & Eg & Ha & [o Ho]).
  destruct (rd_line_ok h l gw F (tokens x) gl il ol ng (fun _ => false) W C S Ep) as (gw1 & h1 & F1 & Er1 & W1 & X1 & C1 & S1 & V1).
  { rewrite (exec_line_val _ _ _ _ _ _ _ _ S Eg Ha Ho). eauto. }
  rewrite Er1 in E1. injection E1 as <-. destruct (IH _ _ _ _ _ W1 C1 S1 H) as (gls & Hm & He). exists (gl :: gls).
  cbn [mapM]. rewrite Ep. cbn [mbind option_bind]. rewrite Hm. split; [done|]. intros ρ. cbn [exec_lines]. rewrite V1. apply He.
Qed.

(** * Inputs *)
Definition loaded (n : N) (ρ : N -> bool) : gmap N bool := load_from 0 (map ρ (nrange n)).
Lemma loaded_succ n ρ : loaded (n + 1) ρ = <[n := ρ n]> (loaded n ρ).
Proof.
  apply map_eq. intros i. unfold loaded. rewrite load_from_0, list_lookup_fmap, nrange_lookup.
  destruct (decide (i = n)) as [-> |Hn].
  - rewrite lookup_insert, N2Nat.id, decide_True by lia. done.
  - rewrite lookup_insert_ne, load_from_0, list_lookup_fmap, nrange_lookup, N2Nat.id by done. repeat destruct decide; try lia; done.
Qed.
Lemma sim_ext_fun h l gw F F' : sim h l gw F -> (forall ρ, F ρ = F' ρ) -> sim h l gw F'.
Proof.
  intros S H w. specialize (S w). destruct (gw !! w); [|intros ρ; by rewrite <- H]. destruct S as [S1 S2].
  split; [intros ρ; by rewrite <- H|]. eapply gf_eq; [exact S2|]. intros ρ. unfold fval. by rewrite H.
Qed.
(** The wires [0..n) carry the inputs from [i0] on, whatever the others carry. *)
Definition over (i0 n : N) (F : (N -> bool) -> gmap N bool) (ρ : N -> bool) : gmap N bool := loaded n (fun j => ρ (i0 + j)) ∪ F ρ.
Lemma over_0 i0 F ρ : over i0 0 F ρ = F ρ.
Proof. unfold over, loaded. rewrite nrange_0. apply map_empty_union. Qed.
Lemma over_fresh n ρ : over 0 n (fun _ => ∅) ρ = loaded n ρ.
Proof. unfold over. rewrite map_union_empty. by unfold loaded. Qed.
Lemma rd_inputs_at l ol ng i0 F : forall k w h gw, wk h l -> cnt h l (i0 + w) ol ng -> sim h l gw (over i0 w F) ->
  exists gw' h', rd_inputs l k w (gw, h) = (Ok tt, (gw', h')) /\ wk h' l /\ ext l h h' /\ cnt h' l (i0 + (w + N.of_nat k)) ol ng /\
    sim h' l gw' (over i0 (w + N.of_nat k) F).
Proof.
  induction k as [|k IH]; intros w h gw W C S; cbn [rd_inputs].
  - exists gw, h. rewrite N.add_0_r. split; [done|]. split; [done|]. split; [apply ext_refl|done].
  - destruct C as (c & E & C1 & C2 & C3 & C4). destruct (s_input h l c W E) as (h1 & c1 & Er & W1 & X1 & E1 & P & G).
    destruct (IH (w + 1) h1 (<[w := gate_index c]> gw) W1) as (gw' & h' & Er' & W' & X' & C' & S').
    + exists c1. split; [done|]. rewrite (p_il _ _ _ P), (p_ol _ _ _ P), (p_ng _ _ _ P), (p_nc _ _ _ P). simpl. lia.
    + eapply sim_ext_fun; [apply sim_insert; [by eapply sim_ext|exact G]|]. intros ρ. simpl. rewrite C1. unfold over.
      by rewrite loaded_succ, insert_union_l.
    + exists gw', h'. split; [unfold st_bind, rd_h, rd_insert; simpl; by rewrite Er|]. split; [done|]. split; [by eapply ext_trans|].
      replace (w + N.of_nat (Datatypes.S k)) with (w + 1 + N.of_nat k) by lia. done.
Qed.
Lemma rd_groups_at l ol ng i0 F : forall toks k ns w h gw, wk h l -> cnt h l (i0 + w) ol ng -> sim h l gw (over i0 w F) ->
  k <= N.of_nat (length toks) -> mapM num_value (take (N.to_nat k) toks) = Some ns ->
  exists gw' h', rd_groups l toks k w (gw, h) = (Ok tt, (gw', h')) /\ wk h' l /\ ext l h h' /\ cnt h' l (i0 + (w + nsum ns)) ol ng /\
    sim h' l gw' (over i0 (w + nsum ns) F).
Proof.
  induction toks as [|t ts IH]; intros k ns w h gw W C S Hk Hn; cbn [rd_groups length] in *; destruct (N.eqb_spec k 0) as [-> |Hk0].
  1,3: injection Hn as <-; exists gw, h; simpl; rewrite N.add_0_r; split; [done|]; split; [done|]; split; [apply ext_refl|done].
  - lia.
  - destruct (N.to_nat k) as [|k'] eqn:Ek; [lia|]. cbn [take mapM] in Hn. destruct (num_value t) as [n|] eqn:Et; [|done].
    cbn [mbind option_bind] in Hn. destruct (mapM num_value (take k' ts)) as [ns'|] eqn:Em; [|done]. injection Hn as <-.
    destruct (rd_inputs_at l ol ng i0 F (N.to_nat n) w h gw W C S) as (gw1 & h1 & E1 & W1 & X1 & C1 & S1). rewrite N2Nat.id in *.
    destruct (IH (k - 1) ns' (w + n) h1 gw1 W1 C1 S1) as (gw2 & h2 & E2 & W2 & X2 & C2 & S2); [lia|by replace (N.to_nat (k - 1)) with k' by lia|].
    exists gw2, h2. split.
    { unfold st_bind, st_lift. rewrite (proj2 (parse_usize_value t n) Et). by rewrite E1. }
    split; [done|]. split; [by eapply ext_trans|]. simpl. by rewrite (N.add_assoc w n).
Qed.
Lemma rd_groups_inv l : forall toks k w s s', rd_groups l toks k w s = (Ok tt, s') ->
  k <= N.of_nat (length toks) /\ exists ns, mapM num_value (take (N.to_nat k) toks) = Some ns.
Proof.
  induction toks as [|t ts IH]; intros k w s s' H; cbn [rd_groups length] in *; destruct (N.eqb_spec k 0) as [-> |Hk0].
  1,3: split; [lia|by exists []].
  - done.
  - unfold st_bind, st_lift in H. destruct (parse_usize t) as [n| | |] eqn:Et; try done.
    destruct (rd_inputs _ _ _ s) as [[[]| | |] s1]; try done. apply IH in H as [H1 [ns H2]]. split; [lia|].
    apply parse_usize_value in Et. destruct (N.to_nat k) as [|k'] eqn:Ek; [lia|]. replace (N.to_nat (k - 1)) with k' in H2 by lia.
    exists (n :: ns). cbn [take mapM]. rewrite Et. cbn [mbind option_bind]. by rewrite H2.
Qed.

(** * Outputs *)
Lemma rd_outputs_ok l : forall k w gw gs h c, wk h l -> h_circ h !! l = Some c -> (forall g, g ∈ gs -> has_gate h l g) ->
  mapM (fun w => gw !! w) (nseq w k) = Some gs ->
  exists h' c', rd_outputs l k w (gw, h) = (Ok tt, (gw, h')) /\ wk h' l /\ ext l h h' /\ h_circ h' !! l = Some c' /\
    output_len c' = output_len c + N.of_nat k /\ input_len c' = input_len c /\ num_gate c' = num_gate c /\ num_const c' = num_const c /\
    (forall j g, gs !! j = Some g -> output_map c' !! (output_len c + N.of_nat j) = Some g) /\
    (forall j, j < output_len c -> output_map c' !! j = output_map c !! j).
Proof.
  induction k as [|k IH]; intros w gw gs h c W E Hg Hm; cbn [rd_outputs nseq mapM] in *.
  - injection Hm as <-. exists h, c. split; [done|]. split; [done|]. split; [apply ext_refl|]. split; [done|]. split; [lia|]. done.
  - destruct (gw !! w) as [g|] eqn:Eg; [|done]. cbn [mbind option_bind] in Hm.
    destruct (mapM _ (nseq (w + 1) k)) as [gs'|] eqn:Em; [|done]. injection Hm as <-.
    destruct (s_output h l c W E g) as (h1 & c1 & Er & W1 & X1 & E1 & P); [apply Hg; by left|].
    destruct (IH (w + 1) gw gs' h1 c1 W1 E1) as (h2 & c2 & Er2 & W2 & X2 & E2 & O2 & I2 & N2 & K2 & L2 & M2); [|done|].
    { intros g' Hg'. eapply has_gate_hle; [apply X1|]. apply Hg. by right. }
    rewrite (po_eq _ _ _ P) in *. cbn [output_len input_len num_gate num_const output_map] in *.
    exists h2, c2. split. { unfold st_bind, rd_map, rd_h. cbn [fst snd]. rewrite Eg. unfold st_bind. cbn [fst snd]. rewrite Er. exact Er2. }
    split; [done|]. split; [by eapply ext_trans|]. split; [done|]. split; [lia|]. split; [done|]. split; [done|]. split; [done|]. split.
    + intros [|j] g' Hj.
      * injection Hj as <-. rewrite N.add_0_r, M2 by lia. by rewrite lookup_insert.
      * specialize (L2 j g' Hj). by replace (output_len c + N.of_nat (S j)) with (output_len c + 1 + N.of_nat j) by lia.
    + intros j Hj. rewrite M2 by lia. by rewrite lookup_insert_ne by lia.
Qed.
Lemma rd_outputs_inv l : forall k w gw h s', rd_outputs l k w (gw, h) = (Ok tt, s') -> is_Some (mapM (fun w => gw !! w) (nseq w k)).
Proof.
  induction k as [|k IH]; intros w gw h s' H; cbn [rd_outputs nseq mapM] in *; [eauto|].
  unfold st_bind, rd_map, rd_h in H. cbn [fst snd] in H. destruct (gw !! w) as [g|]; [|done]. cbn [fst snd] in H.
  destruct (r_output l g h) as [[x| | |] h1]; try done. cbn [fst snd] in H. apply IH in H as [gs ->]. cbn. eauto.
Qed.

End Counted.

(** * The whole text *)
Definition rho_of (inputs : list bool) (w : N) : bool := default false (inputs !! N.to_nat w).
Lemma loaded_rho n inputs : N.of_nat (length inputs) = n -> loaded n (rho_of inputs) = load_from 0 inputs.
Proof.
  intros <-. unfold loaded. f_equal. apply list_eq. intros i. rewrite list_lookup_fmap, nrange_lookup. destruct decide as [D|D]; simpl.
  - unfold rho_of. rewrite Nat2N.id. destruct (lookup_lt_is_Some_2 inputs i) as [b ->]; [lia|done].
  - symmetry. apply lookup_ge_None. lia.
Qed.
Lemma sim_none h l : sim h l ∅ (fun _ => ∅).
Proof. intros w. rewrite lookup_empty. intros ρ. apply lookup_empty. Qed.

Lemma parse_prog_iff text p : parse_prog text = Some p <->
  exists l1 l2 l3 l4 rest tg tw r1 t2 r2 t3 r3, lines text = l1 :: l2 :: l3 :: l4 :: rest /\ tokens l1 = tg :: tw :: r1 /\
    num_value tg = Some (pr_gates p) /\ num_value tw = Some (pr_wires p) /\
    tokens l2 = t2 :: r2 /\ num_value t2 = Some (N.of_nat (length (pr_in p))) /\ N.of_nat (length (pr_in p)) <= N.of_nat (length r2) /\
      mapM num_value (take (length (pr_in p)) r2) = Some (pr_in p) /\
    tokens l3 = t3 :: r3 /\ num_value t3 = Some (N.of_nat (length (pr_out p))) /\ N.of_nat (length (pr_out p)) <= N.of_nat (length r3) /\
      mapM num_value (take (length (pr_out p)) r3) = Some (pr_out p) /\
    mapM (fun l => parse_line (tokens l)) (until_empty rest) = Some (pr_lines p).
Proof.
  assert (forall l ns, parse_counted (tokens l) = Some ns <-> exists t r, tokens l = t :: r /\ num_value t = Some (N.of_nat (length ns)) /\
    N.of_nat (length ns) <= N.of_nat (length r) /\ mapM num_value (take (length ns) r) = Some ns) as HC.
  { intros l ns. unfold parse_counted. destruct (tokens l) as [|t r]; [split; [done|by intros (? & ? & ? & _)]|]. split.
    - destruct (num_value t) as [k|] eqn:Ek; [|done]. cbn [mbind option_bind]. destruct (N.leb_spec k (N.of_nat (length r))) as [L|]; [|done].
      intros H. pose proof (mapM_length _ _ _ H) as Hl. rewrite take_length in Hl. assert (length ns = N.to_nat k) as Hk by lia.
      exists t, r. rewrite Hk, N2Nat.id. done.
    - intros (t' & r' & [= <- <-] & -> & L & H). cbn [mbind option_bind]. rewrite (proj2 (N.leb_le _ _) L), Nat2N.id. done. }
  unfold parse_prog. split.
  - destruct (lines text) as [|l1 [|l2 [|l3 [|l4 rest]]]]; try done.
    destruct (tokens l1) as [|tg [|tw r1]] eqn:E1; try done.
    destruct (num_value tg) as [g|] eqn:Eg; [|done]. destruct (num_value tw) as [w|] eqn:Ew; [|done]. cbn [mbind option_bind].
    destruct (parse_counted (tokens l2)) as [ins|] eqn:E2; [|done]. cbn [mbind option_bind].
    destruct (parse_counted (tokens l3)) as [outs|] eqn:E3; [|done]. cbn [mbind option_bind].
    destruct (mapM _ (until_empty rest)) as [gls|] eqn:E4; [|done]. cbn [mbind option_bind]. intros [= <-]. cbn.
    apply HC in E2 as (t2 & r2 & ? & ? & ? & ?). apply HC in E3 as (t3 & r3 & ? & ? & ? & ?).
    exists l1, l2, l3, l4, rest, tg, tw, r1, t2, r2, t3, r3. repeat (split; [done|]). done.
  - intros (l1 & l2 & l3 & l4 & rest & tg & tw & r1 & t2 & r2 & t3 & r3 & -> & -> & -> & -> & E2 & V2 & L2 & M2 & E3 & V3 & L3 & M3 & ->).
    cbn [mbind option_bind]. rewrite (proj2 (HC l2 (pr_in p))) by (exists t2, r2; done). rewrite (proj2 (HC l3 (pr_out p))) by (exists t3, r3; done). cbn [mbind option_bind]. by destruct p.
Qed.
Lemma read_prefix_at {nc} md h l text p gw0 F il ol ng : wk h l -> cnt (nc := nc) h l il ol ng -> sim h l gw0 F -> parse_prog text = Some p ->
  nsum (pr_out p) < 2 ^ 64 ->
  exists gw h1 ls, wk h1 l /\ ext l h h1 /\ cnt (nc := nc) h1 l (il + nsum (pr_in p)) ol ng /\ sim h1 l gw (over il (nsum (pr_in p)) F) /\
    mapM (fun l => parse_line (tokens l)) (until_empty ls) = Some (pr_lines p) /\
    read md l text (gw0, h) = (rd_lines l ls ;; lo <- st_lift (usize_sub md (pr_wires p) (nsum (pr_out p))) ;;
                               rd_outputs l (N.to_nat (pr_wires p - lo)) lo) (gw, h1).
Proof.
  intros W C S P Ho. apply parse_prog_iff in P as
    (l1 & l2 & l3 & l4 & rest & tg & tw & r1 & t2 & r2 & t3 & r3 & Hl & Ht & Vg & Vw & E2 & V2 & L2 & M2 & E3 & V3 & L3 & M3 & M4).
  destruct (rd_groups_at (nc := nc) l ol ng il F r2 (N.of_nat (length (pr_in p))) (pr_in p) 0 h gw0 W) as (gw & h1 & Er & W1 & X1 & C1 & S1);
    [by rewrite N.add_0_r|eapply sim_ext_fun; [exact S|]; intros ρ; by rewrite over_0|done|by rewrite Nat2N.id|]. rewrite N.add_0_l in *.
  exists gw, h1, rest. split; [done|]. split; [done|]. split; [done|]. split; [done|]. split; [done|].
  unfold read, st_bind, st_lift. rewrite Hl. cbn [next_line]. 
  rewrite (proj2 (next_num_ok (tokens l1) (pr_gates p) (tw :: r1))) by eauto. rewrite (proj2 (next_num_ok (tw :: r1) (pr_wires p) r1)) by eauto.
  rewrite (proj2 (next_num_ok (tokens l2) (N.of_nat (length (pr_in p))) r2)) by eauto. rewrite Er.
  rewrite (proj2 (next_num_ok (tokens l3) (N.of_nat (length (pr_out p))) r3)) by eauto.
  assert (rd_sum md r3 (N.of_nat (length (pr_out p))) 0 = Ok (nsum (pr_out p))) as ->; [|reflexivity].
  apply rd_sum_ok; [done|rewrite Nat2N.id, M3; right; intros ns [= <-]; by rewrite N.add_0_l|].
  exists (pr_out p). rewrite Nat2N.id. done.
Qed.
Lemma read_prefix md h l s text p : wk h l -> h_circ h !! l = Some (circuit_new s) -> parse_prog text = Some p -> nsum (pr_out p) < 2 ^ 64 ->
  exists gw h1 ls, wk h1 l /\ ext l h h1 /\ cnt (nc := 0) h1 l (nsum (pr_in p)) 0 0 /\ sim h1 l gw (loaded (nsum (pr_in p))) /\
    mapM (fun l => parse_line (tokens l)) (until_empty ls) = Some (pr_lines p) /\
    read md l text (∅, h) = (rd_lines l ls ;; lo <- st_lift (usize_sub md (pr_wires p) (nsum (pr_out p))) ;;
                             rd_outputs l (N.to_nat (pr_wires p - lo)) lo) (gw, h1).
Proof.
  intros W E P Ho.
  assert (C0 : cnt (nc := 0) h l 0 0 0) by (exists (circuit_new s); repeat split; done).
  destruct (read_prefix_at md h l text p ∅ (fun _ => ∅) 0 0 0 W C0 (sim_none h l) P Ho) as (gw & h1 & ls & W1 & X1 & C1 & S1 & M1 & Er).
  exists gw, h1, ls. split; [done|]. split; [done|]. split; [done|]. split; [|done]. eapply sim_ext_fun; [exact S1|]. apply over_fresh.
Qed.
Lemma rd_lines_prefix {nc} l il ol ρ : forall pre ls gl post h gw F ng, wk h l -> cnt (nc := nc) h l il ol ng -> sim h l gw F ->
  mapM (fun x => parse_line (tokens x)) (until_empty ls) = Some (pre ++ gl :: post) -> is_Some (exec_lines EqCopies (F ρ) pre) ->
  exists gw' h' F' ng' toks ls', wk h' l /\ ext l h h' /\ cnt (nc := nc) h' l il ol ng' /\ sim h' l gw' F' /\ parse_line toks = Some gl /\
    (forall ρ, exec_lines EqCopies (F ρ) pre = Some (F' ρ)) /\
    rd_lines l ls (gw, h) = (rd_line l toks ;; rd_lines l ls') (gw', h').
Proof.
  induction pre as [|gl0 pre IH]; intros ls gl post h gw F ng W C S P He.
  - destruct ls as [|x r]; cbn [until_empty] in P; [done|]. destruct (String.eqb x "") eqn:Ex; [done|]. cbn [mapM] in P.
    destruct (parse_line (tokens x)) as [gl'|] eqn:Ep; [|done]. cbn [mbind option_bind] in P.
    destruct (mapM _ (until_empty r)) as [gls'|] eqn:Er; [|done]. injection P as -> ->.
    exists gw, h, F, ng, (tokens x), r. split; [done|]. split; [apply ext_refl|]. split; [done|]. split; [done|]. split; [done|]. split; [done|].
    cbn [rd_lines]. by rewrite Ex.
  - destruct ls as [|x r]; cbn [until_empty] in P; [done|]. destruct (String.eqb x "") eqn:Ex; [done|]. cbn [mapM] in P.
    destruct (parse_line (tokens x)) as [gl'|] eqn:Ep; [|done]. cbn [mbind option_bind] in P.
    destruct (mapM _ (until_empty r)) as [gls'|] eqn:Er; [|done]. injection P as -> ->. cbn [exec_lines] in He.
    destruct (exec_line EqCopies (F ρ) gl0) as [e1|] eqn:E1; [|by destruct He].
    destruct (rd_line_ok h l gw F (tokens x) gl0 il ol ng ρ W C S Ep) as (gw1 & h1 & F1 & Er1 & W1 & X1 & C1 & S1 & V1); [eauto|].
    destruct (IH r gl post h1 gw1 F1 _ W1 C1 S1 Er) as (gw2 & h2 & F2 & ng2 & toks & ls' & W2 & X2 & C2 & S2 & P2 & V2 & Er2).
    { rewrite V1 in E1. injection E1 as ->. done. }
    exists gw2, h2, F2, ng2, toks, ls'. split; [done|]. split; [by eapply ext_trans|]. split; [done|]. split; [done|]. split; [done|]. split.
    + intros ρ'. cbn [exec_lines]. rewrite V1. apply V2.
    + cbn [rd_lines]. rewrite Ex. unfold st_bind at 1. rewrite Er1. exact Er2.
Qed.
Lemma rd_sum_parse md : forall toks k s n, rd_sum md toks k s = Ok n ->
  k <= N.of_nat (length toks) /\ exists ns, mapM num_value (take (N.to_nat k) toks) = Some ns.
Proof.
  induction toks as [|t ts IH]; intros k s n H; cbn [rd_sum length] in *; destruct (N.eqb_spec k 0) as [-> |Hk0].
  1,3: split; [lia|by exists []].
  - done.
  - destruct (parse_usize t) as [x| | |] eqn:Et; try done. cbn [res_bind] in H.
    destruct (usize_add md s x) as [s'| | |]; try done. cbn [res_bind] in H. apply IH in H as [H1 [ns H2]]. split; [lia|].
    apply parse_usize_value in Et. destruct (N.to_nat k) as [|k'] eqn:Ek; [lia|]. replace (N.to_nat (k - 1)) with k' in H2 by lia.
    exists (x :: ns). cbn [take mapM]. rewrite Et. cbn [mbind option_bind]. by rewrite H2.
Qed.
Lemma rd_sum_debug toks k s n ns : s < 2 ^ 64 -> mapM num_value (take (N.to_nat k) toks) = Some ns -> rd_sum Debug toks k s = Ok n ->
  n = s + nsum ns /\ n < 2 ^ 64.
Proof. intros Hs Hn H. apply rd_sum_ok in H as (ns' & _ & H1 & H2 & H3); [|done|by left]. rewrite Hn in H1. by injection H1 as <-. Qed.
Lemma read_inv_at {nc} md h l text s' gw0 F il ol ng : wk h l -> cnt (nc := nc) h l il ol ng -> sim h l gw0 F -> read md l text (gw0, h) = (Ok tt, s') ->
  exists p, parse_prog text = Some p /\ (md = Debug -> nsum (pr_out p) <= pr_wires p).
Proof.
  intros W C S H. unfold read, st_bind, st_lift in H.
  destruct (lines text) as [|l1 [|l2 [|l3 [|l4 rest]]]] eqn:El; cbn [next_line] in H; try done.
  { destruct (next_num (tokens l1)) as [[g ts]| | |]; try done. by destruct (next_num ts) as [[g' ts']| | |]. }
  { destruct (next_num (tokens l1)) as [[g ts]| | |]; try done. destruct (next_num ts) as [[g' ts']| | |]; try done.
    destruct (next_num (tokens l2)) as [[g2 ts2]| | |]; try done. by destruct (rd_groups _ _ _ _ _) as [[[]| | |] ?]. }
  { destruct (next_num (tokens l1)) as [[g ts]| | |]; try done. destruct (next_num ts) as [[g' ts']| | |]; try done.
    destruct (next_num (tokens l2)) as [[g2 ts2]| | |]; try done. destruct (rd_groups _ _ _ _ _) as [[[]| | |] ?]; try done.
    destruct (next_num (tokens l3)) as [[g3 ts3]| | |]; try done. by destruct (rd_sum _ _ _ _). }
  destruct (next_num (tokens l1)) as [[ng0 ts]| | |] eqn:E1; try done. apply next_num_ok in E1 as (tg & E1 & Vg).
  destruct (next_num ts) as [[nw ts']| | |] eqn:E1'; try done. apply next_num_ok in E1' as (tw & -> & Vw).
  destruct (next_num (tokens l2)) as [[ki r2]| | |] eqn:E2; try done. apply next_num_ok in E2 as (t2 & E2 & V2).
  destruct (rd_groups l r2 ki 0 (gw0, h)) as [[[]| | |] s1] eqn:Eg; try done.
  destruct (rd_groups_inv _ _ _ _ _ _ Eg) as [Lg [ins Mg]].
  destruct (next_num (tokens l3)) as [[ko r3]| | |] eqn:E3; try done. apply next_num_ok in E3 as (t3 & E3 & V3).
  destruct (rd_sum md r3 ko 0) as [osum| | |] eqn:Eo; try done.
  destruct (rd_sum_parse _ _ _ _ _ Eo) as [Lo [outs Mo]].
  destruct (rd_groups_at (nc := nc) l ol ng il F r2 ki ins 0 h gw0 W) as (gw & h1 & Er & W1 & X1 & C1 & S1);
    [by rewrite N.add_0_r|eapply sim_ext_fun; [exact S|]; intros ρ; by rewrite over_0|done|done|].
  rewrite Er in Eg. injection Eg as <-. rewrite N.add_0_l in *.
  destruct (rd_lines l rest (gw, h1)) as [[[]| | |] s2] eqn:E4; try done.
  destruct (rd_lines_inv _ _ _ _ _ _ _ _ _ W1 C1 S1 E4) as (gls & Hm & _).
  pose proof (mapM_length _ _ _ Mg) as Li. rewrite take_length in Li. pose proof (mapM_length _ _ _ Mo) as Lo'. rewrite take_length in Lo'.
  assert (length ins = N.to_nat ki) as Hki by lia. assert (length outs = N.to_nat ko) as Hko by lia.
  exists (Prog ng0 nw ins outs gls). split.
  - apply parse_prog_iff. cbn [pr_gates pr_wires pr_in pr_out pr_lines]. exists l1, l2, l3, l4, rest, tg, tw, ts', t2, r2, t3, r3.
    rewrite Hki, Hko, !N2Nat.id. repeat (split; [done|]). done.
  - cbn. intros ->. destruct (rd_sum_debug r3 ko 0 osum outs) as [-> _]; [lia|done|done|]. rewrite N.add_0_l in *. 
    unfold usize_sub in H. destruct (N.leb_spec (nsum outs) nw); done.
Qed.
Lemma read_inv md h l s text s' : wk h l -> h_circ h !! l = Some (circuit_new s) -> read md l text (∅, h) = (Ok tt, s') ->
  exists p, parse_prog text = Some p /\ (md = Debug -> nsum (pr_out p) <= pr_wires p).
Proof.
  intros W E. assert (C0 : cnt (nc := 0) h l 0 0 0) by (exists (circuit_new s); repeat split; done).
  apply (read_inv_at md h l text s' ∅ (fun _ => ∅) 0 0 0 W C0 (sim_none h l)).
Qed.
(** What a successful reading built. *)
Lemma read_ok_at {nc} md h l text p gw0 F il ol ng ρ : wk h l -> cnt (nc := nc) h l il ol ng -> sim h l gw0 F ->
  parse_prog text = Some p -> nsum (pr_out p) <= pr_wires p -> pr_wires p < 2 ^ 64 ->
  (forall e, exec_lines EqCopies (over il (nsum (pr_in p)) F ρ) (pr_lines p) = Some e ->
    is_Some (mapM (fun w => e !! w) (nseq (pr_wires p - nsum (pr_out p)) (N.to_nat (nsum (pr_out p)))))) ->
  is_Some (exec_lines EqCopies (over il (nsum (pr_in p)) F ρ) (pr_lines p)) ->
  exists s' h' c' F', read md l text (gw0, h) = (Ok tt, (s', h')) /\ wk h' l /\ ext l h h' /\ h_circ h' !! l = Some c' /\
    cnt (nc := nc) h' l (il + nsum (pr_in p)) (ol + nsum (pr_out p)) (ng + lines_cost (pr_lines p)) /\
    sim h' l s' F' /\ (forall ρ, exec_lines EqCopies (over il (nsum (pr_in p)) F ρ) (pr_lines p) = Some (F' ρ)) /\
    forall ρ k, k < nsum (pr_out p) -> exists b o, F' ρ !! (pr_wires p - nsum (pr_out p) + k) = Some b /\
        output_map c' !! (ol + k) = Some o /\ gv h' l (fun w => Some (ρ w)) o b.
Proof.
  intros W C S P Ho Hw Hm He.
  destruct (read_prefix_at md h l text p gw0 F il ol ng W C S P) as (gw & h1 & ls & W1 & X1 & C1 & S1 & M1 & Er); [lia|].
  destruct (rd_lines_ok l _ _ ρ ls _ h1 gw _ _ W1 C1 S1 M1 He) as (gw2 & h2 & F2 & Er2 & W2 & X2 & C2 & S2 & V2).
  set (lo := pr_wires p - nsum (pr_out p)) in *. set (k := N.to_nat (nsum (pr_out p))) in *.
  destruct (mapM (fun w => gw2 !! w) (nseq lo k)) as [gs|] eqn:Eg.
  2: { destruct (Hm (F2 ρ)) as [vs Hv]; [apply V2|]. rewrite (sim_mapM_none _ _ _ _ _ _ S2 Eg) in Hv. done. }
  destruct (sim_mapM _ _ _ _ _ _ S2 Eg) as [_ FF].
  destruct C2 as (c2 & E2 & I2 & O2 & G2 & K2).
  destruct (rd_outputs_ok l k lo gw2 gs h2 c2 W2 E2) as (h3 & c3 & Er3 & W3 & X3 & E3 & O3 & I3 & G3 & K3 & L3 & N3); [|done|].
  { intros g Hg. apply elem_of_list_lookup in Hg as [i Hi]. destruct (Forall2_lookup_l _ _ _ _ _ FF Hi) as (w & _ & G). apply G. }
  exists gw2, h3, c3, F2. split.
  - rewrite Er. unfold st_bind, st_lift. rewrite Er2. unfold usize_sub. rewrite (proj2 (N.leb_le _ _) Ho). fold lo.
    replace (N.to_nat (pr_wires p - lo)) with k by lia. done.
  - split; [done|]. split; [eapply ext_trans; [exact X1|]; by eapply ext_trans|]. split; [done|].
    split. { exists c3. split; [done|]. split; [congruence|]. split; [rewrite O3, O2; lia|]. split; [rewrite G3, G2; lia|congruence]. }
    split; [by eapply sim_ext|]. split; [done|].
    intros ρ' j Hj. assert (nseq lo k !! N.to_nat j = Some (lo + j)) as Hs by (rewrite nseq_lookup, decide_True, N2Nat.id by lia; done).
    destruct (Forall2_lookup_r _ _ _ _ _ FF Hs) as (g & Hg & Gf). exists (fval F2 (lo + j) ρ'), g. split.
    + specialize (S2 (lo + j)). pose proof (mapM_Some_1 _ _ _ Eg) as Fm. destruct (Forall2_lookup_l _ _ _ _ _ Fm Hs) as (g' & Hg' & Hw').
        rewrite Hw' in S2. destruct S2 as [S2 _]. destruct (S2 ρ') as [b Hb]. unfold fval. by rewrite Hb.
    + split; [specialize (L3 _ _ Hg); rewrite O2, N2Nat.id in L3; done|]. eapply gf_ext in Gf; [|exact X3]. apply Gf.
Qed.
Lemma read_ok md h l s text p ρ : wk h l -> h_circ h !! l = Some (circuit_new s) -> parse_prog text = Some p ->
  nsum (pr_out p) <= pr_wires p -> pr_wires p < 2 ^ 64 ->
  (forall e, exec_lines EqCopies (loaded (nsum (pr_in p)) ρ) (pr_lines p) = Some e ->
    is_Some (mapM (fun w => e !! w) (nseq (pr_wires p - nsum (pr_out p)) (N.to_nat (nsum (pr_out p)))))) ->
  is_Some (exec_lines EqCopies (loaded (nsum (pr_in p)) ρ) (pr_lines p)) ->
  exists s' h' c', read md l text (∅, h) = (Ok tt, (s', h')) /\ wk h' l /\ ext l h h' /\ h_circ h' !! l = Some c' /\
    input_len c' = nsum (pr_in p) /\ output_len c' = nsum (pr_out p) /\ num_gate c' = lines_cost (pr_lines p) /\ num_const c' = 0 /\
    forall ρ, exists e, exec_lines EqCopies (loaded (nsum (pr_in p)) ρ) (pr_lines p) = Some e /\
      forall k, k < nsum (pr_out p) -> exists b o, e !! (pr_wires p - nsum (pr_out p) + k) = Some b /\
        output_map c' !! k = Some o /\ gv h' l (fun w => Some (ρ w)) o b.
Proof.
  intros W E P Ho Hw Hm He.
  assert (C0 : cnt (nc := 0) h l 0 0 0) by (exists (circuit_new s); repeat split; done).
  rewrite <- (over_fresh _ ρ) in Hm, He.
  destruct (read_ok_at md h l text p ∅ (fun _ => ∅) 0 0 0 ρ W C0 (sim_none h l) P Ho Hw Hm He)
    as (s' & h' & c' & F' & Er & W' & X' & E' & (c1 & E1 & H1 & H2 & H3 & H4) & S' & V' & Vo).
  rewrite E' in E1. injection E1 as <-. exists s', h', c'. do 4 (split; [done|]). split; [done|]. split; [done|]. split; [done|]. split; [done|].
  intros ρ'. exists (F' ρ'). split; [by rewrite <- (over_fresh _ ρ')|]. intros k Hk. by apply Vo.
Qed.

(** * Outputs nobody reads *)
(** Below the index [b] the gates are those of [G0]. From there on there are no module gates, each wire has its own gate, operands are not below [b], and
    a gate that is an operand belongs to no wire outside [U]. *)
Section Free.
Context {b0 : N} {G0 : gmap N gate}.
Record free (c : circuit) (gw : gmap N N) (U : list N) : Prop := {
  fr_bnd : b0 <= gate_index c;
  fr_old : forall g, g < b0 -> gate_map c !! g = G0 !! g;
  fr_mod : forall g gt, b0 <= g -> gate_map c !! g = Some gt -> is_module gt = false;
  fr_inj : forall w w' g, gw !! w = Some g -> gw !! w' = Some g -> w = w';
  fr_lt : forall w g, gw !! w = Some g -> b0 <= g < gate_index c;
  fr_ops : forall d gt a, b0 <= d -> gate_map c !! d = Some gt -> a ∈ operands gt -> b0 <= a < gate_index c;
  fr_use : forall d gt a w, b0 <= d -> gate_map c !! d = Some gt -> a ∈ operands gt -> gw !! w = Some a -> w ∈ U;
}.
Lemma free_mono c gw U U' : free c gw U -> (forall w, w ∈ U -> w ∈ U') -> free c gw U'.
Proof. intros [] H. split; eauto. Qed.
Lemma free_push c gt c' gw U : free c gw U -> push c gt c' -> (forall a, a ∈ operands gt -> b0 <= a < gate_index c) ->
  (forall a w, a ∈ operands gt -> gw !! w = Some a -> w ∈ U) -> free c' gw U.
Proof.
  intros Fr P Hl Ha. split.
  - rewrite (p_gi _ _ _ P). pose proof (fr_bnd _ _ _ Fr). lia.
  - intros g Hg. rewrite (push_lookup _ _ _ _ P). pose proof (fr_bnd _ _ _ Fr). rewrite decide_False by lia. by apply Fr.
  - intros g gt' Hb G. rewrite (push_lookup _ _ _ _ P) in G. destruct decide; [injection G as <-; apply (p_kind _ _ _ P)|by eapply (fr_mod _ _ _ Fr)].
  - apply Fr.
  - intros w g Hg. rewrite (p_gi _ _ _ P). pose proof (fr_lt _ _ _ Fr _ _ Hg). lia.
  - intros d gt' a Hb G Hin. rewrite (push_lookup _ _ _ _ P) in G. rewrite (p_gi _ _ _ P). destruct decide.
    + injection G as <-. pose proof (Hl _ Hin). lia.
    + pose proof (fr_ops _ _ _ Fr _ _ _ Hb G Hin). lia.
  - intros d gt' a w Hb G Hin Hw. rewrite (push_lookup _ _ _ _ P) in G. destruct decide; [injection G as <-; eauto|by eapply (fr_use _ _ _ Fr)].
Qed.
Lemma free_insert c gt c' gw U o : free c gw U -> (forall a, a ∈ operands gt -> b0 <= a < gate_index c) -> push c gt c' ->
  (forall a w, a ∈ operands gt -> gw !! w = Some a -> w ∈ U) -> free c' (<[o := gate_index c]> gw) U.
Proof.
  intros Fr Hl P Ha. pose proof (free_push _ _ _ _ _ Fr P Hl Ha) as Fr'. split.
  - apply Fr'.
  - apply Fr'.
  - apply Fr'.
  - intros w w' g Hw Hw'. destruct (decide (w = o)) as [-> |]; [|destruct (decide (w' = o)) as [-> |]].
    + rewrite lookup_insert in Hw. injection Hw as <-. destruct (decide (w' = o)) as [-> |]; [done|]. rewrite lookup_insert_ne in Hw' by done.
      pose proof (fr_lt _ _ _ Fr _ _ Hw'). lia.
    + rewrite lookup_insert in Hw'. injection Hw' as <-. rewrite lookup_insert_ne in Hw by done. pose proof (fr_lt _ _ _ Fr _ _ Hw). lia.
    + rewrite lookup_insert_ne in Hw, Hw' by done. by eapply (fr_inj _ _ _ Fr).
  - intros w g Hw. destruct (decide (w = o)) as [-> |].
    + rewrite lookup_insert in Hw. injection Hw as <-. rewrite (p_gi _ _ _ P). pose proof (fr_bnd _ _ _ Fr). lia.
    + rewrite lookup_insert_ne in Hw by done. by eapply (fr_lt _ _ _ Fr').
  - apply Fr'.
  - intros d gt' a w Hb G Hin Hw. destruct (decide (w = o)) as [-> |].
    + rewrite lookup_insert in Hw. injection Hw as <-. rewrite (push_lookup _ _ _ _ P) in G. destruct decide.
      * injection G as <-. pose proof (Hl _ Hin). lia.
      * pose proof (fr_ops _ _ _ Fr _ _ _ Hb G Hin). lia.
    + rewrite lookup_insert_ne in Hw by done. by eapply (fr_use _ _ _ Fr').
Qed.
Lemma rd_gate_free l ty gs ws os gw h c U gw' h' : free c gw U -> h_circ h !! l = Some c -> Forall2 (fun g w => gw !! w = Some g) gs ws ->
  rd_gate l ty gs os (gw, h) = (Ok tt, (gw', h')) -> exists c', h_circ h' !! l = Some c' /\ free c' gw' (U ++ ws).
Proof.
  intros Fr E FF H.
  assert (Fr0 : free c gw (U ++ ws)) by (eapply free_mono; [done|]; intros w Hw; apply elem_of_app; by left).
  assert (Hops : forall a, a ∈ gs -> b0 <= a < gate_index c /\ forall w, gw !! w = Some a -> w ∈ U ++ ws).
  { intros a Ha. apply elem_of_list_lookup in Ha as [i Hi]. destruct (Forall2_lookup_l _ _ _ _ _ FF Hi) as (w & Hw & Hg).
    split; [by eapply (fr_lt _ _ _ Fr)|]. intros w' Hw'. rewrite (fr_inj _ _ _ Fr _ _ _ Hw' Hg). apply elem_of_app. right. by eapply elem_of_list_lookup_2. }
  unfold rd_gate in H.
  destruct (String.eqb ty "INV"); [|destruct (String.eqb ty "XOR"); [|destruct (String.eqb ty "AND"); [|destruct (String.eqb ty "OR"); [|
    destruct (String.eqb ty "EQ" || String.eqb ty "EQW"); [|done]]]]].
  all: unfold st_bind, st_nth, rd_h in H; destruct gs as [|a gs]; simpl in H; try done.
  2,3,4: destruct gs as [|b gs]; simpl in H; try done.
  - destruct (r_not_ok h l c E a) as (c' & Er & P). rewrite Er in H. destruct os as [|o os]; [done|]. cbn in H. injection H as <- <-.
    exists c'. split; [by eapply upd_lookup|]. eapply free_insert; [done| |done|]; simpl.
    + intros x ->%elem_of_list_singleton. apply Hops. by left.
    + intros x w ->%elem_of_list_singleton. apply Hops. by left.
  - destruct (r_xor_ok h l c E a b) as (c' & Er & P). rewrite Er in H. destruct os as [|o os]; [done|]. cbn in H. injection H as <- <-.
    exists c'. split; [by eapply upd_lookup|]. eapply free_insert; [done| |done|]; simpl.
    + intros x [-> |[-> |[]%elem_of_nil]%elem_of_cons]%elem_of_cons; apply Hops; [by left|by right; left].
    + intros x w [-> |[-> |[]%elem_of_nil]%elem_of_cons]%elem_of_cons; apply Hops; [by left|by right; left].
  - destruct (r_and_ok h l c E a b) as (c' & Er & P). rewrite Er in H. destruct os as [|o os]; [done|]. cbn in H. injection H as <- <-.
    exists c'. split; [by eapply upd_lookup|]. eapply free_insert; [done| |done|]; simpl.
    + intros x [-> |[-> |[]%elem_of_nil]%elem_of_cons]%elem_of_cons; apply Hops; [by left|by right; left].
    + intros x w [-> |[-> |[]%elem_of_nil]%elem_of_cons]%elem_of_cons; apply Hops; [by left|by right; left].
  - destruct (r_or_ok h l c E a b) as (c' & Er & P). rewrite Er in H. destruct os as [|o os]; [done|]. cbn in H. injection H as <- <-.
    exists c'. split; [by eapply upd_lookup|]. eapply free_insert; [done| |done|]; simpl.
    + intros x [-> |[-> |[]%elem_of_nil]%elem_of_cons]%elem_of_cons; apply Hops; [by left|by right; left].
    + intros x w [-> |[-> |[]%elem_of_nil]%elem_of_cons]%elem_of_cons; apply Hops; [by left|by right; left].
  - destruct (r_identity_ok h l c E a) as (c1 & c2 & Er & Hid & P1 & P2). rewrite Er in H. destruct os as [|o os]; [done|]. cbn in H. injection H as <- <-.
    exists c2. split; [by eapply upd_lookup, upd_lookup|]. eapply free_insert; [eapply free_push; [done|exact P1| |]| |exact P2|]; simpl.
    + intros x ->%elem_of_list_singleton. apply Hops. by left.
    + intros x w ->%elem_of_list_singleton. apply Hops. by left.
    + intros x ->%elem_of_list_singleton. pose proof (fr_bnd _ _ _ Fr). lia.
    + intros x w ->%elem_of_list_singleton Hw. pose proof (fr_lt _ _ _ Fr _ _ Hw). lia.
Qed.
Lemma rd_line_free l toks gw h c U gw' h' gl : free c gw U -> h_circ h !! l = Some c -> parse_line toks = Some gl ->
  rd_line l toks (gw, h) = (Ok tt, (gw', h')) -> exists c', h_circ h' !! l = Some c' /\ free c' gw' (U ++ gl_ins gl).
Proof.
  intros Fr E P H. destruct (rd_line_inv _ _ _ _ _ H) as (gl' & gs & P' & Eg & _). rewrite P in P'. injection P' as <-.
  rewrite (rd_line_gate _ _ _ _ _ _ P Eg) in H. eapply rd_gate_free; [exact Fr|exact E| |exact H].
  apply mapM_Some_1 in Eg. apply Forall2_flip in Eg. exact Eg.
Qed.
Lemma rd_lines_free l : forall ls gls gw h c U gw' h', free c gw U -> h_circ h !! l = Some c ->
  mapM (fun x => parse_line (tokens x)) (until_empty ls) = Some gls -> rd_lines l ls (gw, h) = (Ok tt, (gw', h')) ->
  exists c', h_circ h' !! l = Some c' /\ free c' gw' (U ++ flat_map gl_ins gls).
Proof.
  induction ls as [|x r IH]; intros gls gw h c U gw' h' Fr E P H; cbn [until_empty rd_lines] in *.
  - injection P as <-. injection H as <- <-. exists c. cbn. by rewrite app_nil_r.
  - destruct (String.eqb x ""); [injection P as <-; injection H as <- <-; exists c; cbn; by rewrite app_nil_r|].
    cbn [mapM] in P. destruct (parse_line (tokens x)) as [gl|] eqn:Ep; [|done]. cbn [mbind option_bind] in P.
    destruct (mapM _ (until_empty r)) as [gls'|] eqn:Em; [|done]. injection P as <-. unfold st_bind in H.
    destruct (rd_line l (tokens x) (gw, h)) as [[[]| | |] [gw1 h1]] eqn:E1; try done.
    destruct (rd_line_free _ _ _ _ _ _ _ _ _ Fr E Ep E1) as (c1 & E1' & Fr1).
    destruct (IH gls' gw1 h1 c1 _ gw' h' Fr1 E1' eq_refl H) as (c2 & E2 & Fr2). exists c2. split; [done|]. cbn [flat_map]. by rewrite app_assoc.
Qed.
Lemma rd_inputs_free l : forall k w gw h c gw' h', free c gw [] -> h_circ h !! l = Some c -> rd_inputs l k w (gw, h) = (Ok tt, (gw', h')) ->
  exists c', h_circ h' !! l = Some c' /\ free c' gw' [].
Proof.
  induction k as [|k IH]; intros w gw h c gw' h' Fr E H; cbn [rd_inputs] in H; [injection H as <- <-; eauto|].
  unfold st_bind, rd_h, rd_insert in H. cbn [fst snd] in H. destruct (r_input_ok h l c E) as (c1 & Er & P). rewrite Er in H. cbn [fst snd] in H.
  eapply IH; [|by eapply upd_lookup|exact H]. eapply free_insert; [done| |exact P|]; simpl.
  - intros a Ha. by apply elem_of_nil in Ha.
  - intros a w' Ha. by apply elem_of_nil in Ha.
Qed.
Lemma rd_groups_free l : forall toks k w gw h c gw' h', free c gw [] -> h_circ h !! l = Some c -> rd_groups l toks k w (gw, h) = (Ok tt, (gw', h')) ->
  exists c', h_circ h' !! l = Some c' /\ free c' gw' [].
Proof.
  induction toks as [|t ts IH]; intros k w gw h c gw' h' Fr E H; cbn [rd_groups] in H; destruct (k =? 0); try (injection H as <- <-; eauto; fail); [done|].
  unfold st_bind, st_lift in H. destruct (parse_usize t) as [n| | |]; try done.
  destruct (rd_inputs l (N.to_nat n) w (gw, h)) as [[[]| | |] [gw1 h1]] eqn:E1; try done.
  destruct (rd_inputs_free _ _ _ _ _ _ _ _ Fr E E1) as (c1 & E1' & Fr1). by eapply IH.
Qed.
End Free.
Lemma free_start c : cwf c -> free (b0 := gate_index c) (G0 := gate_map c) c ∅ [].
Proof.
  intros W. split.
  - lia.
  - done.
  - intros g gt Hb G. assert (g < gate_index c) by (apply (wf_gates _ W); eauto). lia.
  - intros *. by rewrite lookup_empty.
  - intros *. by rewrite lookup_empty.
  - intros d gt a Hb G. assert (d < gate_index c) by (apply (wf_gates _ W); eauto). lia.
  - intros d gt a w Hb G. assert (d < gate_index c) by (apply (wf_gates _ W); eauto). lia.
Qed.
Lemma rd_outputs_maps l : forall k w gw h c s', h_circ h !! l = Some c -> rd_outputs l k w (gw, h) = (Ok tt, s') ->
  exists c', h_circ (snd s') !! l = Some c' /\ gate_map c' = gate_map c /\
    forall j o, output_map c' !! j = Some o -> output_map c !! j = Some o \/ exists i, i < N.of_nat k /\ gw !! (w + i) = Some o.
Proof.
  induction k as [|k IH]; intros w gw h c s' E H; cbn [rd_outputs] in H.
  - injection H as <-. exists c. split; [done|]. split; [done|]. intros j o Ho. by left.
  - unfold st_bind, rd_map, rd_h in H. cbn [fst snd] in H. destruct (gw !! w) as [g|] eqn:Eg; [|done]. cbn [fst snd] in H.
    destruct (r_output_cases h l c E g) as [[_ Er]|(c1 & Er & P)]; rewrite Er in H; [done|]. cbn [fst snd] in H.
    destruct (IH _ _ _ c1 _ ltac:(by eapply upd_lookup) H) as (c2 & E2 & G2 & O2). exists c2. split; [done|].
    split; [rewrite G2, (po_eq _ _ _ P); done|]. intros j o Ho. destruct (O2 _ _ Ho) as [Ho'|(i & Hi & Hw)].
    + rewrite (po_eq _ _ _ P) in Ho'. cbn in Ho'. destruct (decide (j = output_len c)) as [-> |].
      * rewrite lookup_insert in Ho'. injection Ho' as <-. right. exists 0. split; [lia|]. by rewrite N.add_0_r.
      * rewrite lookup_insert_ne in Ho' by done. by left.
    + right. exists (i + 1). split; [lia|]. by replace (w + (i + 1)) with (w + 1 + i) by lia.
Qed.
(** A successful reading of a program whose output wires no line reads leaves outputs without consumers, and adds no module gates. *)
Lemma read_free_at md h l c text p s' : wk h l -> h_circ h !! l = Some c -> parse_prog text = Some p -> nsum (pr_out p) <= pr_wires p ->
  pr_wires p < 2 ^ 64 -> read md l text (∅, h) = (Ok tt, s') ->
  (forall w, pr_wires p - nsum (pr_out p) <= w -> w < pr_wires p -> w ∉ flat_map gl_ins (pr_lines p)) ->
  exists c', h_circ (snd s') !! l = Some c' /\ (forall g gt, gate_map c' !! g = Some gt -> gate_map c !! g = Some gt \/ is_module gt = false) /\
    (forall k o, output_map c' !! k = Some o -> output_map c !! k = Some o \/ gate_index c <= o) /\
    (forall k o d gt, output_map c' !! k = Some o -> gate_map c' !! d = Some gt -> o ∈ operands gt -> output_map c !! k = Some o \/ gate_map c !! d = Some gt) /\
    (forall d gt a, gate_map c' !! d = Some gt -> a ∈ operands gt -> gate_map c !! d = Some gt \/ gate_index c <= a).
Proof.
  intros W E P Ho Hw H Hu.
  apply parse_prog_iff in P as
    (l1 & l2 & l3 & l4 & rest & tg & tw & r1 & t2 & r2 & t3 & r3 & Hl & Ht & Vg & Vw & E2 & V2 & L2 & M2 & E3 & V3 & L3 & M3 & M4).
  unfold read, st_bind, st_lift in H. rewrite Hl in H. cbn [next_line] in H.
  rewrite (proj2 (next_num_ok (tokens l1) (pr_gates p) (tw :: r1))) in H by eauto. rewrite (proj2 (next_num_ok (tw :: r1) (pr_wires p) r1)) in H by eauto.
  rewrite (proj2 (next_num_ok (tokens l2) (N.of_nat (length (pr_in p))) r2)) in H by eauto.
  destruct (rd_groups l r2 _ 0 (∅, h)) as [[[]| | |] [gw1 h1]] eqn:Eg; try done.
  pose proof (hi_circ _ (di_inv _ (wk_d _ _ W)) _ _ E) as Wc.
  destruct (rd_groups_free _ _ _ _ _ _ _ _ _ (free_start c Wc) E Eg) as (c1 & E1 & Fr1).
  rewrite (proj2 (next_num_ok (tokens l3) (N.of_nat (length (pr_out p))) r3)) in H by eauto.
  assert (rd_sum md r3 (N.of_nat (length (pr_out p))) 0 = Ok (nsum (pr_out p))) as Es.
  { apply rd_sum_ok; [lia|rewrite Nat2N.id, M3; right; intros ns [= <-]; lia|]. exists (pr_out p). rewrite Nat2N.id. split; [done|]. split; [done|]. lia. }
  rewrite Es in H. destruct (rd_lines l rest (gw1, h1)) as [[[]| | |] [gw2 h2]] eqn:El; try done.
  destruct (rd_lines_free _ _ _ _ _ _ _ _ _ Fr1 E1 M4 El) as (c2 & E2' & Fr2). cbn [app] in Fr2.
  unfold usize_sub in H. rewrite (proj2 (N.leb_le _ _) Ho) in H.
  destruct (rd_outputs_maps _ _ _ _ _ _ _ E2' H) as (c3 & E3' & G3 & O3). exists c3. split; [done|]. rewrite G3.
  assert (O2 : output_map c2 = output_map c).
  { destruct (rd_groups_at (nc := num_const c) l (output_len c) (num_gate c) (input_len c) (fun _ => ∅) r2 (N.of_nat (length (pr_in p))) (pr_in p) 0 h ∅ W)
      as (gw1' & h1' & Er & W1 & X1 & C1 & S1);
      [exists c; split; [done|]; rewrite N.add_0_r; done|eapply sim_ext_fun; [apply sim_none|]; intros ρ; by rewrite over_0|done|by rewrite Nat2N.id|].
    rewrite Er in Eg. injection Eg as -> ->. destruct (rd_lines_inv _ _ _ _ _ _ _ _ _ W1 C1 S1 El) as (gls & M4' & He).
    rewrite M4 in M4'. injection M4' as <-.
    destruct (rd_lines_ok l _ _ (fun _ => false) rest _ h1 gw1 _ _ W1 C1 S1 M4 (He _)) as (gw3 & h3 & F3 & Er3 & W3 & X3 & C3 & S3 & V3').
    rewrite Er3 in El. injection El as -> ->. destruct C3 as (c4 & E4 & _ & O4 & _). rewrite E2' in E4. injection E4 as <-.
    pose proof (hi_circ _ (di_inv _ (wk_d _ _ W3)) _ _ E2') as Wc2.
    assert (X : ext l h h2) by (eapply ext_trans; [exact X1|exact X3]).
    destruct (hle_circ _ _ (ext_hle _ _ _ X) _ _ E) as (c5 & E5 & Lc). rewrite E2' in E5. injection E5 as <-.
    apply map_eq. intros k. destruct (output_map c !! k) as [o|] eqn:Ek; [eapply lookup_weaken; [exact Ek|apply Lc]|].
    apply (wf_outputs_none _ Wc2). rewrite O4. destruct (decide (k < output_len c)) as [Hk|]; [|lia].
    destruct (wf_outputs _ Wc k Hk) as (o & Eo & _). by rewrite Eo in Ek. }
  rewrite O2 in O3.
  assert (Hlt : forall d gt, gate_map c2 !! d = Some gt -> gate_map c !! d = Some gt \/ gate_index c <= d).
  { intros d gt G. destruct (decide (d < gate_index c)); [|right; lia]. left. rewrite <- G. symmetry. by apply Fr2. }
  split; [|split; [|split]].
  - intros g gt G. destruct (Hlt _ _ G); [by left|right]. by eapply (fr_mod _ _ _ Fr2).
  - intros k o Hk. destruct (O3 _ _ Hk) as [Hk'|(i & Hi & Hg)]; [by left|right]. by apply (fr_lt _ _ _ Fr2) in Hg as [? _].
  - intros k o d gt Hk Hd Hin. destruct (O3 _ _ Hk) as [Hk'|(i & Hi & Hg)]; [by left|right]. destruct (Hlt _ _ Hd) as [|Hb]; [done|].
    destruct (Hu (pr_wires p - nsum (pr_out p) + i)); [lia|lia|]. by eapply (fr_use _ _ _ Fr2).
  - intros d gt a Hd Hin. destruct (Hlt _ _ Hd) as [|Hb]; [by left|right]. by eapply (fr_ops _ _ _ Fr2).
Qed.
(** The same for a new circuit. *)
Lemma read_free md h l s text p s' : wk h l -> h_circ h !! l = Some (circuit_new s) -> parse_prog text = Some p -> nsum (pr_out p) <= pr_wires p ->
  pr_wires p < 2 ^ 64 -> read md l text (∅, h) = (Ok tt, s') ->
  (forall w, pr_wires p - nsum (pr_out p) <= w -> w < pr_wires p -> w ∉ flat_map gl_ins (pr_lines p)) ->
  exists c', h_circ (snd s') !! l = Some c' /\ (forall g gt, gate_map c' !! g = Some gt -> is_module gt = false) /\
    forall k o d gt, output_map c' !! k = Some o -> gate_map c' !! d = Some gt -> o ∉ operands gt.
Proof.
  intros W E P Ho Hw H Hu. destruct (read_free_at md h l _ text p s' W E P Ho Hw H Hu) as (c' & E' & Hm & _ & Hd & _). exists c'. split; [done|]. split.
  - intros g gt G. destruct (Hm _ _ G); done.
  - intros k o d gt Hk G Hin. destruct (Hd _ _ _ _ Hk G Hin); done.
Qed.
