(** Input and output that can fail: C69 to C72. *)
From Verif Require Export Io Prop_Writer.
From Coq Require Import Ascii String.
Open Scope N_scope.
Open Scope list_scope.

(** * Strings *)
Definition sprefix (a b : string) : Prop := exists c, b = (a ++ c)%string.
Lemma slen_app (a b : string) : (String.length (a ++ b) = String.length a + String.length b)%nat.
Proof. induction a as [|x a IH]; [done|]. change ((String x a ++ b)%string) with (String x (a ++ b)). cbn. by rewrite IH. Qed.
Lemma stake_drop n : forall s, (stake n s ++ sdrop n s = s)%string.
Proof. induction n as [|n IH]; intros [|c t]; [done..|]. cbn [stake sdrop].
  change ((String c (stake n t) ++ sdrop n t)%string) with (String c (stake n t ++ sdrop n t)). by rewrite IH. Qed.
Lemma sprefix_refl a : sprefix a a.
Proof. exists ""%string. by rewrite sapp_nil. Qed.
Lemma sprefix_trans a b c : sprefix a b -> sprefix b c -> sprefix a c.
Proof. intros [x ->] [y ->]. exists (x ++ y)%string. by rewrite sapp_assoc. Qed.
Lemma sprefix_app a b c : sprefix a b -> sprefix (c ++ a) (c ++ b).
Proof. intros [x ->]. exists x. by rewrite sapp_assoc. Qed.
Lemma sprefix_len a b : sprefix a b -> (String.length a <= String.length b)%nat.
Proof. intros [x ->]. rewrite slen_app. lia. Qed.
Lemma sconcat_app (a b : list string) : String.concat "" (a ++ b) = (String.concat "" a ++ String.concat "" b)%string.
Proof.
  induction a as [|x a IH]; [done|]. destruct a as [|y a].
  - destruct b as [|z b]; [cbn; by rewrite sapp_nil|done].
  - change (String.concat "" ((x :: y :: a) ++ b)) with (x ++ String.concat "" ((y :: a) ++ b))%string. rewrite IH. by rewrite <- sapp_assoc.
Qed.

(** * The sink *)
(** Answers that make [write_all] fail. *)
Definition bad (a : answer) : Prop := match a with Take O | Fail _ => True | _ => False end.
Definition good (a : answer) : Prop := ~ bad a.
(** What was accepted: taken by the sink or in the buffer. *)
Definition accepted (b : bufw) : string := (b_sink b ++ b_buf b)%string.
Lemma push_all_spec script : forall data sink r rest sink' script', push_all script data sink = (r, rest, sink', script') ->
  (sink' ++ rest = sink ++ data)%string /\ (String.length rest <= String.length data)%nat /\ sprefix sink sink' /\ exists used, script = used ++ script' /\
  (r = Ok tt /\ rest = ""%string /\ Forall good used \/ (exists k, r = Err (EIo k)) /\ Exists bad used).
Proof.
  induction script as [|a script IH]; intros data sink r rest sink' script' E; cbn [push_all] in E.
  all: destruct (String.eqb_spec data "") as [-> |Hd].
  - injection E as <- <- <- <-. split; [done|]. split; [lia|]. split; [apply sprefix_refl|]. exists []. split; [done|]. left. by repeat split.
  - injection E as <- <- <- <-. split; [by rewrite sapp_nil|]. split; [cbn; lia|]. split; [by eexists|]. exists []. split; [done|]. left. by repeat split.
  - injection E as <- <- <- <-. split; [done|]. split; [lia|]. split; [apply sprefix_refl|]. exists []. split; [done|]. left. by repeat split.
  - destruct a as [[|n]| |k].
    + injection E as <- <- <- <-. split; [done|]. split; [lia|]. split; [apply sprefix_refl|]. exists [Take 0]. split; [done|]. right. split; [eauto|by left].
    + destruct (IH _ _ _ _ _ _ E) as (Hs & Hl & Hp & used & -> & H). split; [rewrite Hs, sapp_assoc; by rewrite stake_drop|].
      split; [rewrite <- (stake_drop (S n) data), slen_app; lia|].
      split; [eapply sprefix_trans; [by eexists|exact Hp]|]. exists (Take (S n) :: used). split; [done|].
      destruct H as [(-> & -> & F)|[K X]]; [left; repeat split; constructor; [intros []|done]|right; split; [done|by right]].
    + destruct (IH _ _ _ _ _ _ E) as (Hs & Hl & Hp & used & -> & H). split; [done|]. split; [done|]. split; [done|]. exists (Interrupt :: used). split; [done|].
      destruct H as [(-> & -> & F)|[K X]]; [left; repeat split; constructor; [intros []|done]|right; split; [done|by right]].
    + injection E as <- <- <- <-. split; [done|]. split; [lia|]. split; [apply sprefix_refl|]. exists [Fail k]. split; [done|]. right. split; [eauto|by left].
Qed.
Record step_ok (b b' : bufw) (s : string) (r : res unit) : Prop := {
  sk_cap : b_cap b' = b_cap b;
  sk_room : (String.length (b_buf b') <= b_cap b)%nat;
  sk_sink : sprefix (b_sink b) (b_sink b');
  sk_res : exists used, b_script b = used ++ b_script b' /\
    (r = Ok tt /\ accepted b' = (accepted b ++ s)%string /\ Forall good used \/
     (exists k, r = Err (EIo k)) /\ Exists bad used /\ sprefix (accepted b') (accepted b ++ s));
  sk_quiet : (String.length (b_buf b) + String.length s < b_cap b)%nat -> r = Ok tt /\ b_sink b' = b_sink b /\ b_script b' = b_script b /\ b_buf b' = (b_buf b ++ s)%string;
}.
Lemma flush_buf_spec b r b' : flush_buf b = (r, b') -> b_cap b' = b_cap b /\ (String.length (b_buf b') <= String.length (b_buf b))%nat /\ accepted b' = accepted b /\ sprefix (b_sink b) (b_sink b') /\
  exists used, b_script b = used ++ b_script b' /\ (r = Ok tt /\ b_buf b' = ""%string /\ Forall good used \/ (exists k, r = Err (EIo k)) /\ Exists bad used).
Proof.
  unfold flush_buf. destruct (push_all _ _ _) as [[[r0 rest] sink] script] eqn:E. intros [= <- <-]. destruct (push_all_spec _ _ _ _ _ _ _ E) as (Hs & Hl & Hp & H).
  split; [done|]. split; [done|]. split; [exact Hs|]. split; [done|]. exact H.
Qed.
Lemma bw_write_all_spec s b r b' : (String.length (b_buf b) <= b_cap b)%nat -> bw_write_all s b = (r, b') -> step_ok b b' s r.
Proof.
  intros Hroom.
  unfold bw_write_all. set (spare := (b_cap b - String.length (b_buf b))%nat). destruct (Nat.ltb_spec (String.length s) spare) as [Hlt|Hge].
  { intros [= <- <-]. split; cbn; [done|rewrite slen_app; unfold spare in Hlt; lia|apply sprefix_refl| |].
    - exists []. split; [done|]. left. split; [done|]. split; [unfold accepted; cbn; by rewrite sapp_assoc|constructor].
    - done. }
  assert (Hq : ~ (String.length (b_buf b) + String.length s < b_cap b)%nat) by (unfold spare in Hge; lia).
  destruct (if (spare <? String.length s)%nat then flush_buf b else (Ok tt, b)) as [r1 b1] eqn:E1.
  assert (exists used, b_script b = used ++ b_script b1 /\ b_cap b1 = b_cap b /\ (String.length (b_buf b1) <= b_cap b)%nat /\ accepted b1 = accepted b /\ sprefix (b_sink b) (b_sink b1) /\
    (r1 = Ok tt /\ Forall good used /\ ((b_cap b1 <= String.length s)%nat -> b_buf b1 = ""%string) /\ (String.length s < b_cap b1 -> String.length (b_buf b1) + String.length s <= b_cap b)%nat \/
     (exists k, r1 = Err (EIo k)) /\ Exists bad used)) as (used & Hu & Hcap & Hroom1 & Ha & Hs & H).
  { destruct (Nat.ltb_spec spare (String.length s)) as [Hsp|Hsp].
    - destruct (flush_buf_spec _ _ _ E1) as (Hc & Hlb & Ha & Hs & used & Hu & H). exists used. split; [done|]. split; [done|]. split; [lia|]. split; [done|]. split; [done|].
      destruct H as [(-> & Hb & F)|?]; [left|by right]. split; [done|]. split; [done|]. rewrite Hb. cbn. split; [done|lia].
    - injection E1 as <- <-. exists []. split; [done|]. split; [done|]. split; [done|]. split; [done|]. split; [apply sprefix_refl|]. left. split; [done|]. split; [constructor|].
      split; [|unfold spare in *; lia]. intros Hc. destruct (b_buf b) as [|c t] eqn:Eb; [done|]. exfalso. unfold spare in *. cbn [String.length] in *. lia. }
  destruct H as [(-> & F & Hb & Hb2)|[[k ->] X]].
  - destruct (Nat.leb_spec (b_cap b1) (String.length s)) as [Hc|Hc].
    + destruct (push_all _ _ _) as [[[r2 rest] sink] script] eqn:E2. intros [= <- <-]. destruct (push_all_spec _ _ _ _ _ _ _ E2) as (Hr & _ & Hp & used2 & Hu2 & H).
      specialize (Hb Hc). split; cbn; [done|done|by eapply sprefix_trans| |done]. exists (used ++ used2). rewrite Hu, Hu2. split; [by rewrite app_assoc|].
      assert (accepted b = b_sink b1) as -> by (rewrite <- Ha; unfold accepted; by rewrite Hb, sapp_nil). unfold accepted. cbn. rewrite Hb, sapp_nil, <- Hr.
      destruct H as [(-> & -> & F2)|[K X]]; [left|right].
      * split; [done|]. split; [by rewrite sapp_nil|by apply Forall_app].
      * split; [done|]. split; [apply Exists_app; by right|]. by eexists.
    + intros [= <- <-]. split; cbn; [done|rewrite slen_app; lia|done| |done]. exists used. split; [done|]. left. split; [done|]. split; [|done]. unfold accepted at 1. cbn.
      rewrite <- sapp_assoc. by change (b_sink b1 ++ b_buf b1)%string with (accepted b1); rewrite Ha.
  - intros [= <- <-]. split; [done|done|done| |done]. exists used. split; [done|]. right. split; [eauto|]. split; [done|]. rewrite Ha. by eexists.
Qed.

(** * The writer on a sink, compared with the writer of Writer.v *)
Record sync (b0 : bufw) (st : wstate) (s : istate) : Prop := {
  sy_c : i_c s = w_c st;
  sy_num : i_num s = w_num st;
  sy_const : i_const s = w_const st;
  sy_cow : i_cow s = w_cow st;
  sy_cap : b_cap (i_bw s) = b_cap b0;
  sy_room : (String.length (b_buf (i_bw s)) <= b_cap b0)%nat;
  sy_sink : sprefix (b_sink b0) (b_sink (i_bw s));
  sy_acc : accepted (i_bw s) = (accepted b0 ++ written st)%string;
  sy_script : exists used, b_script b0 = used ++ b_script (i_bw s) /\ Forall good used;
  sy_quiet : (String.length (b_buf b0) + String.length (written st) < b_cap b0)%nat ->
    b_sink (i_bw s) = b_sink b0 /\ b_script (i_bw s) = b_script b0 /\ b_buf (i_bw s) = (b_buf b0 ++ written st)%string;
}.
Record broken (b0 : bufw) (st : wstate) (s : istate) : Prop := {
  br_acc : sprefix (accepted (i_bw s)) (accepted b0 ++ written st);
  br_sink : sprefix (b_sink b0) (b_sink (i_bw s));
  br_script : Exists bad (b_script b0);
  br_full : (b_cap b0 <= String.length (b_buf b0) + String.length (written st))%nat;
}.
Definition same_state (st : wstate) (s : istate) : Prop := i_c s = w_c st /\ i_num s = w_num st /\ i_const s = w_const st /\ i_cow s = w_cow st.
Definition rel_res {A B} (R : A -> B -> Prop) (r : res A) (ri : res B) : Prop :=
  match r, ri with
  | Ok a, Ok b => R a b
  | Err e, Err e' => e = e'
  | Panic p, Panic p' => p = p'
  | NoFuel, NoFuel => True
  | _, _ => False
  end.
Definition grows {A} (m : WM A) : Prop := forall st, sprefix (written st) (written (snd (m st))).
Definition sim {A B} (R : A -> B -> Prop) (m : WM A) (mi : IM B) : Prop := grows m /\ forall b0 st s, sync b0 st s ->
  rel_res R (fst (m st)) (fst (mi s)) /\ sync b0 (snd (m st)) (snd (mi s)) \/
  (exists k, fst (mi s) = Err (EIo k)) /\ broken b0 (snd (m st)) (snd (mi s)).
Lemma broken_grow b0 st st' s : broken b0 st s -> sprefix (written st) (written st') -> broken b0 st' s.
Proof.
  intros [A1 A2 A3 A4] P. split; [|done|done|apply sprefix_len in P; lia]. eapply sprefix_trans; [exact A1|]. by apply sprefix_app.
Qed.
Lemma grows_bind {A B} (m : WM A) (k : A -> WM B) : grows m -> (forall a, grows (k a)) -> grows (st_bind m k).
Proof.
  intros Hm Hk st. specialize (Hm st). unfold st_bind. destruct (m st) as [[a| | |] st1]; cbn in *; try done. eapply sprefix_trans; [done|]. apply Hk.
Qed.
Lemma sim_bind_r {A A' B B'} (R : A -> A' -> Prop) (Q : B -> B' -> Prop) m mi (k : A -> WM B) (ki : A' -> IM B') : sim R m mi -> (forall a, exists a', R a a') ->
  (forall a a', R a a' -> sim Q (k a) (ki a')) -> sim Q (st_bind m k) (st_bind mi ki).
Proof.
  intros [G Hm] HR Hk. assert (Gk : forall a, grows (k a)) by (intros a; destruct (HR a) as [a' Ha]; apply (Hk a a' Ha)).
  split; [by apply grows_bind|]. intros b0 st s Y. specialize (Hm b0 st s Y). specialize (G st).
  unfold st_bind. destruct (m st) as [r st1]. destruct (mi s) as [ri s1]. cbn [fst snd] in *. destruct Hm as [[HRr Y1]|[[e ->] X]].
  - destruct r as [a| | |], ri as [a'| | |]; cbn in HRr; try done; try (left; by split). by apply Hk.
  - right. cbn. split; [eauto|]. destruct r as [a| | |]; cbn; [|done..]. eapply broken_grow; [done|]. apply Gk.
Qed.
Lemma sim_bind {A B B'} (Q : B -> B' -> Prop) (m : WM A) (mi : IM A) (k : A -> WM B) (ki : A -> IM B') : sim eq m mi ->
  (forall a, sim Q (k a) (ki a)) -> sim Q (st_bind m k) (st_bind mi ki).
Proof. intros Hm Hk. eapply sim_bind_r; [done|eauto|]. by intros a ? <-. Qed.
Lemma sim_ret {A} (a : A) : sim eq (st_ret a) (st_ret a).
Proof. split; [intros st; apply sprefix_refl|]. intros b0 st s Y. left. by split. Qed.
Lemma sim_lift {A} (r : res A) : sim eq (st_lift r) (st_lift r).
Proof. split; [intros st; apply sprefix_refl|]. intros b0 st s Y. left. split; [by destruct r|done]. Qed.
Lemma sim_err {A} e : sim (@eq A) (st_err e) (st_err e).
Proof. split; [intros st; apply sprefix_refl|]. intros b0 st s Y. left. by split. Qed.
Lemma sim_panic {A} e : sim (@eq A) (st_panic e) (st_panic e).
Proof. split; [intros st; apply sprefix_refl|]. intros b0 st s Y. left. by split. Qed.
Lemma sim_nofuel {A} : sim (@eq A) (fun st => (NoFuel, st)) (fun s => (NoFuel, s)).
Proof. split; [intros st; apply sprefix_refl|]. intros b0 st s Y. left. by split. Qed.
Lemma sim_key {A} (m : gmap N A) k : sim eq (w_key m k) (i_key m k).
Proof. unfold w_key, i_key. split; [intros st; destruct (m !! k); apply sprefix_refl|]. intros b0 st s Y. left. by destruct (m !! k). Qed.
Lemma sim_get : sim same_state w_get i_get.
Proof. split; [intros st; apply sprefix_refl|]. intros b0 st s Y. left. split; [|done]. destruct Y. by repeat split. Qed.
Lemma same_total st : exists s, same_state st s.
Proof. exists (IState (w_c st) (w_num st) (w_const st) (BufW 0 "" "" []) (w_cow st)). by repeat split. Qed.
Lemma sim_set_c l : sim eq (w_set_c l) (i_set_c l).
Proof. split; [intros st; apply sprefix_refl|]. intros b0 st s []. left. split; [done|]. by split. Qed.
Lemma sim_set_num l : sim eq (w_set_num l) (i_set_num l).
Proof. split; [intros st; apply sprefix_refl|]. intros b0 st s []. left. split; [done|]. by split. Qed.
Lemma sim_set_const l : sim eq (w_set_const l) (i_set_const l).
Proof. split; [intros st; apply sprefix_refl|]. intros b0 st s []. left. split; [done|]. by split. Qed.
Lemma sim_set_cow l : sim eq (w_set_cow l) (i_set_cow l).
Proof. split; [intros st; apply sprefix_refl|]. intros b0 st s []. left. split; [done|]. by split. Qed.
Lemma written_put st t : written (snd (w_write t st)) = (written st ++ t)%string.
Proof. unfold written, w_write. cbn [snd w_out]. rewrite sconcat_app. done. Qed.
Lemma sim_put t : sim eq (w_write t) (i_put t).
Proof.
  split; [intros st; rewrite written_put; by eexists|]. intros b0 st s Y. unfold i_put. destruct (bw_write_all t (i_bw s)) as [r b'] eqn:E.
  destruct Y as [Y1 Y2 Y3 Y4 Y5 Yr Y6 Y7 (used0 & Hu0 & F0) Y9]. destruct (bw_write_all_spec _ _ _ _ ltac:(by rewrite Y5) E) as [Hc Hr Hs (used & Hu & H) Hq]. cbn [fst snd].
  destruct H as [(-> & Ha & F)|([k ->] & X & P)]; [left|right].
  - split; [done|]. split; rewrite ?written_put; cbn [i_c i_num i_const i_cow i_bw]; try done.
    + by rewrite Hc.
    + by rewrite <- Y5.
    + by eapply sprefix_trans.
    + rewrite Ha, Y7. by rewrite sapp_assoc.
    + exists (used0 ++ used). rewrite Hu0, Hu, app_assoc. split; [done|by apply Forall_app].
    + rewrite slen_app. intros Hl. destruct Y9 as (Z1 & Z2 & Z3); [lia|]. destruct Hq as (_ & Q1 & Q2 & Q3); [rewrite Z3, slen_app; lia|].
      rewrite Q1, Q2, Q3, Z1, Z2, Z3. split; [done|]. split; [done|]. by rewrite sapp_assoc.
  - split; [cbn; eauto|]. split; rewrite ?written_put; cbn [i_bw].
    + rewrite Y7, sapp_assoc in P. done.
    + by eapply sprefix_trans.
    + rewrite Hu0, Hu. apply Exists_app. right. apply Exists_app. by left.
    + apply Nat.le_ngt. rewrite slen_app. intros Hl. destruct Y9 as (Z1 & Z2 & Z3); [lia|]. destruct Hq as [? _]; [rewrite Z3, slen_app; lia|done].
Qed.
Lemma sim_foldM {A B} (f : B -> A -> WM B) (fi : B -> A -> IM B) xs : (forall b a, sim eq (f b a) (fi b a)) -> forall b, sim eq (st_foldM f b xs) (st_foldM fi b xs).
Proof. intros H. induction xs as [|x xs IH]; intros b; [apply sim_ret|]. cbn [st_foldM]. by apply sim_bind. Qed.
Lemma sim_mapM {A B} (f : A -> WM B) (fi : A -> IM B) xs : (forall a, sim eq (f a) (fi a)) -> sim eq (st_mapM f xs) (st_mapM fi xs).
Proof.
  intros H. induction xs as [|x xs IH]; [apply sim_ret|]. cbn [st_mapM]. apply sim_bind; [done|intros y]. apply sim_bind; [done|intros ys]. apply sim_ret.
Qed.
Lemma sim_update gid ws gs wog : sim eq (update_wire gid ws gs wog) (i_update_wire gid ws gs wog).
Proof.
  unfold update_wire, i_update_wire. eapply sim_bind_r; [apply sim_get|apply same_total|]. intros st s (_ & -> & _ & _).
  apply sim_bind; [destruct ws; [apply sim_put|apply sim_ret]|intros _]. apply sim_bind; [apply sim_set_num|intros _]. apply sim_ret.
Qed.
Section heap.
Context (h : heap).
Lemma sim_circ : sim eq (w_circ h) (i_circ h).
Proof.
  unfold w_circ, i_circ. split; [intros st; destruct (h_circ h !! w_c st); apply sprefix_refl|]. intros b0 st s Y. left. rewrite (sy_c _ _ _ Y). by destruct (h_circ h !! w_c st).
Qed.
Lemma sim_gate id : sim eq (w_gate h id) (i_gate h id).
Proof. apply sim_bind; [apply sim_circ|intros c]. apply sim_lift. Qed.
Section rec.
Context (single : N -> gate -> wmap -> WM wmap) (isingle : N -> gate -> wmap -> IM wmap) (HS : forall id g wog, sim eq (single id g wog) (isingle id g wog)).
Lemma sim_ensure_all wog ids : sim eq (ensure_all h single wog ids) (i_ensure_all h isingle wog ids).
Proof using HS.
  apply sim_foldM. intros b id. unfold ensure, i_ensure. destruct (b !! id); [apply sim_ret|]. apply sim_bind; [apply sim_gate|intros g]. apply HS.
Qed.
Lemma sim_const wog id : sim eq (write_const h wog id) (i_write_const h wog id).
Proof.
  apply sim_bind; [apply sim_gate|intros g]. destruct g; try apply sim_ret. eapply sim_bind_r; [apply sim_get|apply same_total|]. intros st s (_ & _ & -> & ->).
  apply sim_bind; [apply sim_set_cow|intros _]. apply sim_bind; [apply sim_set_const|intros _]. apply sim_ret.
Qed.
Lemma sim_write_all wog : sim eq (write_all h single wog) (i_write_all h isingle wog).
Proof using HS.
  apply sim_bind; [apply sim_circ|intros c]. apply sim_bind; [apply sim_foldM; intros; apply sim_const|intros wog1]. apply sim_bind.
  - apply sim_foldM. intros acc i. apply sim_bind; [apply sim_circ|intros c']. apply sim_bind; [apply sim_lift|intros id]. apply sim_bind; [apply sim_lift|intros g]. cbv zeta.
    destruct g; try apply sim_ret; (apply sim_bind; [apply sim_ensure_all|intros wog2; apply sim_ret]).
  - intros [wog2 outs]. apply sim_foldM. intros wog3 p. unfold write_pass2, i_write_pass2. destruct (wog3 !! p.1); [apply sim_ret|apply HS].
Qed.
Lemma sim_bind_args m wog fuel : forall ids w new, sim eq (bind_args fuel m wog ids w new) (i_bind_args fuel m wog ids w new).
Proof using.
  induction fuel as [|f IH]; intros [|id ids] w new; cbn [bind_args i_bind_args]; try apply sim_ret; [apply sim_nofuel|].
  apply sim_bind; [apply sim_lift|intros [g|]]; [|apply IH]. apply sim_bind; [apply sim_key|intros x]. apply IH.
Qed.
Lemma sim_single_body id g wog : sim eq (single_body h single id g wog) (i_single_body h isingle id g wog).
Proof using HS.
  destruct g as [w|b|a|a b|a b|a b|il ol ids oi mid]; cbn [single_body i_single_body]; [apply sim_update|apply sim_ret| | | | |].
  1: apply sim_bind; [apply sim_ensure_all|intros wog1]; apply sim_bind; [apply sim_key|intros x]; apply sim_update.
  1-3: apply sim_bind; [apply sim_ensure_all|intros wog1]; apply sim_bind; [apply sim_key|intros x]; apply sim_bind; [apply sim_key|intros y]; apply sim_update.
  apply sim_bind; [apply sim_ensure_all|intros wog1]. apply sim_bind; [apply sim_circ|intros c].
  apply sim_bind; [destruct (h_stor h !! c_storage c) as [x|]; [destruct (module_map x !! mid); [apply sim_ret|apply sim_err]|apply sim_panic]|intros l'].
  apply sim_bind; [destruct (h_circ h !! l'); [apply sim_ret|apply sim_panic]|intros m]. apply sim_bind; [apply sim_bind_args|intros new].
  eapply sim_bind_r; [apply sim_get|apply same_total|]. intros st s (-> & _). apply sim_bind; [apply sim_set_c|intros _].
  apply sim_bind; [apply sim_write_all|intros new2]. apply sim_bind; [apply sim_set_c|intros _]. apply sim_foldM. intros wog2 i.
  apply sim_bind; [apply sim_lift|intros o]. apply sim_bind; [apply sim_key|intros y]. apply sim_ret.
Qed.
End rec.
Lemma sim_single fuel : forall id g wog, sim eq (write_single h fuel id g wog) (i_write_single h fuel id g wog).
Proof. induction fuel as [|f IH]; intros id g wog; [apply sim_nofuel|]. by apply sim_single_body. Qed.
Lemma sim_inputs n f : forall k w wog, sim eq (write_inputs h n (write_single h f) k w wog) (i_write_inputs h n (i_write_single h f) k w wog).
Proof.
  induction n as [|n IH]; intros [|k] w wog; cbn [write_inputs i_write_inputs]; try apply sim_ret; [apply sim_nofuel|].
  apply sim_bind; [apply sim_circ|intros c]. apply sim_bind; [apply sim_lift|intros [id|]]; [|apply IH]. apply sim_bind; [apply sim_lift|intros g].
  apply sim_bind; [apply sim_single|intros wog1]. apply IH.
Qed.
Lemma sim_write fuel first given : sim eq (write h fuel first given) (write_io h fuel first given).
Proof.
  unfold write, write_io. apply sim_bind; [apply sim_circ|intros c]. apply sim_bind; [apply sim_put|intros _]. cbv zeta.
  apply sim_bind; [destruct (first <=? input_len c + num_const c)%N; [apply sim_ret|apply sim_panic]|intros _].
  do 3 (apply sim_bind; [apply sim_put|intros _]). apply sim_bind; [apply sim_set_cow|intros _].
  apply sim_bind; [apply sim_inputs|intros wog]. apply sim_bind; [apply sim_set_const|intros _].
  eapply sim_bind_r; [apply sim_get|apply same_total|]. intros st s (_ & -> & _ & _). apply sim_bind; [apply sim_set_num|intros _].
  apply sim_bind; [apply sim_write_all; apply sim_single|intros wog1]. eapply sim_bind_r; [apply sim_get|apply same_total|]. intros st1 s1 (_ & _ & -> & ->).
  apply sim_bind; [apply sim_mapM; intros; apply sim_key|intros vals]. apply sim_ret.
Qed.
End heap.

(** * C69 *)
(** What reaches the sink. [b0] is the [BufWriter] before the call: its buffer may hold earlier bytes. Either the call behaves as on a sink that
    takes everything, and the accepted bytes are all of the text; or one of the sink's answers made it fail: it returns that as an error, and the
    bytes accepted are a part of the text from its start. This for every circuit, disciplined or not, and whatever [write] itself returns. *)
Theorem C69_prefix h fuel first given l b0 r st r' s : (String.length (b_buf b0) <= b_cap b0)%nat ->
  write h fuel first given (writer_new l) = (r, st) -> write_io h fuel first given (iwriter_new l b0) = (r', s) ->
  (r' = r /\ accepted (i_bw s) = (accepted b0 ++ written st)%string /\ same_state st s) \/
  ((exists k, r' = Err (EIo k)) /\ Exists bad (b_script b0) /\ sprefix (accepted (i_bw s)) (accepted b0 ++ written st) /\ sprefix (b_sink b0) (b_sink (i_bw s))).
Proof.
  intros Hb E E'. destruct (sim_write h fuel first given) as [_ H]. specialize (H b0 (writer_new l) (iwriter_new l b0)). rewrite E, E' in H. cbn [fst snd] in H.
  destruct H as [[Hr Y]|[K X]].
  - split; cbn; [done|done|done|done|done|done|apply sprefix_refl|by rewrite sapp_nil|by exists []|]. intros _. split; [done|]. split; [done|]. by rewrite sapp_nil.
  - left. split; [|split; [apply Y|destruct Y; by repeat split]]. destruct r as [a|e|e|], r' as [a'|e'|e'|]; cbn in Hr; by subst.
  - right. split; [done|]. by destruct X.
Qed.
(** A sink that fails none of the calls: the same result, whatever the sizes of the pieces and the buffer, and after the drop the sink has the text. *)
Theorem C69_good_sink h fuel first given l b0 r st : (String.length (b_buf b0) <= b_cap b0)%nat -> Forall good (b_script b0) ->
  write h fuel first given (writer_new l) = (r, st) ->
  exists s, write_io h fuel first given (iwriter_new l b0) = (r, s) /\ b_sink (bw_drop (i_bw s)) = (accepted b0 ++ written st)%string /\ b_buf (bw_drop (i_bw s)) = ""%string.
Proof.
  intros Hb F E. destruct (write_io h fuel first given (iwriter_new l b0)) as [r' s] eqn:E'. exists s.
  assert (forall xs, Forall good xs -> ~ Exists bad xs) as Hno by (intros xs Hf Hx; apply Exists_exists in Hx as (a & Ha & Hbad); exact (proj1 (Forall_forall _ _) Hf a Ha Hbad)).
  destruct (sim_write h fuel first given) as [_ H]. specialize (H b0 (writer_new l) (iwriter_new l b0)). rewrite E, E' in H. cbn [fst snd] in H.
  destruct H as [[Hr Y]|[K X]].
  - split; cbn; [done|done|done|done|done|done|apply sprefix_refl|by rewrite sapp_nil|by exists []|]. intros _. split; [done|]. split; [done|]. by rewrite sapp_nil.
  - split; [f_equal; destruct r as [a|e|e|], r' as [a'|e'|e'|]; cbn in Hr; by subst|]. unfold bw_drop. destruct (flush_buf (i_bw s)) as [r2 b2] eqn:Ef. cbn [snd].
    destruct (flush_buf_spec _ _ _ Ef) as (_ & _ & Ha & _ & used & Hu & H). destruct (sy_script _ _ _ Y) as (used0 & Hu0 & _). rewrite Hu0, Hu in F. apply Forall_app in F as [_ F].
    apply Forall_app in F as [F _]. destruct H as [(-> & Hb2 & _)|[_ Hx]]; [|by destruct (Hno used F)]. split; [|done]. rewrite <- (sy_acc _ _ _ Y), <- Ha. unfold accepted. by rewrite Hb2, sapp_nil.
  - by destruct (Hno _ F (br_script _ _ _ X)).
Qed.

(** * C70 *)
(** [write] does not flush. When the text fits into the buffer, it returns as if all were well and nothing has reached the sink; if the sink then
    fails the flush of the drop, the text is lost without notice. *)
Theorem C70_lost h fuel first given l b0 r st k more : b_script b0 = Fail k :: more ->
  (String.length (b_buf b0) + String.length (written st) < b_cap b0)%nat -> (0 < String.length (written st))%nat ->
  write h fuel first given (writer_new l) = (r, st) ->
  exists s, write_io h fuel first given (iwriter_new l b0) = (r, s) /\ b_sink (i_bw s) = b_sink b0 /\ b_sink (bw_drop (i_bw s)) = b_sink b0.
Proof.
  intros Hsc Hl Hpos E. destruct (write_io h fuel first given (iwriter_new l b0)) as [r' s] eqn:E'. exists s.
  destruct (sim_write h fuel first given) as [_ H]. specialize (H b0 (writer_new l) (iwriter_new l b0)). rewrite E, E' in H. cbn [fst snd] in H.
  destruct H as [[Hr Y]|[K X]].
  - split; cbn; [done|done|done|done|done|lia|apply sprefix_refl|by rewrite sapp_nil|by exists []|]. intros _. split; [done|]. split; [done|]. by rewrite sapp_nil.
  - destruct (sy_quiet _ _ _ Y Hl) as (Q1 & Q2 & Q3). split; [f_equal; destruct r as [a|e|e|], r' as [a'|e'|e'|]; cbn in Hr; by subst|]. split; [done|].
    unfold bw_drop, flush_buf. rewrite Q1, Q2, Q3, Hsc. cbn [push_all]. destruct (String.eqb_spec (b_buf b0 ++ written st)%string "") as [E0|_]; [|done].
    apply (f_equal String.length) in E0. rewrite slen_app in E0. cbn in E0. lia.
  - pose proof (br_full _ _ _ X). lia.
Qed.
(** In any case what the sink holds after the drop is a part of the text from its start. *)
Theorem C70_dropped h fuel first given l b0 r st r' s : (String.length (b_buf b0) <= b_cap b0)%nat ->
  write h fuel first given (writer_new l) = (r, st) -> write_io h fuel first given (iwriter_new l b0) = (r', s) ->
  sprefix (b_sink (bw_drop (i_bw s))) (accepted b0 ++ written st) /\ sprefix (b_sink b0) (b_sink (bw_drop (i_bw s))).
Proof.
  intros Hb E E'. assert (sprefix (accepted (i_bw s)) (accepted b0 ++ written st) /\ sprefix (b_sink b0) (b_sink (i_bw s))) as [P1 P2].
  { destruct (sim_write h fuel first given) as [_ H]. specialize (H b0 (writer_new l) (iwriter_new l b0)). rewrite E, E' in H. cbn [fst snd] in H.
    destruct H as [[Hr Y]|[K X]].
    - split; cbn; [done|done|done|done|done|lia|apply sprefix_refl|by rewrite sapp_nil|by exists []|]. intros _. split; [done|]. split; [done|]. by rewrite sapp_nil.
    - split; [rewrite (sy_acc _ _ _ Y); apply sprefix_refl|apply Y].
    - by destruct X. }
  unfold bw_drop. destruct (flush_buf (i_bw s)) as [r2 b2] eqn:Ef. cbn [snd]. destruct (flush_buf_spec _ _ _ Ef) as (_ & _ & Ha & Hs & _).
  split; [|by eapply sprefix_trans]. eapply sprefix_trans; [|exact P1]. rewrite <- Ha. by eexists.
Qed.

(** * Examples *)
Definition and_text : string := unlines ["1 3"; "2 1 1"; "1 1"; ""; "2 1 0 1 2 AND"]%string.
Definition and_write (b : bufw) : res (list bool * wmap) * bufw := let (r, s) := write_io (run Debug and_demo) 9 1 ∅ (iwriter_new 0 b) in (r, i_bw s).
Definition ok_bits (r : res (list bool * wmap)) : res (list bool) := res_bind r (fun x => Ok (fst x)).
(** A sink that takes three bytes, is interrupted, then takes all, behind a buffer of 8 bytes: the whole text. A sink that takes four bytes and
    then fails: the call fails and the sink has a part. *)
Example C69_example :
  (let (r, st) := write (run Debug and_demo) 9 1 ∅ (writer_new 0) in ok_bits r = Ok [] /\ written st = and_text) /\
  Forall good [Take 3; Interrupt] /\
  (let (r, b) := and_write (BufW 8 "" "" [Take 3; Interrupt]) in ok_bits r = Ok [] /\ b_sink (bw_drop b) = and_text) /\
  (let (r, b) := and_write (BufW 8 "" "" [Take 4; Interrupt; Fail 28]) in r = Err (EIo (IoOther 28)) /\ b_sink b = String.substring 0 4 and_text) /\
  (let (r, b) := and_write (BufW 8 "" "" [Take 0]) in r = Err (EIo IoWriteZero) /\ b_sink b = ""%string).
Proof.
  split; [vm_compute; by split|]. split; [constructor; [intros []|constructor; [intros []|constructor]]|]. split; [vm_compute; by split|]. split; vm_compute; by split.
Qed.
(** The standard buffer of 8192 bytes in front of a full disk: success is reported, the file stays empty. *)
Example C70_example : (String.length and_text < Pos.to_nat 8192)%nat /\
  (let (r, b) := and_write (BufW (Pos.to_nat 8192) "" "" [Fail 28]) in ok_bits r = Ok [] /\ b_sink (bw_drop b) = ""%string).
Proof. split; [apply Nat.ltb_lt; vm_compute; reflexivity|]. vm_compute. by split. Qed.
