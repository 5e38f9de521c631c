(** Whatever the evaluator returns is right (property C12). *)
From Verif Require Export SemFacts Eval.

(** [m] preserves [P], and its result satisfies [Q] when it succeeds. *)
Definition tri {S A} (P : S -> Prop) (m : ST S A) (Q : A -> Prop) : Prop :=
  forall s r s', P s -> m s = (r, s') -> P s' /\ forall a, r = Ok a -> Q a.

Lemma tri_ret {S A} (P : S -> Prop) (a : A) (Q : A -> Prop) : Q a -> tri P (st_ret a) Q.
Proof. intros H s r s' Hs [= <- <-]. split; [done|]. by intros ? [= <-]. Qed.
Lemma tri_err {S A} (P : S -> Prop) e (Q : A -> Prop) : tri P (st_err e) Q.
Proof. intros s r s' Hs [= <- <-]. split; done. Qed.
Lemma tri_panic {S A} (P : S -> Prop) e (Q : A -> Prop) : tri P (st_panic e) Q.
Proof. intros s r s' Hs [= <- <-]. split; done. Qed.
Lemma tri_bind {S A B} (P : S -> Prop) (m : ST S A) (k : A -> ST S B) Q R :
  tri P m Q -> (forall a, Q a -> tri P (k a) R) -> tri P (st_bind m k) R.
Proof.
  intros H1 H2 s r s' Hs. unfold st_bind. destruct (m s) as [r1 s1] eqn:E.
  destruct (H1 _ _ _ Hs E) as [Hs1 HQ]. destruct r1.
  - intros E2. eapply H2; eauto.
  - intros [= <- <-]. done.
  - intros [= <- <-]. done.
  - intros [= <- <-]. done.
Qed.
Lemma tri_lift {S A} (P : S -> Prop) (r : res A) (Q : A -> Prop) : (forall a, r = Ok a -> Q a) -> tri P (st_lift r) Q.
Proof. intros H s r' s' Hs [= <- <-]. done. Qed.
Lemma tri_mapM {S A B} (P : S -> Prop) (f : A -> ST S B) xs (Q : A -> B -> Prop) :
  (forall x, x ∈ xs -> tri P (f x) (Q x)) -> tri P (st_mapM f xs) (fun ys => Forall2 Q xs ys).
Proof.
  induction xs as [|x xs IH]; intros H; simpl.
  - apply tri_ret. constructor.
  - eapply tri_bind; [apply H; left|]. intros y Hy. eapply tri_bind; [apply IH; intros; apply H; by right|].
    intros ys Hys. apply tri_ret. by constructor.
Qed.
Lemma tri_iterM {S A} (P : S -> Prop) (f : A -> ST S unit) xs :
  (forall x, x ∈ xs -> tri P (f x) (fun _ => True)) -> tri P (st_iterM f xs) (fun _ => True).
Proof.
  induction xs as [|x xs IH]; intros H; simpl.
  - by apply tri_ret.
  - eapply tri_bind; [apply H; left|]. intros y Hy. apply IH. intros. apply H. by right.
Qed.
Lemma tri_weaken {S A} (P : S -> Prop) (m : ST S A) (Q R : A -> Prop) : tri P m Q -> (forall a, Q a -> R a) -> tri P m R.
Proof. intros H HQ s r s' Hs E. destruct (H _ _ _ Hs E) as [? ?]. split; [done|]. auto. Qed.

(** What soundness needs of the circuits: the input map leads each wire to the input gate of that wire, and the module gates of one call are
    next to each other. Nothing is asked of the consumers, the constants and the counters. *)
Record logical (h : heap) : Prop := {
  lg_in : forall l c w x, h_circ h !! l = Some c -> input_map c !! w = Some x -> exists g, x = Some g /\ gate_map c !! g = Some (GInput w);
  lg_blk : forall l c g il ol ids oi mid, h_circ h !! l = Some c -> gate_map c !! g = Some (GModule il ol ids oi mid) ->
    oi <= g /\ forall j, j < ol -> gate_map c !! (g - oi + j) = Some (GModule il ol ids j mid);
}.
Lemma hinv_logical h : hinv h -> logical h.
Proof.
  intros Hinv. split.
  - intros l c w x E Ei. pose proof (hi_circ h Hinv l c E) as Hc. destruct (decide (w < input_len c)) as [Hw|].
    + destruct (wf_inputs c Hc w Hw) as (g & E1 & E2). rewrite E1 in Ei. injection Ei as <-. eauto.
    + rewrite (wf_inputs_none c Hc) in Ei; [done|lia].
  - intros l c g il ol ids oi mid E G. destruct (wf_blocks c (hi_circ h Hinv l c E) _ _ _ _ _ _ G) as (B1 & B2 & B3). auto.
Qed.

Section sound.
Context (md : mode) (h : heap) (Hlog : logical h).

(** All stored bits are the values of their gates. *)
Definition good (l : nat) (ρ : N -> option bool) (s : estate) : Prop :=
  forall g b, evaled s !! g = Some b -> gv h l ρ g b.

Lemma e_insert_sound l ρ c g b : gv h l ρ g b -> tri (good l ρ) (e_insert c g b) (fun _ => True).
Proof.
  intros H s r s' Hs [= <- <-]. split; [|done]. intros g' b'. simpl. destruct (decide (g' = g)) as [->|].
  - rewrite lookup_insert. by intros [= <-].
  - rewrite lookup_insert_ne by done. apply Hs.
Qed.
Lemma e_get_sound l ρ g : tri (good l ρ) (e_get g) (gv h l ρ g).
Proof.
  intros s r s' Hs. unfold e_get. destruct (evaled s !! g) eqn:E; intros [= <- <-]; (split; [done|]).
  - intros ? [= <-]. by apply Hs. - done.
Qed.
Lemma e_decr_sound l ρ g : tri (good l ρ) (e_decr md g) (fun _ => True).
Proof.
  intros s r s' Hs. unfold e_decr. destruct (ndep s !! g); [|by intros [= <- <-]].
  destruct (usize_sub md n 1); try (by intros [= <- <-]).
  destruct (a =? 0); intros [= <- <-]; (split; [|done]); [|done].
  intros g' b'. simpl. intros [? ?]%lookup_delete_Some. by apply Hs.
Qed.
Lemma e_need_sound l ρ eg g : tri (good l ρ) (eg g) (fun _ => True) -> tri (good l ρ) (e_need eg g) (fun _ => True).
Proof.
  intros H s r s' Hs. unfold e_need. destruct (evaled s !! g); [by intros [= <- <-]|]. by apply H.
Qed.
Lemma e_binary_sound l ρ c eg f g a b :
  (forall x y, gv h l ρ a x -> gv h l ρ b y -> gv h l ρ g (f x y)) ->
  (forall g, tri (good l ρ) (eg g) (fun _ => True)) ->
  tri (good l ρ) (e_binary md c eg f g a b) (fun _ => True).
Proof.
  intros Hf Heg. unfold e_binary.
  eapply tri_bind; [apply e_need_sound, Heg|intros _ _].
  eapply tri_bind; [apply e_need_sound, Heg|intros _ _].
  eapply tri_bind; [apply e_get_sound|intros x Hx].
  eapply tri_bind; [apply e_get_sound|intros y Hy].
  eapply tri_bind; [apply e_decr_sound|intros _ _].
  eapply tri_bind; [apply e_decr_sound|intros _ _].
  apply e_insert_sound. auto.
Qed.

Lemma e_insert_outputs_sound l ρ c first bits i k :
  (forall j b, i <= j < i + N.of_nat k -> bits !! N.to_nat j = Some b -> gv h l ρ (first + j) b) ->
  tri (good l ρ) (e_insert_outputs c first bits i k) (fun _ => True).
Proof.
  revert i. induction k as [|k IH]; intros i H; cbn [e_insert_outputs]; [by apply tri_ret|].
  eapply (tri_bind _ _ _ (fun b => bits !! N.to_nat i = Some b)).
  { intros s r s' Hs. unfold st_nth. destruct (bits !! N.to_nat i) as [b0|] eqn:E; intros [= <- <-]; (split; [done|]); [|done].
    by intros ? [= <-]. }
  intros b Hb. eapply tri_bind; [apply e_insert_sound; apply H; [lia|done]|]. intros _ _.
  apply IH. intros. apply H; [lia|done].
Qed.

Lemma e_load_sound l c k w inputs all : h_circ h !! l = Some c -> inputs = drop (N.to_nat w) all ->
  tri (good l (env_of all)) (e_load c k w inputs) (fun _ => True).
Proof.
  intros E.
  revert w inputs. induction k as [|k IH]; intros w inputs Hi; destruct inputs as [|b inputs']; cbn [e_load]; try (by apply tri_ret).
  - intros s r s' Hs [= <- <-]. done.
  - destruct (input_map c !! w) as [[id|]|] eqn:Ei; [|exfalso|apply tri_err].
    + destruct (lg_in h Hlog l c w _ E Ei) as (g & [= <-] & E2).
      eapply tri_bind.
      * apply e_insert_sound. eapply gv_input; [done|done|]. unfold env_of.
        rewrite <- (Nat.add_0_r (N.to_nat w)), <- lookup_drop, <- Hi. done.
      * intros _ _. apply IH. replace (N.to_nat (w + 1)) with (N.to_nat w + 1)%nat by lia.
        rewrite <- drop_drop, <- Hi. done.
    + destruct (lg_in h Hlog l c w _ E Ei) as (g & ? & _). done.
Qed.

Lemma e_single_output_sound l ρ c eg inputs w : h_circ h !! l = Some c ->
  (forall g, tri (good l ρ) (eg g) (fun _ => True)) ->
  tri (good l ρ) (e_single_output c eg inputs w) (outv h l ρ w).
Proof.
  intros E Heg. unfold e_single_output. destruct (negb _); [apply tri_err|]. destruct (_ <=? _); [apply tri_err|].
  destruct (output_map c !! w) as [o|] eqn:Ho; [|apply tri_err].
  assert (Hout : forall b, gv h l ρ o b -> outv h l ρ w b) by (intros b Hb; exists c, o; done).
  intros s r s' Hs. destruct (evaled s !! o) as [b|] eqn:Eb.
  - intros [= <- <-]. split; [done|]. intros ? [= <-]. auto.
  - revert s r s' Hs Eb. intros s r s' Hs _.
    apply (tri_weaken _ _ _ _ (tri_bind _ (eg o) (fun _ => e_get o) _ _ (Heg o) (fun _ _ => e_get_sound l ρ o)) Hout); done.
Qed.

Lemma eval_output_with_sound eg l inputs outs :
  (forall l ρ g, tri (good l ρ) (eg l g) (fun _ => True)) ->
  eval_output_with h eg l inputs = Ok outs -> computes h l inputs outs.
Proof.
  intros Heg. unfold eval_output_with. destruct (h_circ h !! l) as [c|] eqn:E; [|done].
  destruct (negb _); [done|].
  intros Hr.
  assert (T : tri (good l (env_of inputs)) (e_load c (length inputs + size (input_map c) + 1) 0 inputs ;;
          st_mapM (e_single_output c (eg l) inputs) (nrange (output_len c)))
          (fun outs => Forall2 (outv h l (env_of inputs)) (nrange (output_len c)) outs)).
  { eapply tri_bind; [by eapply e_load_sound|]. intros _ _. apply tri_mapM. intros w _. by apply e_single_output_sound. }
  revert Hr T. set (m := st_bind _ _). intros Hr T. destruct (m (EState ∅ ∅)) as [r s'] eqn:Ee. simpl in Hr.
  assert (G0 : good l (env_of inputs) (EState ∅ ∅)) by (intros g b; simpl; by rewrite lookup_empty).
  destruct (T _ _ _ G0 Ee) as [_ HF]. specialize (HF _ Hr).
  exists c. split; [done|]. split.
  - apply Forall2_length in HF. rewrite nrange_length in HF. lia.
  - intros k b Hk. destruct (Forall2_lookup_r _ _ _ _ _ HF Hk) as (w & Hw & Hv).
    rewrite nrange_lookup in Hw. destruct decide; [|done]. by injection Hw as <-.
Qed.

Lemma eval_gate_sound fuel l ρ g : tri (good l ρ) (eval_gate md h fuel l g) (fun _ => True).
Proof.
  revert l ρ g. induction fuel as [|fuel IH]; intros l ρ g; cbn [eval_gate].
  { intros s r s' Hs [= <- <-]. done. }
  destruct (h_circ h !! l) as [c|] eqn:E; [|apply tri_panic].
  destruct (gate_map c !! g) as [gt|] eqn:G; [|apply tri_err].
  destruct gt as [w|b|a|a b|a b|a b|il ol ids oi mid].
  - by apply tri_ret.
  - apply e_insert_sound. by eapply gv_const.
  - eapply tri_bind; [apply e_need_sound, IH|intros _ _].
    eapply tri_bind; [apply e_get_sound|intros x Hx].
    eapply tri_bind; [apply e_decr_sound|intros _ _].
    apply e_insert_sound. by eapply gv_not.
  - apply e_binary_sound; [|apply IH]. intros. by eapply gv_xor.
  - apply e_binary_sound; [|apply IH]. intros. by eapply gv_and.
  - apply e_binary_sound; [|apply IH]. intros. by eapply gv_or.
  - eapply tri_bind.
    { apply (tri_mapM _ _ ids (gv h l ρ)). intros id _. eapply tri_bind; [apply e_need_sound, IH|intros _ _]. apply e_get_sound. }
    intros bits Hbits.
    destruct (h_stor h !! c_storage c) as [x|] eqn:Ex; [|apply tri_panic].
    destruct (module_map x !! mid) as [l'|] eqn:Em; [|apply tri_err].
    eapply tri_bind.
    { apply (tri_lift _ _ (computes h l' bits)). intros outs. apply eval_output_with_sound. exact IH. }
    intros outs (c' & Ec' & Hlen & Houts).
    eapply tri_bind; [apply tri_iterM; intros; apply e_decr_sound|intros _ _].
    destruct (lg_blk h Hlog l c _ _ _ _ _ _ E G) as (B1 & B3).
    eapply (tri_bind _ _ _ (fun f => f = g - oi)).
    { apply tri_lift. intros f. unfold usize_sub. destruct (N.leb_spec oi g); [congruence|lia]. }
    intros f ->. apply e_insert_outputs_sound. intros j b Hj Hb.
    destruct (Houts _ _ Hb) as (c'' & o & Ec & Eo & Hv).
    rewrite N2Nat.id in Eo. eapply gv_module; eauto. apply B3. lia.
Qed.

Theorem logical_sound fuel l inputs outs : eval_output md h fuel l inputs = Ok outs -> computes h l inputs outs.
Proof. apply eval_output_with_sound. intros. apply eval_gate_sound. Qed.
End sound.
Theorem eval_sound md h : hinv h -> forall fuel l inputs outs, eval_output md h fuel l inputs = Ok outs -> computes h l inputs outs.
Proof. intros Hinv. apply logical_sound. by apply hinv_logical. Qed.
