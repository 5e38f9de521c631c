(** Property C64: hierarchical designs. Modules made from Bristol texts and from expressions over earlier modules, to any depth. *)
From Verif Require Export Prop_Export.
Open Scope N_scope.
Open Scope list_scope.

(** * Designs and their meaning *)
Inductive gop := GoAnd | GoOr | GoXor.
Definition gop_val (o : gop) : bool -> bool -> bool := match o with GoAnd => andb | GoOr => orb | GoXor => xorb end.
(** Lists of bits: [k] input bits from the [a]-th, constants, concatenation, [k] bits from the [a]-th, the gates bit by bit, a call of module [j]. *)
Inductive mexp :=
| MIn (a k : nat) | MConst (bs : list bool) | MCat (e1 e2 : mexp) | MSel (a k : nat) (e : mexp)
| MNot (e : mexp) | MBin (o : gop) (e1 e2 : mexp) | MCall (j : nat) (e : mexp).
Fixpoint mval (fs : list (list bool -> list bool)) (ins : list bool) (e : mexp) : list bool :=
  match e with
  | MIn a k => take k (drop a ins)
  | MConst bs => bs
  | MCat e1 e2 => mval fs ins e1 ++ mval fs ins e2
  | MSel a k e => take k (drop a (mval fs ins e))
  | MNot e => map negb (mval fs ins e)
  | MBin o e1 e2 => zip_with (gop_val o) (mval fs ins e1) (mval fs ins e2)
  | MCall j e => nth j fs (fun _ => []) (mval fs ins e)
  end.
(** Bits can be named: every expression of [lets] adds its bits to the inputs of those after it. *)
Fixpoint menv (fs : list (list bool -> list bool)) (ins : list bool) (lets : list mexp) : list bool :=
  match lets with [] => ins | e :: lets => menv fs (ins ++ mval fs ins e) lets end.
Definition bval (fs : list (list bool -> list bool)) (ins : list bool) (lets : list mexp) (e : mexp) : list bool := mval fs (menv fs ins lets) e.
(** A module: a text, which is read, or [n] inputs and expressions over the modules before it. *)
Inductive mdef := DText (text : string) | DBody (n : nat) (lets : list mexp) (e : mexp).
(** The function of a text: the values of its last wires after its lines are executed. *)
Definition text_fun (text : string) (ins : list bool) : list bool :=
  match parse_prog text with Some p => default [] (run_prog EqCopies p ins) | None => [] end.
Definition dfun (fs : list (list bool -> list bool)) (d : mdef) : list bool -> list bool :=
  match d with DText t => text_fun t | DBody _ lets e => fun ins => bval fs ins lets e end.
Fixpoint funs (fs : list (list bool -> list bool)) (lib : list mdef) : list (list bool -> list bool) :=
  match lib with [] => fs | d :: lib => funs (fs ++ [dfun fs d]) lib end.

(** * Well-formed designs *)
(** The numbers of input and output bits of the modules are in [sg]. *)
Definition sg_at (sg : list (nat * nat)) (j : nat) : nat * nat := nth j sg (0%nat, 0%nat).
Fixpoint msize (sg : list (nat * nat)) (e : mexp) : nat :=
  match e with
  | MIn _ k => k | MConst bs => length bs | MCat e1 e2 => (msize sg e1 + msize sg e2)%nat | MSel _ k _ => k
  | MNot e => msize sg e | MBin _ e1 _ => msize sg e1 | MCall j _ => (sg_at sg j).2
  end.
Fixpoint mwf (sg : list (nat * nat)) (n : nat) (e : mexp) : Prop :=
  match e with
  | MIn a k => (a + k <= n)%nat
  | MConst _ => True
  | MCat e1 e2 => mwf sg n e1 /\ mwf sg n e2
  | MSel a k e => (a + k <= msize sg e)%nat /\ mwf sg n e
  | MNot e => mwf sg n e
  | MBin _ e1 e2 => msize sg e1 = msize sg e2 /\ mwf sg n e1 /\ mwf sg n e2
  | MCall j e => (j < length sg)%nat /\ msize sg e = (sg_at sg j).1 /\ mwf sg n e
  end.
Fixpoint mlen (sg : list (nat * nat)) (n : nat) (lets : list mexp) : nat :=
  match lets with [] => n | e :: lets => mlen sg (n + msize sg e) lets end.
Fixpoint mlwf (sg : list (nat * nat)) (n : nat) (lets : list mexp) : Prop :=
  match lets with [] => True | e :: lets => mwf sg n e /\ mlwf sg (n + msize sg e) lets end.
Definition body_wf (sg : list (nat * nat)) (n : nat) (lets : list mexp) (e : mexp) : Prop := mlwf sg n lets /\ mwf sg (mlen sg n lets) e.
(** For every bit of the result: the input it is, if it is one. *)
Fixpoint mroots (sg : list (nat * nat)) (e : mexp) : list (option nat) :=
  match e with
  | MIn a k => map Some (seq a k)
  | MCat e1 e2 => mroots sg e1 ++ mroots sg e2
  | MSel a k e => take k (drop a (mroots sg e))
  | MConst _ | MNot _ | MBin _ _ _ | MCall _ _ => replicate (msize sg e) None
  end.
(** The inputs that some gate or call reads. *)
Fixpoint mused (sg : list (nat * nat)) (e : mexp) : list nat :=
  match e with
  | MIn _ _ | MConst _ => []
  | MCat e1 e2 => mused sg e1 ++ mused sg e2
  | MSel _ _ e => mused sg e
  | MNot e | MCall _ e => mused sg e ++ omap id (mroots sg e)
  | MBin _ e1 e2 => mused sg e1 ++ mused sg e2 ++ omap id (mroots sg e1) ++ omap id (mroots sg e2)
  end.
(** Which named bits are the same bit: every bit has a cell, inputs the first ones. [cs_used] are the cells that some gate or call reads. *)
Record cells := Cells { cs_of : list nat; cs_used : list nat; cs_next : nat }.
Definition croots (sg : list (nat * nat)) (cs : cells) (e : mexp) : list nat :=
  imap (fun k r => match r with Some j => nth j (cs_of cs) 0%nat | None => (cs_next cs + k)%nat end) (mroots sg e).
Definition cstep (sg : list (nat * nat)) (cs : cells) (e : mexp) : cells :=
  Cells (cs_of cs ++ croots sg cs e) (cs_used cs ++ map (fun j => nth j (cs_of cs) 0%nat) (mused sg e)) (cs_next cs + msize sg e).
Fixpoint clets (sg : list (nat * nat)) (cs : cells) (lets : list mexp) : cells :=
  match lets with [] => cs | e :: lets => clets sg (cstep sg cs e) lets end.
(** The cells of the outputs of a body with [n] inputs, and the cells that are read. *)
Definition bouts (sg : list (nat * nat)) (n : nat) (lets : list mexp) (e : mexp) : list nat := croots sg (clets sg (Cells (seq 0 n) [] n) lets) e.
Definition bused (sg : list (nat * nat)) (n : nat) (lets : list mexp) (e : mexp) : list nat :=
  cs_used (cstep sg (clets sg (Cells (seq 0 n) [] n) lets) e).
(** A text fit to be a module: it parses and runs, no line reads an output wire, and there are at least as many lines as outputs, of which there is one. *)
Definition text_ok (text : string) : Prop :=
  exists p, parse_prog text = Some p /\ is_Some (run_prog EqCopies p (replicate (N.to_nat (Bristol.nsum (pr_in p))) false)) /\
    (forall gl w, gl ∈ pr_lines p -> w ∈ gl_ins gl -> w ∉ output_wires p) /\ 0 < Bristol.nsum (pr_out p) <= N.of_nat (length (pr_lines p)).
Definition dsig (sg : list (nat * nat)) (d : mdef) : nat * nat :=
  match d with
  | DText t => match parse_prog t with Some p => (N.to_nat (Bristol.nsum (pr_in p)), N.to_nat (Bristol.nsum (pr_out p))) | None => (0, 0)%nat end
  | DBody n lets e => (n, msize sg e)
  end.
(** The outputs of the body of a module are distinct, no inputs, and read by nothing. *)
Definition dwf (sg : list (nat * nat)) (d : mdef) : Prop :=
  match d with
  | DText t => text_ok t
  | DBody n lets e => body_wf sg n lets e /\ NoDup (bouts sg n lets e) /\ (forall c, c ∈ bouts sg n lets e -> (n <= c)%nat /\ c ∉ bused sg n lets e) /\
      (0 < msize sg e)%nat
  end.
Fixpoint sigs (sg : list (nat * nat)) (lib : list mdef) : list (nat * nat) :=
  match lib with [] => sg | d :: lib => sigs (sg ++ [dsig sg d]) lib end.
Fixpoint lwf (sg : list (nat * nat)) (lib : list mdef) : Prop :=
  match lib with [] => True | d :: lib => dwf sg d /\ lwf (sg ++ [dsig sg d]) lib end.

(** * The program that builds a design *)
(** Code of a user of the crate: it makes the calls of /repo/src/bool_circuit.rs (466-625) and of [BristolReader::read] in the obvious order. *)
Definition gop_call (o : gop) (l : nat) (a b : N) : M N := match o with GoAnd => r_and l a b | GoOr => r_or l a b | GoXor => r_xor l a b end.
Fixpoint mbuild (md : mode) (l : nat) (mids ins : list N) (e : mexp) : M (list N) :=
  match e with
  | MIn a k => st_ret (take k (drop a ins))
  | MConst bs => st_mapM (r_constant l) bs
  | MCat e1 e2 => x <- mbuild md l mids ins e1 ;; y <- mbuild md l mids ins e2 ;; st_ret (x ++ y)
  | MSel a k e => x <- mbuild md l mids ins e ;; st_ret (take k (drop a x))
  | MNot e => x <- mbuild md l mids ins e ;; st_mapM (r_not l) x
  | MBin o e1 e2 => x <- mbuild md l mids ins e1 ;; y <- mbuild md l mids ins e2 ;; st_mapM (fun ab => gop_call o l ab.1 ab.2) (zip x y)
  | MCall j e => x <- mbuild md l mids ins e ;; mid <- st_nth mids j ;; r_module md l mid x
  end.
Fixpoint mlets (md : mode) (l : nat) (mids ins : list N) (lets : list mexp) : M (list N) :=
  match lets with [] => st_ret ins | e :: lets => x <- mbuild md l mids ins e ;; mlets md l mids (ins ++ x) lets end.
Definition circuit_of (md : mode) (l : nat) (mids : list N) (n : nat) (lets : list mexp) (e : mexp) : M unit :=
  ins <- b_inputs l n ;; env <- mlets md l mids ins lets ;; os <- mbuild md l mids env e ;; st_iterM (b_output l) os.
Definition module_of (md : mode) (l : nat) (mids : list N) (d : mdef) : M N :=
  ms <- r_sub_circuit l ;; match d with DText t => read_fresh md ms.2 t | DBody n lets e => circuit_of md ms.2 mids n lets e end ;; st_ret ms.1.
Fixpoint modules_of (md : mode) (l : nat) (mids : list N) (lib : list mdef) : M (list N) :=
  match lib with [] => st_ret mids | d :: lib => mid <- module_of md l mids d ;; modules_of md l (mids ++ [mid]) lib end.
(** The modules in order, then the circuit itself. *)
Definition design (md : mode) (l : nat) (lib : list mdef) (n : nat) (lets : list mexp) (e : mexp) : M unit :=
  mids <- modules_of md l [] lib ;; circuit_of md l mids n lets e.

(** * Building an expression *)
Lemma mv_none l h ops : mv l h h ops [].
Proof. split; [apply ext_refl|intros ? []%elem_of_nil|done|constructor]. Qed.
(** A loop that makes one gate per element. *)
Lemma t_map {A} p h l i os (f : A -> M N) (ops : A -> list N) (v : A -> (N -> bool) -> bool) (xs : list A) : bs p h l i os ->
  (forall x a, x ∈ xs -> a ∈ ops x -> has_gate h l a) ->
  (forall x h1, x ∈ xs -> ext l h h1 -> bs p h1 l i os -> exists g h2, f x h1 = (Ok g, h2) /\ bs p h2 l i os /\ mv l h1 h2 (ops x) [g] /\ gf h2 l g (v x)) ->
  exists gs h', st_mapM f xs h = (Ok gs, h') /\ length gs = length xs /\ bs p h' l i os /\ mv l h h' (concat (map ops xs)) gs /\
    gfs h' l gs (fun ρ => map (fun x => v x ρ) xs).
Proof.
  intros B Ho Hf. destruct (mapM_inv f xs (fun gs h' => bs p h' l i os /\ mv l h h' (concat (map ops xs)) gs /\
    gfs h' l gs (fun ρ => take (length gs) (map (fun x => v x ρ) xs))) h) as (gs & h' & E & Hl & B' & M' & F').
  - intros gs x h1 Hx (B1 & M1 & F1). assert (Hin : x ∈ xs) by (by eapply elem_of_list_lookup_2).
    destruct (Hf x h1 Hin (mv_ext _ _ _ _ _ M1) B1) as (g & h2 & E2 & B2 & M2 & F2). exists g, h2. split; [done|]. split; [done|].
    assert (Hops : forall a, a ∈ ops x -> a ∈ concat (map ops xs)).
    { intros a Ha. apply elem_of_list_In, in_concat. exists (ops x). split; [|by apply elem_of_list_In]. apply in_map. by apply elem_of_list_In. }
    split.
    + eapply mv_app; [exact M1|exact M2|done|]. intros a Ha. split; [by apply Hops|]. intros Hg. destruct (mv_new _ _ _ _ _ M1 a Hg) as [Hn _]. apply Hn. eauto.
    + rewrite app_length. cbn [length]. rewrite Nat.add_1_r. eapply gfs_eq; [eapply gfs_snoc; [eapply gfs_mv; [exact M2|exact F1]|exact F2]|].
      intros ρ. cbn beta. symmetry. apply take_S_r. by rewrite list_lookup_fmap, Hx.
  - split; [done|]. split; [apply mv_none|apply gfs_nil].
  - exists gs, h'. do 4 (split; [done|]). eapply gfs_eq; [exact F'|]. intros ρ. cbn beta. apply take_ge. by rewrite map_length, Hl.
Qed.

(** The modules [mids] of the circuit at [l] have the sizes [sg] and the functions [fs]. *)
Definition mods_at (p : nat) (h : heap) (l : nat) (mids : list N) (sg : list (nat * nat)) (fs : list (list bool -> list bool)) : Prop :=
  length mids = length sg /\ length fs = length sg /\
  forall j mid nn f, mids !! j = Some mid -> sg !! j = Some nn -> fs !! j = Some f -> mspec p h l mid nn.1 nn.2 f /\ (0 < nn.2)%nat.
Lemma mods_ext p h h' l i os mids sg fs : bs p h l i os -> ext l h h' -> mods_at p h l mids sg fs -> mods_at p h' l mids sg fs.
Proof.
  intros [c B] X (H1 & H2 & H3). split; [done|]. split; [done|]. intros j mid nn f Ha Hb Hc. destruct (H3 j mid nn f Ha Hb Hc) as [Hm Hp]. split; [|done].
  eapply mspec_ext; [apply B|apply B|exact X|done].
Qed.
(** What building [e] in [h] achieves. *)
Record made (p : nat) (h : heap) (l : nat) (i : N) (os : list N) (sg : list (nat * nat)) (fs : list (list bool -> list bool)) (ins : list N)
    (I : (N -> bool) -> list bool) (e : mexp) (gs : list N) (h' : heap) : Prop := {
  ma_bs : bs p h' l i os;
  ma_ext : ext l h h';
  ma_len : length gs = msize sg e;
  ma_val : gfs h' l gs (fun ρ => mval fs (I ρ) e);
  ma_root : forall k g, gs !! k = Some g -> exists r, mroots sg e !! k = Some r /\
    match r with Some j => ins !! j = Some g | None => ~ has_gate h l g /\ has_gate h' l g /\ free h' l g end;
  ma_free : forall g, has_gate h l g -> free h l g -> (forall j, j ∈ mused sg e -> ins !! j <> Some g) -> free h' l g;
  ma_nd : forall k1 k2 g, gs !! k1 = Some g -> gs !! k2 = Some g -> mroots sg e !! k1 = Some None -> k1 = k2;
}.
(** New gates all of which are results. *)
Lemma made_new p h l i os sg fs ins I e gs h1 h' ops : bs p h' l i os -> ext l h h1 -> mv l h1 h' ops gs -> length gs = msize sg e ->
  gfs h' l gs (fun ρ => mval fs (I ρ) e) -> mroots sg e = replicate (msize sg e) None ->
  (forall g, has_gate h l g -> free h l g -> (forall j, j ∈ mused sg e -> ins !! j <> Some g) -> free h1 l g /\ g ∉ ops) ->
  made p h l i os sg fs ins I e gs h'.
Proof.
  intros B X M Hl V Hr Hf. split; [done|eapply ext_trans; [exact X|apply M]|done|done| | |].
  - intros k g Hk. exists None. split; [rewrite Hr; apply lookup_replicate_2; rewrite <- Hl; by eapply lookup_lt_Some|].
    destruct (mv_new _ _ _ _ _ M g) as (H1 & H2 & H3); [by eapply elem_of_list_lookup_2|]. split; [|done]. intros H. apply H1. eapply has_gate_hle; [apply X|done].
  - intros g Hg Hfr Hu. destruct (Hf g Hg Hfr Hu) as [H1 H2]. eapply (mv_free _ _ _ _ _ M); [eapply has_gate_hle; [apply X|done]|done|done].
  - intros k1 k2 g H1 H2 _. eapply NoDup_lookup; [apply M|done|done].
Qed.
(** The gates that a call reads are inputs or results of the parts, which are new. *)
Lemma made_ops p h l i os sg fs ins I e gs h' g : made p h l i os sg fs ins I e gs h' -> has_gate h l g -> g ∈ gs ->
  exists j, j ∈ omap id (mroots sg e) /\ ins !! j = Some g.
Proof.
  intros Ma Hg [k Hk]%elem_of_list_lookup. destruct (ma_root _ _ _ _ _ _ _ _ _ _ _ _ Ma k g Hk) as (r & Hr & Hj). destruct r as [j|]; [|by destruct Hj].
  exists j. split; [|done]. apply elem_of_list_omap. exists (Some j). split; [|done]. by eapply elem_of_list_lookup_2.
Qed.
Lemma mroots_length sg n e : mwf sg n e -> length (mroots sg e) = msize sg e.
Proof.
  induction e as [a k|bs|e1 IH1 e2 IH2|a k e IH|e IH|o e1 IH1 e2 IH2|j e IH]; cbn [mwf mroots msize]; intros H; rewrite ?replicate_length; try done.
  - by rewrite map_length, seq_length.
  - destruct H. rewrite app_length, IH1, IH2; done.
  - destruct H as [H1 H2]. rewrite take_length, drop_length, (IH H2). lia.
Qed.
Lemma take_drop_lookup {A} (v : list A) a k j x : take k (drop a v) !! j = Some x -> (j < k)%nat /\ v !! (a + j)%nat = Some x.
Proof.
  intros H. assert ((j < k)%nat) as Hj. { apply lookup_lt_Some in H. rewrite take_length in H. lia. }
  rewrite lookup_take, lookup_drop in H by done. done.
Qed.
(** Bit by bit, on two lists of gates. *)
Lemma t_bins p h l i os o xs ys X Y : bs p h l i os -> gfs h l xs X -> gfs h l ys Y -> length xs = length ys ->
  exists gs h', st_mapM (fun ab => gop_call o l ab.1 ab.2) (zip xs ys) h = (Ok gs, h') /\ length gs = length xs /\ bs p h' l i os /\
    mv l h h' (xs ++ ys) gs /\ gfs h' l gs (fun ρ => zip_with (gop_val o) (X ρ) (Y ρ)).
Proof.
  intros B Fx Fy Hl.
  destruct (mapM_inv (fun ab => gop_call o l ab.1 ab.2) (zip xs ys) (fun gs h' => bs p h' l i os /\ mv l h h' (xs ++ ys) gs /\
    gfs h' l gs (fun ρ => take (length gs) (zip_with (gop_val o) (X ρ) (Y ρ)))) h) as (gs & h' & E & Hlg & B' & M' & F').
  - intros gs [a b] h1 Hx (B1 & M1 & F1). set (k := length gs) in *. apply lookup_zip_with_Some in Hx as (a' & b' & [= <- <-] & Ha & Hb).
    pose proof (gfs_at _ _ _ _ _ _ Fx Ha) as Ga. pose proof (gfs_at _ _ _ _ _ _ Fy Hb) as Gb.
    pose proof (gf_mv _ _ _ _ _ _ _ _ M1 Ga) as Ga1. pose proof (gf_mv _ _ _ _ _ _ _ _ M1 Gb) as Gb1.
    assert (exists g h2, gop_call o l a b h1 = (Ok g, h2) /\ bs p h2 l i os /\ mv l h1 h2 [a; b] [g] /\
      gf h2 l g (fun ρ => gop_val o (nth k (X ρ) false) (nth k (Y ρ) false))) as (g & h2 & E2 & B2 & M2 & F2).
    { destruct o; cbn [gop_call gop_val].
      - exact (t_and _ _ _ _ _ B1 a b _ _ Ga1 Gb1).
      - exact (t_or _ _ _ _ _ B1 a b _ _ Ga1 Gb1).
      - exact (t_xor _ _ _ _ _ B1 a b _ _ Ga1 Gb1). }
    exists g, h2. split; [done|]. split; [done|]. split.
    + eapply mv_app; [exact M1|exact M2|done|]. intros u Hu. rewrite elem_of_cons, elem_of_list_singleton in Hu.
      assert (has_gate h l u /\ u ∈ xs ++ ys) as [Hg Hin].
      { rewrite elem_of_app. destruct Hu as [-> | ->]; split; [apply Ga|left; by eapply elem_of_list_lookup_2|apply Gb|right; by eapply elem_of_list_lookup_2]. }
      split; [done|]. intros Hn. by destruct (mv_new _ _ _ _ _ M1 u Hn).
    + rewrite app_length. cbn [length]. rewrite Nat.add_1_r. eapply gfs_eq; [eapply gfs_snoc; [eapply gfs_mv; [exact M2|exact F1]|exact F2]|].
      intros ρ. cbn beta. fold k. symmetry. apply take_S_r. rewrite lookup_zip_with.
      apply lookup_lt_Some in Ha. apply lookup_lt_Some in Hb.
      rewrite (nth_lookup_lt (X ρ) k false), (nth_lookup_lt (Y ρ) k false) by (rewrite ?(gfs_length _ _ _ _ _ Fx), ?(gfs_length _ _ _ _ _ Fy); done). done.
  - split; [done|]. split; [apply mv_none|apply gfs_nil].
  - rewrite zip_with_length_l in Hlg by lia. exists gs, h'. do 4 (split; [done|]). eapply gfs_eq; [exact F'|]. intros ρ. cbn beta. apply take_ge.
    rewrite zip_with_length, (gfs_length _ _ _ _ _ Fx), (gfs_length _ _ _ _ _ Fy). lia.
Qed.
Lemma t_not_all p h l i os xs X : bs p h l i os -> gfs h l xs X ->
  exists gs h', st_mapM (r_not l) xs h = (Ok gs, h') /\ length gs = length xs /\ bs p h' l i os /\
    mv l h h' xs gs /\ gfs h' l gs (fun ρ => map negb (X ρ)).
Proof.
  intros B Fx.
  destruct (mapM_inv (r_not l) xs (fun gs h' => bs p h' l i os /\ mv l h h' xs gs /\
    gfs h' l gs (fun ρ => take (length gs) (map negb (X ρ)))) h) as (gs & h' & E & Hlg & B' & M' & F').
  - intros gs a h1 Ha (B1 & M1 & F1). set (k := length gs) in *. pose proof (gfs_at _ _ _ _ _ _ Fx Ha) as Ga.
    destruct (t_not _ _ _ _ _ B1 a _ (gf_mv _ _ _ _ _ _ _ _ M1 Ga)) as (g & h2 & E2 & B2 & M2 & F2).
    exists g, h2. split; [done|]. split; [done|]. split.
    + eapply mv_app; [exact M1|exact M2|done|]. intros u ->%elem_of_list_singleton. split; [by eapply elem_of_list_lookup_2|].
      intros Hn. destruct (mv_new _ _ _ _ _ M1 a Hn) as [Hn' _]. apply Hn', Ga.
    + rewrite app_length. cbn [length]. rewrite Nat.add_1_r. eapply gfs_eq; [eapply gfs_snoc; [eapply gfs_mv; [exact M2|exact F1]|exact F2]|].
      intros ρ. cbn beta. fold k. symmetry. apply take_S_r. apply lookup_lt_Some in Ha.
      rewrite list_lookup_fmap, (nth_lookup_lt (X ρ) k false) by (by rewrite (gfs_length _ _ _ _ _ Fx)). done.
  - split; [done|]. split; [apply mv_none|apply gfs_nil].
  - exists gs, h'. do 4 (split; [done|]). eapply gfs_eq; [exact F'|]. intros ρ. cbn beta. apply take_ge.
    by rewrite map_length, (gfs_length _ _ _ _ _ Fx), Hlg.
Qed.
Lemma mbuild_ok md p l i os sg fs mids n I : (forall ρ, length (I ρ) = n) -> forall e h ins, bs p h l i os -> mods_at p h l mids sg fs -> length ins = n ->
  gfs h l ins I -> mwf sg n e -> exists gs h', mbuild md l mids ins e h = (Ok gs, h') /\ made p h l i os sg fs ins I e gs h'.
Proof.
  intros HI. induction e as [a k|bits|e1 IH1 e2 IH2|a k e IH|e IH|o e1 IH1 e2 IH2|j e IH]; intros h ins B Mo Hins V Hw; cbn [mwf mbuild] in *.
  - exists (take k (drop a ins)), h. split; [done|]. split; [done|apply ext_refl| |cbn [mval]; by apply gfs_take, gfs_drop| |done|].
    + cbn [msize]. rewrite take_length, drop_length. lia.
    + intros j g Hj. apply take_drop_lookup in Hj as [Hj Hg]. exists (Some (a + j)%nat). split; [|done]. cbn [mroots]. rewrite list_lookup_fmap.
      by rewrite lookup_seq_lt.
    + intros k1 k2 g _ _ H. cbn [mroots] in H. rewrite list_lookup_fmap in H. by destruct (seq a k !! k1).
  - destruct (t_map p h l i os (r_constant l) (fun _ => []) (fun b _ => b) bits B) as (gs & h' & E & Hl & B' & M' & F').
    + intros x u _ []%elem_of_nil.
    + intros x h1 _ X1 B1. exact (t_constant _ _ _ _ _ B1 x).
    + exists gs, h'. split; [done|]. eapply made_new; [exact B'|apply ext_refl|exact M'|done| |done|].
      * eapply gfs_eq; [exact F'|]. intros ρ. cbn [mval]. apply map_id.
      * intros g _ Hf _. split; [done|]. intros Hg. apply elem_of_list_In, in_concat in Hg as (v & Hv & Hg). apply in_map_iff in Hv as (? & <- & _). done.
  - destruct Hw as [W1 W2]. destruct (IH1 h ins B Mo Hins V W1) as (xs & h1 & E1 & Ma1). pose proof (ma_ext _ _ _ _ _ _ _ _ _ _ _ _ Ma1) as X1.
    destruct (IH2 h1 ins (ma_bs _ _ _ _ _ _ _ _ _ _ _ _ Ma1) (mods_ext _ _ _ _ _ _ _ _ _ B X1 Mo) Hins (gfs_ext _ _ _ _ _ _ X1 V) W2) as (ys & h2 & E2 & Ma2).
    pose proof (ma_ext _ _ _ _ _ _ _ _ _ _ _ _ Ma2) as X2. exists (xs ++ ys), h2. rewrite (st_bind_ok _ _ _ _ _ E1), (st_bind_ok _ _ _ _ _ E2). split; [done|].
    pose proof (mroots_length _ _ _ W1) as Lr. pose proof (ma_len _ _ _ _ _ _ _ _ _ _ _ _ Ma1) as L1. pose proof (ma_len _ _ _ _ _ _ _ _ _ _ _ _ Ma2) as L2.
    assert (R1 : forall k g, xs !! k = Some g -> exists r, mroots sg e1 !! k = Some r /\ has_gate h1 l g /\
      match r with Some j => ins !! j = Some g | None => ~ has_gate h l g /\ has_gate h2 l g /\ free h2 l g end).
    { intros k g Hk. destruct (ma_root _ _ _ _ _ _ _ _ _ _ _ _ Ma1 k g Hk) as (r & Hr & Hj). exists r. split; [done|].
      split; [eapply gfs_in; [apply Ma1|]; by eapply elem_of_list_lookup_2|]. destruct r as [j|]; [done|]. destruct Hj as (H1 & H2 & H3).
      split; [done|]. split; [eapply has_gate_hle; [apply X2|done]|]. eapply (ma_free _ _ _ _ _ _ _ _ _ _ _ _ Ma2); [done|done|].
      intros j _ Hj. apply H1. eapply gfs_in; [exact V|by eapply elem_of_list_lookup_2]. }
    split; [apply Ma2|by eapply ext_trans| | | | |].
    + rewrite app_length. cbn [msize]. lia.
    + cbn [mval]. apply gfs_app; [eapply gfs_ext; [exact X2|apply Ma1]|apply Ma2].
    + intros k g Hk. cbn [mroots]. apply lookup_app_Some in Hk as [Hk|[Hk Hk']].
      * destruct (R1 k g Hk) as (r & Hr & _ & Hj). exists r. split; [by apply lookup_app_l_Some|done].
      * destruct (ma_root _ _ _ _ _ _ _ _ _ _ _ _ Ma2 _ g Hk') as (r & Hr & Hj). exists r. split; [rewrite lookup_app_r by lia; by rewrite Lr, <- L1|].
        destruct r as [j|]; [done|]. destruct Hj as (H1 & H2 & H3). split; [|done]. intros H. apply H1. eapply has_gate_hle; [apply X1|done].
    + intros g Hg Hf Hu. eapply (ma_free _ _ _ _ _ _ _ _ _ _ _ _ Ma2); [eapply has_gate_hle; [apply X1|done]| |].
      * eapply (ma_free _ _ _ _ _ _ _ _ _ _ _ _ Ma1); [done|done|]. intros j Hj. apply Hu. cbn [mused]. apply elem_of_app. by left.
      * intros j Hj. apply Hu. cbn [mused]. apply elem_of_app. by right.
    + assert (Hx : forall k1 k2 g, xs !! k1 = Some g -> ys !! k2 = Some g -> mroots sg e1 !! k1 = Some None \/ mroots sg e2 !! k2 = Some None -> False).
      { intros k1 k2 g H1 H2 Hn. destruct (R1 k1 g H1) as (r1 & Hr1 & G1 & J1). destruct (ma_root _ _ _ _ _ _ _ _ _ _ _ _ Ma2 k2 g H2) as (r2 & Hr2 & J2).
        destruct Hn as [Hn|Hn].
        - rewrite Hr1 in Hn. injection Hn as ->. destruct J1 as (J1 & _). destruct r2 as [j|]; [|by destruct J2]. apply J1. eapply gfs_in; [exact V|by eapply elem_of_list_lookup_2].
        - rewrite Hr2 in Hn. injection Hn as ->. by destruct J2. }
      intros k1 k2 g H1 H2 Hr. cbn [mroots] in Hr.
      apply lookup_app_Some in H1 as [H1|[K1 H1]]; apply lookup_app_Some in H2 as [H2|[K2 H2]].
      * rewrite lookup_app_l in Hr by (rewrite Lr, <- L1; by eapply lookup_lt_Some). by eapply (ma_nd _ _ _ _ _ _ _ _ _ _ _ _ Ma1).
      * rewrite lookup_app_l in Hr by (rewrite Lr, <- L1; by eapply lookup_lt_Some). exfalso. eapply Hx; eauto.
      * rewrite lookup_app_r in Hr by lia. rewrite Lr, <- L1 in Hr. exfalso. eapply Hx; eauto.
      * rewrite lookup_app_r in Hr by lia. rewrite Lr, <- L1 in Hr. pose proof (ma_nd _ _ _ _ _ _ _ _ _ _ _ _ Ma2 _ _ _ H1 H2 Hr). lia.
  - destruct Hw as [Hk W]. destruct (IH h ins B Mo Hins V W) as (xs & h1 & E1 & Ma). exists (take k (drop a xs)), h1. rewrite (st_bind_ok _ _ _ _ _ E1). split; [done|].
    split; [apply Ma|apply Ma| |cbn [mval]; apply gfs_take, gfs_drop, Ma| |apply Ma|].
    + rewrite take_length, drop_length, (ma_len _ _ _ _ _ _ _ _ _ _ _ _ Ma). cbn [msize]. lia.
    + intros j g Hj. apply take_drop_lookup in Hj as [Hj Hg]. destruct (ma_root _ _ _ _ _ _ _ _ _ _ _ _ Ma _ g Hg) as (r & Hr & Hm). exists r. split; [|done].
      cbn [mroots]. by rewrite lookup_take, lookup_drop.
    + intros k1 k2 g H1 H2 Hr. apply take_drop_lookup in H1 as [_ H1]. apply take_drop_lookup in H2 as [_ H2]. cbn [mroots] in Hr. apply take_drop_lookup in Hr as [_ Hr].
      pose proof (ma_nd _ _ _ _ _ _ _ _ _ _ _ _ Ma _ _ _ H1 H2 Hr). lia.
  - destruct (IH h ins B Mo Hins V Hw) as (xs & h1 & E1 & Ma). pose proof (ma_val _ _ _ _ _ _ _ _ _ _ _ _ Ma) as Fx.
    destruct (t_not_all p h1 l i os xs _ (ma_bs _ _ _ _ _ _ _ _ _ _ _ _ Ma) Fx) as (gs & h' & E & Hl & B' & M' & F').
    exists gs, h'. rewrite (st_bind_ok _ _ _ _ _ E1). split; [done|].
    eapply made_new; [exact B'|apply Ma|exact M'|by rewrite Hl, (ma_len _ _ _ _ _ _ _ _ _ _ _ _ Ma)|exact F'|done|].
    intros g Hg Hf Hu. cbn [mused] in Hu. split.
    + eapply (ma_free _ _ _ _ _ _ _ _ _ _ _ _ Ma); [done|done|]. intros j Hj. apply Hu, elem_of_app. by left.
    + intros Hin. destruct (made_ops _ _ _ _ _ _ _ _ _ _ _ _ _ Ma Hg Hin) as (j & Hj & Hjg). apply (Hu j); [|done]. apply elem_of_app. by right.
  - destruct Hw as (Hs & W1 & W2). destruct (IH1 h ins B Mo Hins V W1) as (xs & h1 & E1 & Ma1). pose proof (ma_ext _ _ _ _ _ _ _ _ _ _ _ _ Ma1) as X1.
    destruct (IH2 h1 ins (ma_bs _ _ _ _ _ _ _ _ _ _ _ _ Ma1) (mods_ext _ _ _ _ _ _ _ _ _ B X1 Mo) Hins (gfs_ext _ _ _ _ _ _ X1 V) W2) as (ys & h2 & E2 & Ma2).
    pose proof (ma_ext _ _ _ _ _ _ _ _ _ _ _ _ Ma2) as X2.
    pose proof (ma_len _ _ _ _ _ _ _ _ _ _ _ _ Ma1) as L1. pose proof (ma_len _ _ _ _ _ _ _ _ _ _ _ _ Ma2) as L2.
    destruct (t_bins p h2 l i os o xs ys _ _ (ma_bs _ _ _ _ _ _ _ _ _ _ _ _ Ma2) (gfs_ext _ _ _ _ _ _ X2 (ma_val _ _ _ _ _ _ _ _ _ _ _ _ Ma1)) (ma_val _ _ _ _ _ _ _ _ _ _ _ _ Ma2))
      as (gs & h' & E & Hl & B' & M' & F'); [lia|].
    exists gs, h'. rewrite (st_bind_ok _ _ _ _ _ E1), (st_bind_ok _ _ _ _ _ E2). split; [done|].
    eapply made_new; [exact B'|by eapply ext_trans|exact M'|by rewrite Hl|exact F'|done|].
    intros g Hg Hf Hu. cbn [mused] in Hu. assert (Hg1 : has_gate h1 l g) by (eapply has_gate_hle; [apply X1|done]).
    assert (Hf1 : free h1 l g). { eapply (ma_free _ _ _ _ _ _ _ _ _ _ _ _ Ma1); [done|done|]. intros j Hj. apply Hu. rewrite !elem_of_app. auto. }
    split.
    + eapply (ma_free _ _ _ _ _ _ _ _ _ _ _ _ Ma2); [done|done|]. intros j Hj. apply Hu. rewrite !elem_of_app. auto.
    + intros [Hin|Hin]%elem_of_app.
      * destruct (made_ops _ _ _ _ _ _ _ _ _ _ _ _ _ Ma1 Hg Hin) as (j & Hj & Hjg). apply (Hu j); [|done]. rewrite !elem_of_app. auto.
      * destruct (made_ops _ _ _ _ _ _ _ _ _ _ _ _ _ Ma2 Hg1 Hin) as (j & Hj & Hjg). apply (Hu j); [|done]. rewrite !elem_of_app. auto.
  - destruct Hw as (Hj & Hs & W). destruct (IH h ins B Mo Hins V W) as (xs & h1 & E1 & Ma).
    pose proof (ma_ext _ _ _ _ _ _ _ _ _ _ _ _ Ma) as X1. destruct (mods_ext _ _ _ _ _ _ _ _ _ B X1 Mo) as (Hm1 & Hm2 & Hm3).
    destruct (lookup_lt_is_Some_2 mids j) as [mid Hmid]; [by rewrite Hm1|]. destruct (lookup_lt_is_Some_2 sg j Hj) as [nn Hnn].
    destruct (lookup_lt_is_Some_2 fs j) as [f Hfj]; [by rewrite Hm2|]. destruct (Hm3 j mid nn f Hmid Hnn Hfj) as [Hm Hpos].
    assert (Hsg : sg_at sg j = nn) by (by apply nth_lookup_Some). rewrite Hsg in Hs.
    destruct (t_module md p h1 l i os mid nn.1 nn.2 f xs _ (ma_bs _ _ _ _ _ _ _ _ _ _ _ _ Ma) Hm (ma_val _ _ _ _ _ _ _ _ _ _ _ _ Ma)) as (gs & h' & E & B' & M' & Hl & F').
    { by rewrite (ma_len _ _ _ _ _ _ _ _ _ _ _ _ Ma). } { done. }
    exists gs, h'. rewrite (st_bind_ok _ _ _ _ _ E1), (st_bind_ok _ _ _ _ _ (st_nth_ok _ _ _ _ Hmid)). split; [done|].
    eapply made_new; [exact B'|exact X1|exact M'|cbn [msize]; by rewrite Hsg| |done|].
    + eapply gfs_eq; [exact F'|]. intros ρ. cbn [mval]. by rewrite (nth_lookup_Some _ _ _ _ Hfj).
    + intros g Hg Hf Hu. cbn [mused] in Hu. split.
      * eapply (ma_free _ _ _ _ _ _ _ _ _ _ _ _ Ma); [done|done|]. intros k Hk. apply Hu, elem_of_app. by left.
      * intros Hin. destruct (made_ops _ _ _ _ _ _ _ _ _ _ _ _ _ Ma Hg Hin) as (k & Hk & Hkg). apply (Hu k); [|done]. apply elem_of_app. by right.
Qed.

(** * Building the modules *)
Lemma t_outs p l i gs : forall h os, bs p h l i os -> Forall (has_gate h l) gs ->
  exists h', st_iterM (b_output l) gs h = (Ok tt, h') /\ bs p h' l i (os ++ gs) /\ mv l h h' [] [].
Proof.
  induction gs as [|g gs IH]; intros h os B Hg; cbn [st_iterM].
  - exists h. split; [done|]. rewrite app_nil_r. split; [done|apply mv_none].
  - apply Forall_cons in Hg as [H1 H2]. destruct (t_out _ _ _ _ _ g B H1) as (h1 & E1 & B1 & M1).
    destruct (IH h1 (os ++ [g]) B1) as (h2 & E2 & B2 & M2).
    { eapply Forall_impl; [exact H2|]. intros x Hx. eapply has_gate_hle; [apply M1|done]. }
    exists h2. rewrite (st_bind_ok _ _ _ _ _ E1). split; [done|]. rewrite <- app_assoc in B2. split; [done|].
    eapply mv_trans; [exact M1|exact M2|done|]. intros x []%elem_of_nil.
Qed.
(** The state of the names: the gate of every named bit, and which are the same. *)
Definition cellg (cs : cells) (env : list N) (c : nat) (g : N) : Prop := exists a, cs_of cs !! a = Some c /\ env !! a = Some g.
Record named (n : nat) (l : nat) (h0 h : heap) (cs : cells) (env : list N) : Prop := {
  nm_len : length (cs_of cs) = length env;
  nm_iff : forall c g c' g', cellg cs env c g -> cellg cs env c' g' -> (c = c' <-> g = g');
  nm_lt : forall c g, cellg cs env c g -> (c < cs_next cs)%nat;
  nm_free : forall c g, cellg cs env c g -> c ∉ cs_used cs -> free h l g;
  nm_new : forall c g, cellg cs env c g -> (n <= c)%nat -> ~ has_gate h0 l g;
  nm_n : (n <= cs_next cs)%nat;
}.
Lemma named_step p n l h0 h i os sg fs cs env I e gs h' : ext l h0 h -> named n l h0 h cs env -> Forall (has_gate h l) env -> mwf sg (length env) e ->
  made p h l i os sg fs env I e gs h' -> named n l h0 h' (cstep sg cs e) (env ++ gs).
Proof.
  intros X Nm Hg W Ma. pose proof (mroots_length _ _ _ W) as Lr. pose proof (ma_len _ _ _ _ _ _ _ _ _ _ _ _ Ma) as Lg.
  assert (Lc : length (croots sg cs e) = length gs) by (unfold croots; rewrite imap_length; congruence).
  (* every name is an old one, or a new gate with its own cell *)
  assert (Split : forall c g, cellg (cstep sg cs e) (env ++ gs) c g -> cellg cs env c g \/
    exists k, c = (cs_next cs + k)%nat /\ gs !! k = Some g /\ mroots sg e !! k = Some None /\ (k < msize sg e)%nat).
  { intros c g (a & Ha & Hb). cbn [cstep cs_of] in Ha. apply lookup_app_Some in Hb as [Hb|[Kb Hb] ].
    - left. exists a. rewrite lookup_app_l in Ha by (rewrite (nm_len _ _ _ _ _ _ Nm); by eapply lookup_lt_Some). done.
    - rewrite lookup_app_r in Ha by (by rewrite (nm_len _ _ _ _ _ _ Nm)). rewrite (nm_len _ _ _ _ _ _ Nm) in Ha. set (k := (a - length env)%nat) in *.
      unfold croots in Ha. rewrite list_lookup_imap in Ha. destruct (ma_root _ _ _ _ _ _ _ _ _ _ _ _ Ma k g Hb) as (r & Hr & Hm). rewrite Hr in Ha. injection Ha as <-.
      destruct r as [j|].
      + left. exists j. split; [|done]. apply nth_lookup_lt. rewrite (nm_len _ _ _ _ _ _ Nm). by eapply lookup_lt_Some.
      + right. exists k. do 3 (split; [done|]). rewrite <- Lg. by eapply lookup_lt_Some. }
  assert (Old : forall c g, cellg cs env c g -> has_gate h l g).
  { intros c g (a & _ & Ha). rewrite Forall_forall in Hg. apply Hg. by eapply elem_of_list_lookup_2. }
  assert (New : forall k g, gs !! k = Some g -> mroots sg e !! k = Some None -> ~ has_gate h l g /\ free h' l g).
  { intros k g Hk Hr. destruct (ma_root _ _ _ _ _ _ _ _ _ _ _ _ Ma k g Hk) as (r & Hr' & Hm). rewrite Hr in Hr'. injection Hr' as <-. by destruct Hm as (? & _ & ?). }
  split.
  - cbn [cstep cs_of]. by rewrite !app_length, Lc, (nm_len _ _ _ _ _ _ Nm).
  - intros c g c' g' H1 H2. apply Split in H1 as [H1|(k1 & -> & K1 & R1 & _)]; apply Split in H2 as [H2|(k2 & -> & K2 & R2 & _)].
    + by apply (nm_iff _ _ _ _ _ _ Nm).
    + pose proof (nm_lt _ _ _ _ _ _ Nm _ _ H1). destruct (New _ _ K2 R2) as [Hn _]. split; [lia|]. intros ->. destruct Hn. by eapply Old.
    + pose proof (nm_lt _ _ _ _ _ _ Nm _ _ H2). destruct (New _ _ K1 R1) as [Hn _]. split; [lia|]. intros ->. destruct Hn. by eapply Old.
    + split; [intros ?; assert (k1 = k2) as -> by lia; congruence|]. intros ->. f_equal. by eapply (ma_nd _ _ _ _ _ _ _ _ _ _ _ _ Ma).
  - intros c g H. cbn [cstep cs_next]. apply Split in H as [H|(k & -> & _ & _ & Hk)]; [|lia]. pose proof (nm_lt _ _ _ _ _ _ Nm _ _ H). lia.
  - intros c g H Hu. cbn [cstep cs_used] in Hu. rewrite not_elem_of_app in Hu. destruct Hu as [Hu1 Hu2]. apply Split in H as [H|(k & -> & Hk & Hr & _)]; [|by eapply New].
    eapply (ma_free _ _ _ _ _ _ _ _ _ _ _ _ Ma); [by eapply Old|by eapply (nm_free _ _ _ _ _ _ Nm)|]. intros j Hj Hjg. apply Hu2. apply elem_of_list_fmap. exists j. split; [|done].
    eapply (nm_iff _ _ _ _ _ _ Nm); [exact H| |done]. exists j. split; [|done]. apply nth_lookup_lt. rewrite (nm_len _ _ _ _ _ _ Nm). by eapply lookup_lt_Some.
  - intros c g H Hc. apply Split in H as [H|(k & -> & Hk & Hr & _)]; [by eapply (nm_new _ _ _ _ _ _ Nm)|]. destruct (New _ _ Hk Hr) as [Hn _]. intros Hh. apply Hn.
    eapply has_gate_hle; [apply X|done].
  - cbn [cstep cs_next]. pose proof (nm_n _ _ _ _ _ _ Nm). lia.
Qed.
Lemma mval_length fs sg n ins e : length fs = length sg -> (forall j nn f x, sg !! j = Some nn -> fs !! j = Some f -> length x = nn.1 -> length (f x) = nn.2) ->
  length ins = n -> mwf sg n e -> length (mval fs ins e) = msize sg e.
Proof.
  intros Hl Hf Hn. induction e as [a k|bits|e1 IH1 e2 IH2|a k e IH|e IH|o e1 IH1 e2 IH2|j e IH]; cbn [mwf mval msize]; intros H.
  - rewrite take_length, drop_length. lia.
  - done.
  - destruct H. rewrite app_length, IH1, IH2; done.
  - destruct H. rewrite take_length, drop_length, IH by done. lia.
  - by rewrite map_length, IH.
  - destruct H as (H & H1 & H2). rewrite zip_with_length, IH1, IH2 by done. lia.
  - destruct H as (Hj & Hs & H). destruct (lookup_lt_is_Some_2 sg j Hj) as [nn Hnn]. destruct (lookup_lt_is_Some_2 fs j) as [f Hfj]; [by rewrite Hl|].
    rewrite (nth_lookup_Some _ _ _ _ Hfj). unfold sg_at in *. rewrite (nth_lookup_Some _ _ _ _ Hnn) in *. eapply Hf; [done|done|]. by rewrite IH.
Qed.
Lemma mlets_ok md p n l i os sg fs mids h0 lets : forall h env I cs, bs p h l i os -> mods_at p h l mids sg fs -> gfs h l env I -> mlwf sg (length env) lets ->
  ext l h0 h -> named n l h0 h cs env ->
  exists env' h', mlets md l mids env lets h = (Ok env', h') /\ bs p h' l i os /\ mods_at p h' l mids sg fs /\ ext l h h' /\
    gfs h' l env' (fun ρ => menv fs (I ρ) lets) /\ length env' = mlen sg (length env) lets /\ named n l h0 h' (clets sg cs lets) env'.
Proof.
  induction lets as [|e lets IH]; intros h env I cs B Mo V W X Nm; cbn [mlets menv mlen clets].
  - exists env, h. split; [done|]. split; [done|]. split; [done|]. split; [apply ext_refl|]. done.
  - destruct W as [W1 W2]. destruct (mbuild_ok md p l i os sg fs mids (length env) I (fun ρ => gfs_length _ _ _ _ ρ V) e h env B Mo eq_refl V W1) as (gs & h1 & E1 & Ma).
    pose proof (ma_ext _ _ _ _ _ _ _ _ _ _ _ _ Ma) as X1.
    destruct (IH h1 (env ++ gs) (fun ρ => I ρ ++ mval fs (I ρ) e) (cstep sg cs e)) as (env' & h2 & E2 & B2 & Mo2 & X2 & V2 & L2 & N2).
    + apply Ma.
    + by eapply mods_ext.
    + apply gfs_app; [by eapply gfs_ext|apply Ma].
    + by rewrite app_length, (ma_len _ _ _ _ _ _ _ _ _ _ _ _ Ma).
    + by eapply ext_trans.
    + eapply named_step; [exact X|exact Nm|apply V|exact W1|exact Ma].
    + exists env', h2. rewrite (st_bind_ok _ _ _ _ _ E1). split; [done|]. split; [done|]. split; [done|]. split; [by eapply ext_trans|].
      split; [done|]. split; [|done]. by rewrite L2, app_length, (ma_len _ _ _ _ _ _ _ _ _ _ _ _ Ma).
Qed.
Lemma circuit_of_ok md p h l mids sg fs n lets e : bs p h l 0 [] -> mods_at p h l mids sg fs -> body_wf sg n lets e ->
  exists h0 os h', circuit_of md l mids n lets e h = (Ok tt, h') /\ bs p h0 l (N.of_nat n) [] /\ ext l h h0 /\ ext l h0 h' /\ bs p h' l (N.of_nat n) os /\
    length os = msize sg e /\ gfs h' l os (fun ρ => bval fs (inb 0 n ρ) lets e) /\
    (NoDup (bouts sg n lets e) -> (forall c, c ∈ bouts sg n lets e -> (n <= c)%nat /\ c ∉ bused sg n lets e) -> fin_outs l h0 h' os) /\
    ((forall c, c ∈ bouts sg n lets e -> c ∉ bused sg n lets e) -> Forall (free h' l) os).
Proof.
  intros B Mo [W1 W2]. destruct (t_inputs p h l 0 [] n B) as (ins & h0 & E0 & Hl & B0 & M0 & F0). rewrite N.add_0_l in B0.
  assert (N0 : named n l h0 h0 (Cells (seq 0 n) [] n) ins).
  { split; cbn [cs_of cs_used cs_next].
    - by rewrite seq_length, Hl.
    - intros c g c' g' (a & Ha & Hb) (a' & Ha' & Hb'). cbn [cs_of] in *. apply seq_lookup in Ha as [-> _]. apply seq_lookup in Ha' as [-> _]. split; [intros ->; congruence|].
      intros ->. eapply NoDup_lookup; [apply M0|done|done].
    - intros c g (a & Ha & _). cbn [cs_of] in *. by apply seq_lookup in Ha as [-> ?].
    - intros c g (a & _ & Hb) _. apply (mv_new _ _ _ _ _ M0). by eapply elem_of_list_lookup_2.
    - intros c g (a & Ha & _) Hc. cbn [cs_of] in *. apply seq_lookup in Ha as [-> ?]. lia.
    - done. }
  destruct (mlets_ok md p n l _ [] sg fs mids h0 lets h0 ins (inb 0 n) (Cells (seq 0 n) [] n) B0 (mods_ext _ _ _ _ _ _ _ _ _ B (mv_ext _ _ _ _ _ M0) Mo) F0) as
    (env & h1 & E1 & B1 & Mo1 & X1 & V1 & L1 & N1); [by rewrite Hl|apply ext_refl|exact N0|]. rewrite Hl in L1.
  destruct (mbuild_ok md p l _ [] sg fs mids (length env) _ (fun ρ => gfs_length _ _ _ _ ρ V1) e h1 env B1 Mo1 eq_refl V1) as (os & h2 & E2 & Ma); [by rewrite L1|].
  destruct (t_outs p l _ os h2 [] (ma_bs _ _ _ _ _ _ _ _ _ _ _ _ Ma)) as (h3 & E3 & B3 & M3); [apply Ma|].
  exists h0, os, h3. unfold circuit_of. rewrite (st_bind_ok _ _ _ _ _ E0), (st_bind_ok _ _ _ _ _ E1), (st_bind_ok _ _ _ _ _ E2). split; [done|]. split; [done|].
  pose proof (ma_ext _ _ _ _ _ _ _ _ _ _ _ _ Ma) as X2. split; [apply M0|]. split; [eapply ext_trans; [exact X1|eapply ext_trans; [exact X2|apply M3] ]|].
  split; [done|]. split; [apply Ma|]. split; [eapply gfs_mv; [exact M3|apply Ma]|].
  assert (N2 : named n l h0 h2 (cstep sg (clets sg (Cells (seq 0 n) [] n) lets) e) (env ++ os)).
  { eapply named_step; [exact X1|exact N1|apply V1| |exact Ma]. by rewrite L1. }
  assert (Lo : length (bouts sg n lets e) = length os).
  { unfold bouts, croots. rewrite imap_length, (mroots_length sg (mlen sg n lets) e W2). symmetry. apply Ma. }
  assert (Out : forall k c g, bouts sg n lets e !! k = Some c -> os !! k = Some g -> cellg (cstep sg (clets sg (Cells (seq 0 n) [] n) lets) e) (env ++ os) c g).
  { intros k c g Hc Hg. exists (length env + k)%nat. cbn [cstep cs_of]. rewrite !lookup_app_r by (rewrite ?(nm_len _ _ _ _ _ _ N1); lia).
    rewrite (nm_len _ _ _ _ _ _ N1). replace (length env + k - length env)%nat with k by lia. done. }
  assert (Fr : forall k c g, bouts sg n lets e !! k = Some c -> os !! k = Some g -> c ∉ bused sg n lets e -> free h3 l g).
  { intros k c g Hc Hg Hu. eapply (mv_free _ _ _ _ _ M3); [eapply gfs_in; [apply Ma|by eapply elem_of_list_lookup_2]| |by intros []%elem_of_nil].
    eapply (nm_free _ _ _ _ _ _ N2); [by eapply Out|exact Hu]. }
  assert (Ex : forall k g, os !! k = Some g -> exists c, bouts sg n lets e !! k = Some c /\ c ∈ bouts sg n lets e).
  { intros k g Hg. destruct (lookup_lt_is_Some_2 (bouts sg n lets e) k) as [c Hc]; [rewrite Lo; by eapply lookup_lt_Some|]. exists c. split; [done|by eapply elem_of_list_lookup_2]. }
  split.
  - intros Hd Hc. split.
    + apply NoDup_alt. intros k1 k2 g H1 H2. destruct (Ex _ _ H1) as (c1 & C1 & _). destruct (Ex _ _ H2) as (c2 & C2 & _).
      assert (c1 = c2) as -> by (by eapply (nm_iff _ _ _ _ _ _ N2); [eapply Out|eapply Out|]). eapply NoDup_lookup; [exact Hd|done|done].
    + intros g Hgin. pose proof Hgin as [k Hg]%elem_of_list_lookup. destruct (Ex _ _ Hg) as (c & C1 & C2). destruct (Hc c C2) as [H1 H2].
      split; [by eapply (nm_new _ _ _ _ _ _ N2); [eapply Out|]|]. split; [eapply has_gate_hle; [apply M3|]; eapply gfs_in; [apply Ma|done]|]. by eapply Fr.
  - intros Hc. apply Forall_forall. intros g [k Hg]%elem_of_list_lookup. destruct (Ex _ _ Hg) as (c & C1 & C2). eapply Fr; [done|done|]. by apply Hc.
Qed.
(** A module finished by any means. *)
Lemma t_fin_raw h l mid s h1 h2 m n_in n_out F : sub_of h l mid s h1 -> ext s h1 h2 -> dinv h2 -> h_circ h2 !! s = Some m ->
  (forall l', calls h2 m l' -> l' <> l) -> input_len m = N.of_nat n_in -> output_len m = N.of_nat n_out ->
  (Z.of_N (input_len m) + Z.of_N (output_len m) <= num_wire m)%Z -> unconsumed h2 s ->
  (forall bits, length bits = n_in -> computes h2 s bits (F bits)) -> built h l h2 /\ mspec l h2 l mid n_in n_out F.
Proof.
  intros So X D2 Em Hcl Hi Ho Hw Hu Hc.
  assert (Hsl : l <> s). { intros ->. destruct (base_c _ _ (so_base _ _ _ _ _ So)) as [? ?]. pose proof (so_new _ _ _ _ _ So). congruence. }
  assert (O : forall l0 c, h_circ h !! l0 = Some c -> h_circ h2 !! l0 = Some c).
  { intros l0 c E. apply (ext_frame _ _ _ X); [|by apply (so_old _ _ _ _ _ So)]. intros ->. pose proof (so_new _ _ _ _ _ So). congruence. }
  pose proof (hle_trans _ _ _ (so_hle _ _ _ _ _ So) (ext_hle _ _ _ X)) as L. assert (D1 : dinv h1) by apply So. split.
  - split; [done|done|done| |eapply dreach_trans; [apply So|apply X]].
    intros U l1 c1 E C. destruct (decide (l1 = s)) as [-> |Hne].
    + rewrite Em in E. injection E as <-. by apply Hcl in C.
    + assert (E1 : h_circ h1 !! l1 = Some c1).
      { destruct (h_circ h1 !! l1) as [c'|] eqn:E1; [pose proof (ext_frame _ _ _ X _ _ Hne E1); congruence|].
        exfalso. apply lookup_ge_None_1 in E1. rewrite <- (ext_len _ _ _ X) in E1. apply lookup_lt_Some in E. lia. }
      eapply (so_unc _ _ _ _ _ So U); [exact E1|]. eapply calls_shrink; [apply D1|apply X|done|done].
  - destruct (so_reg _ _ _ _ _ So) as (c & x & E & S & Hm). pose proof (ext_frame _ _ _ X _ _ Hsl E) as E2.
    destruct (hle_stor _ _ (ext_hle _ _ _ X) _ _ S) as (x2 & S2 & Hx & _).
    exists c, x2, s, m. split; [done|]. split; [done|]. split; [by eapply lookup_weaken|]. by repeat (split; [done|]).
Qed.
Lemma sub_new h l mid s h1 : r_sub_circuit l h = (Ok (mid, s), h1) -> exists st, h_circ h1 !! s = Some (circuit_new st).
Proof.
  intros H. destruct (h_circ h !! l) as [c|] eqn:E; [|unfold r_sub_circuit, get_circ, st_bind in H; by rewrite E in H].
  destruct (h_stor h !! c_storage c) as [x|] eqn:S; [|unfold r_sub_circuit, get_circ, get_stor, st_bind in H; by rewrite E, S in H].
  rewrite (r_sub_ok h l c E x S) in H. injection H as _ <- <-. exists (c_storage c). cbn. rewrite lookup_app_r, Nat.sub_diag by lia. done.
Qed.
Lemma text_module_ok md h l mids text : base h l -> text_ok text ->
  exists mid h', module_of md l mids (DText text) h = (Ok mid, h') /\ built h l h' /\
    mspec l h' l mid (dsig [] (DText text)).1 (dsig [] (DText text)).2 (text_fun text).
Proof.
  intros Bs (p & P & R & Hu & Hpos & Hle). destruct (t_sub h l Bs) as (mid & s & h1 & E1 & B1 & So). destruct (sub_new _ _ _ _ _ E1) as [st Es].
  assert (T : target h1 s). { destruct B1 as [c B1]. destruct (bs_wk _ _ _ _ _ _ B1) as [D U _]. split; [done|]. split; [done|eauto]. }
  destruct (C19_accepts md h1 s text p _ T P R) as (h2 & H & Hi & Ho & m & Em & Hg & Hk).
  assert (Hw : Bristol.nsum (pr_out p) <= pr_wires p). { destruct R as [outs R]. by apply run_prog_exec in R as (_ & ? & _). }
  destruct (read_reach md h1 s text h2 T H) as [W X]; [by rewrite P|rewrite P; by intros ? [= <-]|].
  destruct (C18_read md h1 s _ h2 T H) as (p' & P' & _ & Hr). rewrite P in P'. injection P' as <-. destruct (Hr Hw) as (_ & _ & Hc).
  unfold inputs_of, outputs_of, on in Hi, Ho. rewrite Em in Hi, Ho. injection Hi as Hi. injection Ho as Ho.
  pose proof (hi_circ _ (di_inv _ (wk_d _ _ W)) _ _ Em) as Cw.
  assert (Nm : (forall g gt, gate_map m !! g = Some gt -> is_module gt = false) /\
    forall k o d gt, output_map m !! k = Some o -> gate_map m !! d = Some gt -> o ∉ operands gt).
  { pose proof (target_wk _ _ T) as W1. unfold read_fresh in H. destruct (read md s text (∅, h1)) as [r [gw h3]] eqn:Er. injection H as -> <-. cbn [snd] in *.
    destruct (read_free md h1 s st text p _ W1 Es P Hw (parse_wires _ _ P) Er) as (c' & E' & Hm & Hd).
    { intros w H1 H2 Hin. apply elem_of_list_In, in_flat_map in Hin as (gl & Hgl & Hin). apply elem_of_list_In in Hgl; apply elem_of_list_In in Hin.
      eapply Hu; eauto. by apply elem_of_output_wires. }
    cbn [snd] in E'. rewrite Em in E'. injection E' as <-. done. }
  destruct Nm as [Nm Nd].
  assert (Nc : forall l', ~ calls h2 m l'). { intros l' (g & il & ol & ids & oi & mi & x & G & _). by apply Nm in G. }
  exists mid, h2. split; [unfold module_of; rewrite (st_bind_ok _ _ _ _ _ E1); cbn [fst snd]; by rewrite (st_bind_ok _ _ _ _ _ H)|].
  unfold dsig. rewrite P. cbn [fst snd]. eapply t_fin_raw; [exact So|exact X|apply W|exact Em|by intros l' ?%Nc|by rewrite N2Nat.id|by rewrite N2Nat.id| | |].
  - rewrite (wf_wires _ Cw), Hi, Ho, Hk, Hg.
    assert (N.of_nat (length (pr_lines p)) <= Bristol.nsum (map (fun gl => match gl_kind gl with KEq | KEqw => 2 | _ => 1 end) (pr_lines p))); [|lia].
    clear. unfold Bristol.nsum. induction (pr_lines p) as [|gl gls IH]; [done|]. cbn [map fold_right length]. destruct (gl_kind gl); lia.
  - econstructor; [exact Em| |by intros l' ?%Nc]. intros k o Hko. destruct (deps m o) as [|d ds] eqn:Ed; [done|]. assert (Hx : d ∈ deps m o) by (rewrite Ed; by left).
    apply (deps_in m Cw) in Hx as (gt & G & Hin). by destruct (Nd _ _ _ _ Hko G).
  - intros bits Hb. destruct (Hc bits) as (outs & Ro & C); [by rewrite Hb, N2Nat.id|]. unfold text_fun. by rewrite P, Ro.
Qed.
Lemma body_module_ok md h l mids sg fs n lets e : base h l -> mods_at l h l mids sg fs -> dwf sg (DBody n lets e) ->
  exists mid h', module_of md l mids (DBody n lets e) h = (Ok mid, h') /\ built h l h' /\ mspec l h' l mid n (msize sg e) (fun ins => bval fs ins lets e).
Proof.
  intros Bs (Hm1 & Hm2 & Hm3) (W & Hd & Hr & Hpos). destruct (t_sub h l Bs) as (mid & s & h1 & E1 & B1 & So).
  assert (Mo : mods_at l h1 s mids sg fs).
  { split; [done|]. split; [done|]. intros j m nn f Ha Hb Hc. destruct (Hm3 j m nn f Ha Hb Hc) as [H ?]. split; [|done]. by apply (so_mspec _ _ _ _ _ So). }
  destruct (circuit_of_ok md l h1 s mids sg fs n lets e B1 Mo W) as (h0 & os & h2 & E2 & B0 & X1 & X2 & B2 & Hl & F & Fo & _).
  exists mid, h2. split; [unfold module_of; rewrite (st_bind_ok _ _ _ _ _ E1); cbn [fst snd]; by rewrite (st_bind_ok _ _ _ _ _ E2)|].
  eapply t_fin; [exact So|exact X1|exact B0|done|exact X2|exact B2|exact F|by apply Fo|done|].
  intros bits Hb. cbn beta. f_equal. rewrite inb_wires by (cbn; lia). cbn. rewrite drop_0. by apply take_ge; lia.
Qed.
Lemma modules_of_ok md l lib : forall h mids sg fs, base h l -> mods_at l h l mids sg fs -> lwf sg lib ->
  exists mids' h', modules_of md l mids lib h = (Ok mids', h') /\ built h l h' /\ mods_at l h' l mids' (sigs sg lib) (funs fs lib).
Proof.
  induction lib as [|d lib IH]; intros h mids sg fs Bs Mo Hw; cbn [modules_of sigs funs].
  - exists mids, h. split; [done|]. split; [apply built_refl, Bs|done].
  - destruct Hw as [Hd Hw].
    assert (exists mid h1, module_of md l mids d h = (Ok mid, h1) /\ built h l h1 /\
      mspec l h1 l mid (dsig sg d).1 (dsig sg d).2 (dfun fs d) /\ (0 < (dsig sg d).2)%nat) as (mid & h1 & E1 & T1 & S1 & P1).
    { destruct d as [text|n lets e].
      - destruct (text_module_ok md h l mids text Bs Hd) as (mid & h1 & E1 & T1 & S1). exists mid, h1. do 3 (split; [done|]).
        destruct Hd as (p & P & _ & _ & Hp & _). cbn [dsig]. rewrite P. cbn. lia.
      - destruct (body_module_ok md h l mids sg fs n lets e Bs Mo Hd) as (mid & h1 & E1 & T1 & S1). exists mid, h1. do 3 (split; [done|]). apply Hd. }
    destruct Mo as (Hm1 & Hm2 & Hm3).
    destruct (IH h1 (mids ++ [mid]) (sg ++ [dsig sg d]) (fs ++ [dfun fs d])) as (mids' & h2 & E2 & T2 & M2); [by eapply built_base| |done|].
    + split; [rewrite !app_length; cbn; lia|]. split; [rewrite !app_length; cbn; lia|]. intros j m nn f Ha Hb Hc.
      apply lookup_app_Some in Ha as [Ha|[Ka Ha] ].
      * pose proof (lookup_lt_Some _ _ _ Ha). rewrite lookup_app_l in Hb by lia. rewrite lookup_app_l in Hc by lia.
        destruct (Hm3 j m nn f Ha Hb Hc) as [H1 ?]. split; [|done]. eapply mspec_built; [apply Bs|exact T1|done].
      * rewrite lookup_app_r in Hb by lia. rewrite lookup_app_r in Hc by lia. rewrite <- Hm1 in Hb. rewrite Hm2, <- Hm1 in Hc.
        apply list_lookup_singleton_Some in Ha as [Hj <-]. rewrite Hj in Hb, Hc. injection Hb as <-. injection Hc as <-. done.
    + exists mids', h2. rewrite (st_bind_ok _ _ _ _ _ E1). split; [done|]. split; [by eapply built_trans|done].
Qed.
Lemma design_ok md h l lib n lets e : BuildEval.fresh h l -> lwf [] lib -> body_wf (sigs [] lib) n lets e ->
  exists os h', design md l lib n lets e h = (Ok tt, h') /\ bs l h' l (N.of_nat n) os /\ dreach h h' /\ length os = msize (sigs [] lib) e /\
    gfs h' l os (fun ρ => bval (funs [] lib) (inb 0 n ρ) lets e) /\
    ((forall c, c ∈ bouts (sigs [] lib) n lets e -> c ∉ bused (sigs [] lib) n lets e) -> Forall (free h' l) os).
Proof.
  intros Hf Hl Hw. destruct (modules_of_ok md l lib h [] [] [] (fresh_base _ _ Hf)) as (mids & h1 & E1 & T1 & M1); [|done|].
  { split; [done|]. split; [done|]. intros j m nn f Ha. by rewrite lookup_nil in Ha. }
  pose proof (bs_built _ _ _ _ _ T1 (fresh_bs _ _ Hf)) as B1.
  destruct (circuit_of_ok md l h1 l mids _ _ n lets e B1 M1 Hw) as (h0 & os & h2 & E2 & B0 & X1 & X2 & B2 & Ho & F & _ & Fr).
  exists os, h2. split; [unfold design; by rewrite (st_bind_ok _ _ _ _ _ E1)|]. split; [done|].
  split; [eapply dreach_trans; [apply T1|]; eapply dreach_trans; [apply X1|apply X2]|]. done.
Qed.

(** * C64 *)
(** Every well-formed design, of any depth, builds without an error in both build modes. If no input is both an output and read by something, the circuit
    evaluates to its meaning on all inputs; and whether or not that is so, what the writer makes of it gives the same outputs. *)
Theorem C64_designs md h l lib n lets e : BuildEval.fresh h l -> lwf [] lib -> body_wf (sigs [] lib) n lets e ->
  (forall c, c ∈ bouts (sigs [] lib) n lets e -> c ∉ bused (sigs [] lib) n lets e) ->
  exists h', design md l lib n lets e h = (Ok tt, h') /\ evaluates h' l n (msize (sigs [] lib) e) (fun ins => bval (funs [] lib) ins lets e).
Proof.
  intros Hf Hl Hw Hr. destruct (design_ok md h l lib n lets e Hf Hl Hw) as (os & h' & E & B & _ & Ho & F & Fr). exists h'. split; [done|].
  eapply bs_evaluates; [exact B|exact F|by apply Fr|done|]. intros bits Hb. cbn beta. f_equal. rewrite inb_wires by (cbn; lia). cbn. rewrite drop_0. by apply take_ge; lia.
Qed.
Theorem C64_exported md h l lib n lets e : BuildEval.fresh h l -> cinv h -> lwf [] lib -> body_wf (sigs [] lib) n lets e ->
  exists h', design md l lib n lets e h = (Ok tt, h') /\ inputs_of h' l = Ok (N.of_nat n) /\
    exports h' l (fun ins outs => length ins = n /\ outs = bval (funs [] lib) ins lets e).
Proof.
  intros Hf C Hl Hw. destruct (design_ok md h l lib n lets e Hf Hl Hw) as (os & h' & E & B & R & Ho & F & _). exists h'. split; [done|].
  destruct (dreach_inv _ _ (fr_d _ _ Hf) C R) as [D' C']. pose proof B as [c Bc]. split; [unfold inputs_of, on; by rewrite (bs_c _ _ _ _ _ _ Bc), (bs_i _ _ _ _ _ _ Bc)|].
  apply computes_exports; [done|done|]. intros ins outs c' Ec [Hi ->]. rewrite (bs_c _ _ _ _ _ _ Bc) in Ec. injection Ec as <-.
  split; [by rewrite (bs_i _ _ _ _ _ _ Bc), Hi|].
  pose proof (bs_computes l h' l _ os _ ins B F ltac:(by rewrite Hi)) as Cm. cbn beta in Cm. rewrite inb_wires in Cm by (cbn; lia). cbn in Cm. rewrite drop_0, take_ge in Cm by lia. done.
Qed.
(** Reading a text into a sub-circuit makes it a module of the circuit, without touching anything else. *)
Theorem C64_text_module md h l text : base h l -> text_ok text -> exists mid h' p, module_of md l [] (DText text) h = (Ok mid, h') /\ parse_prog text = Some p /\
  built h l h' /\ module_evaluates h' l mid (N.to_nat (Bristol.nsum (pr_in p))) (N.to_nat (Bristol.nsum (pr_out p))) (text_fun text) /\
  forall ins, length ins = N.to_nat (Bristol.nsum (pr_in p)) -> run_prog EqCopies p ins = Some (text_fun text ins).
Proof.
  intros Bs Ht. destruct (text_module_ok md h l [] text Bs Ht) as (mid & h' & E & T & S). destruct Ht as (p & P & R & Hu & Hp). exists mid, h', p.
  split; [done|]. split; [done|]. split; [done|]. cbn [dsig] in S. rewrite P in S. split; [eapply mspec_evaluates; [apply T|exact S]|].
  intros ins Hl. unfold text_fun. rewrite P. destruct (run_prog EqCopies p ins) eqn:Ro; [done|]. exfalso.
  destruct (C19_accepts md blank 0 text p _ (blank_target 0 ltac:(lia)) P R) as (h2 & H & _).
  destruct (C18_read md blank 0 _ h2 (blank_target 0 ltac:(lia)) H) as (p' & P' & _ & Hr). rewrite P in P'. injection P' as <-.
  destruct Hr as (_ & _ & Hc); [destruct R as [outs R]; by apply run_prog_exec in R as (_ & ? & _)|].
  destruct (Hc ins) as (outs & Ro' & _); [by rewrite Hl, N2Nat.id|]. congruence.
Qed.
(** The condition on texts, decided. *)
Definition text_okb (text : string) : bool :=
  match parse_prog text with
  | Some p => bool_decide (is_Some (run_prog EqCopies p (replicate (N.to_nat (Bristol.nsum (pr_in p))) false))) &&
      forallb (fun gl => forallb (fun w => negb (bool_decide (w ∈ output_wires p))) (gl_ins gl)) (pr_lines p) &&
      (0 <? Bristol.nsum (pr_out p)) && (Bristol.nsum (pr_out p) <=? N.of_nat (length (pr_lines p)))
  | None => false
  end.
Lemma text_okb_ok text : text_okb text = true -> text_ok text.
Proof.
  unfold text_okb, text_ok. destruct (parse_prog text) as [p|]; [|done]. rewrite !andb_true_iff, bool_decide_eq_true, N.ltb_lt, N.leb_le.
  intros (((H1 & H2) & H3) & H4). exists p. split; [done|]. split; [done|]. split; [|done]. intros gl w Hg Hw.
  rewrite forallb_forall in H2. apply elem_of_list_In in Hg. specialize (H2 _ Hg). rewrite forallb_forall in H2. apply elem_of_list_In in Hw. specialize (H2 _ Hw).
  by apply negb_true_iff, bool_decide_eq_false in H2.
Qed.
(** A full adder out of two half adders (read from their text) and a 2-bit adder out of both; its carry is named and used once, its sum bits are outputs. *)
Definition adder_lib : list mdef :=
  [DText half_adder;
   DBody 3 [MCall 0 (MIn 0 2); MCall 0 (MCat (MIn 3 1) (MIn 2 1))] (MCat (MIn 5 1) (MBin GoOr (MIn 4 1) (MIn 6 1)))].
Definition adder_lets : list mexp := [MCall 0 (MCat (MIn 0 1) (MIn 2 1)); MCall 1 (MCat (MIn 1 1) (MCat (MIn 3 1) (MIn 5 1)))].
Definition adder_out : mexp := MCat (MIn 4 1) (MIn 6 2).
Lemma adder_lib_ok : lwf [] adder_lib.
Proof.
  split; [apply text_okb_ok; vm_compute; reflexivity|]. assert (dsig [] (DText half_adder) = (2, 2)%nat) as -> by (vm_compute; reflexivity).
  split; [|done]. split; [|split; [|split] ].
  - vm_compute. repeat split; lia.
  - apply (bool_decide_unpack (NoDup _)). vm_compute. done.
  - apply Forall_forall. apply (bool_decide_unpack (Forall (fun c => (3 <= c)%nat /\ c ∉ bused [(2, 2)%nat] 3 _ _) _)). vm_compute. done.
  - cbn. lia.
Qed.
Example C64_example : BuildEval.fresh blank1 0 /\ lwf [] adder_lib /\ body_wf (sigs [] adder_lib) 4 adder_lets adder_out /\
  (forall c, c ∈ bouts (sigs [] adder_lib) 4 adder_lets adder_out -> c ∉ bused (sigs [] adder_lib) 4 adder_lets adder_out) /\
  bval (funs [] adder_lib) [true; true; true; false] adder_lets adder_out = [false; false; true] /\
  try_program (design Debug 0 adder_lib 4 adder_lets adder_out) 50 [true; true; true; false] = Some [false; false; true].
Proof.
  split; [apply fresh_blank1|]. split; [apply adder_lib_ok|]. assert (sigs [] adder_lib = [(2, 2); (3, 2)]%nat) as -> by (vm_compute; reflexivity).
  split; [vm_compute; repeat split; lia|]. split; [|split; vm_compute; reflexivity].
  apply Forall_forall. apply (bool_decide_unpack (Forall (fun c => c ∉ bused _ 4 _ _) _)). vm_compute. done.
Qed.
(** Without the condition the evaluator may fail: here the input is read by the first output and is the second. *)
Example C64_example_read : try_program (design Debug 0 [] 1 [] (MCat (MNot (MIn 0 1)) (MIn 0 1))) 50 [true] = None /\
  try_program (design Debug 0 [] 1 [] (MNot (MIn 0 1))) 50 [true] = Some [false].
Proof. split; vm_compute; reflexivity. Qed.
