(** Property C75: the borrows of the [RefCell]s, and the guards a caller may hold. *)
From Verif Require Export Cells Effects.
Open Scope Z_scope.
Open Scope list_scope.

(** * Specification *)
(** A guard of either kind on the cell; a guard of [borrow_mut]. *)
Definition held (fs : list Z) (l : nat) : Prop := exists f, fs !! l = Some f /\ f <> 0.
Definition held_mut (fs : list Z) (l : nat) : Prop := fs !! l = Some (-1).
(** The circuit a call changes, or changes the storage of. *)
Definition receiver (o : op) : option nat :=
  match o with
  | OpNewStorage | OpNewCircuit _ | OpClone _ | OpPut _ _ => None
  | OpInput l | OpOutput l _ | OpConst l _ | OpNot l _ | OpXor l _ _ | OpAnd l _ _ | OpOr l _ _ | OpEquivalent l _ _ | OpIdentity l _
  | OpRegister l _ | OpSub l | OpModule l _ _ => Some l
  end.
(** When a call runs into a guard. *)
Inductive conflict (s : cells) : op -> Prop :=
| cf_receiver o l : receiver o = Some l -> held (ce_c s) l -> conflict s o
| cf_copy l : held_mut (ce_c s) l -> conflict s (OpClone l)
| cf_register l l' c c' : h_circ (ce_heap s) !! l = Some c -> h_circ (ce_heap s) !! l' = Some c' -> held (ce_s s) (c_storage c) ->
    conflict s (OpRegister l l')
| cf_sub l c : h_circ (ce_heap s) !! l = Some c -> held (ce_s s) (c_storage c) -> conflict s (OpSub l)
| cf_lookup l c mid ids : h_circ (ce_heap s) !! l = Some c -> held_mut (ce_s s) (c_storage c) -> conflict s (OpModule l mid ids)
| cf_callee l c x mid ids l' : h_circ (ce_heap s) !! l = Some c -> h_stor (ce_heap s) !! c_storage c = Some x -> module_map x !! mid = Some l' ->
    l' = l \/ held_mut (ce_c s) l' -> conflict s (OpModule l mid ids)
| cf_put x l' c' : h_circ (ce_heap s) !! l' = Some c' -> held (ce_s s) x -> conflict s (OpPut x l').
(** One flag per cell, none below -1. *)
Record fit (s : cells) : Prop := {
  fit_c : length (ce_c s) = length (h_circ (ce_heap s));
  fit_s : length (ce_s s) = length (h_stor (ce_heap s));
  fit_cf : Forall (fun f => -1 <= f) (ce_c s);
  fit_sf : Forall (fun f => -1 <= f) (ce_s s);
}.
(** No guard is held. *)
Definition unheld (s : cells) : Prop := Forall (fun f => f = 0) (ce_c s) /\ Forall (fun f => f = 0) (ce_s s).
(** New contents; the flags stay as they are and new cells are not borrowed. *)
Definition grow (s : cells) (h : heap) : cells :=
  Cells h (ce_c s ++ replicate (length (h_circ h) - length (h_circ (ce_heap s))) 0)
          (ce_s s ++ replicate (length (h_stor h) - length (h_stor (ce_heap s))) 0).

(** * Calls *)
(** The conflicts that remain when the receiver is already borrowed mutably. *)
Inductive inner_conflict (s : cells) : op -> Prop :=
| ic_register l l' c c' : h_circ (ce_heap s) !! l = Some c -> h_circ (ce_heap s) !! l' = Some c' -> held (ce_s s) (c_storage c) ->
    inner_conflict s (OpRegister l l')
| ic_sub l c : h_circ (ce_heap s) !! l = Some c -> held (ce_s s) (c_storage c) -> inner_conflict s (OpSub l)
| ic_lookup l c mid ids : h_circ (ce_heap s) !! l = Some c -> held_mut (ce_s s) (c_storage c) -> inner_conflict s (OpModule l mid ids)
| ic_callee l c x mid ids l' : h_circ (ce_heap s) !! l = Some c -> h_stor (ce_heap s) !! c_storage c = Some x -> module_map x !! mid = Some l' ->
    held_mut (ce_c s) l' -> inner_conflict s (OpModule l mid ids).

Lemma fit_flag_c s l c : fit s -> h_circ (ce_heap s) !! l = Some c -> exists f, ce_c s !! l = Some f /\ -1 <= f.
Proof.
  intros F E. apply lookup_lt_Some in E. rewrite <- (fit_c _ F) in E. destruct (lookup_lt_is_Some_2 _ _ E) as [f Ef].
  exists f. split; [done|]. exact (Forall_lookup_1 _ _ _ _ (fit_cf _ F) Ef).
Qed.
Lemma fit_flag_s s l x : fit s -> h_stor (ce_heap s) !! l = Some x -> exists f, ce_s s !! l = Some f /\ -1 <= f.
Proof.
  intros F E. apply lookup_lt_Some in E. rewrite <- (fit_s _ F) in E. destruct (lookup_lt_is_Some_2 _ _ E) as [f Ef].
  exists f. split; [done|]. exact (Forall_lookup_1 _ _ _ _ (fit_sf _ F) Ef).
Qed.
Lemma fit_none_c s l : fit s -> h_circ (ce_heap s) !! l = None -> ce_c s !! l = None.
Proof. rewrite !lookup_ge_None. intros F. by rewrite (fit_c _ F). Qed.
Lemma fit_none_s s l : fit s -> h_stor (ce_heap s) !! l = None -> ce_s s !! l = None.
Proof. rewrite !lookup_ge_None. intros F. by rewrite (fit_s _ F). Qed.
Lemma set_set_c s l f g : ce_c s !! l = Some f -> set_c (set_c s l g) l f = s.
Proof. destruct s as [h cs ss]. unfold set_c. cbn. intros E. by rewrite list_insert_insert, list_insert_id. Qed.
Lemma set_set_s s l f g : ce_s s !! l = Some f -> set_s (set_s s l g) l f = s.
Proof. destruct s as [h cs ss]. unfold set_s. cbn. intros E. by rewrite list_insert_insert, list_insert_id. Qed.
Lemma grow_same s h : length (h_circ h) = length (h_circ (ce_heap s)) -> length (h_stor h) = length (h_stor (ce_heap s)) ->
  grow s h = Cells h (ce_c s) (ce_s s).
Proof. intros E1 E2. unfold grow. rewrite E1, E2, !Nat.sub_diag. cbn. by rewrite !app_nil_r. Qed.
Lemma grow_refl s : grow s (ce_heap s) = s.
Proof. rewrite grow_same by done. by destruct s. Qed.

(** A method that only works on the contents of the receiver. *)
Definition keeps {A} (m : M A) : Prop := forall h r h', m h = (r, h') -> length (h_circ h') = length (h_circ h) /\ length (h_stor h') = length (h_stor h).
Lemma keeps_on_circ {A} l (f : circuit -> A * circuit) : keeps (on_circ l f).
Proof.
  intros h r h'. unfold on_circ, st_bind, get_circ. destruct (h_circ h !! l); [|by intros [= <- <-]]. destruct (f c). unfold put_circ, st_ret.
  intros [= <- <-]. cbn. by rewrite insert_length.
Qed.
Lemma keeps_lift {A B} (m : M A) (k : A -> M B) : keeps m -> (forall a, keeps (k a)) -> keeps (st_bind m k).
Proof.
  intros Hm Hk h r h'. unfold st_bind. destruct (m h) as [[a|e|p|] h1] eqn:E; try (intros [= <- <-]; by eapply Hm).
  intros E2. destruct (Hm _ _ _ E), (Hk _ _ _ _ E2). split; congruence.
Qed.
Lemma on_heap_grow {A} (f : A -> ret) (m : M A) s : keeps m ->
  b_as_ret f (on_heap m) s = let (r, h) := as_ret f m (ce_heap s) in (r, grow s h).
Proof.
  intros K. unfold b_as_ret, as_ret, on_heap, st_bind. destruct (m (ce_heap s)) as [r h] eqn:E. destruct (K _ _ _ E).
  destruct r; cbn; unfold st_ret; by rewrite grow_same.
Qed.

Lemma with_c_free {A} l (m : BM A) s : ce_c s !! l = Some 0 -> with_c true l m s = let (r, s2) := m (set_c s l (-1)) in (r, drop_c s2 l 1).
Proof. unfold with_c, hold_c. intros ->. reflexivity. Qed.
Lemma with_c_held {A} l (m : BM A) s : held (ce_c s) l -> with_c true l m s = (Panic PBorrow, s).
Proof. unfold with_c, hold_c. intros (f & -> & Hf). destruct (Z.eqb_spec f 0); done. Qed.
Lemma with_s_free {A} l (m : BM A) s : ce_s s !! l = Some 0 -> with_s true l m s = let (r, s2) := m (set_s s l (-1)) in (r, drop_s s2 l 1).
Proof. unfold with_s, hold_s. intros ->. reflexivity. Qed.
Lemma with_s_held {A} l (m : BM A) s : held (ce_s s) l -> with_s true l m s = (Panic PBorrow, s).
Proof. unfold with_s, hold_s. intros (f & -> & Hf). destruct (Z.eqb_spec f 0); done. Qed.
(** Borrowing for reading. *)
Lemma with_read_c {A} l (m : M A) s f : ce_c s !! l = Some f -> (forall h, snd (m h) = h) ->
  with_c false l (on_heap m) s = if f <? 0 then (Panic PBorrow, s) else (fst (m (ce_heap s)), s).
Proof.
  intros E Hm. unfold with_c, hold_c. rewrite E. destruct (f <? 0); [done|]. unfold on_heap. specialize (Hm (ce_heap s)).
  cbn [set_c ce_heap]. destruct (m (ce_heap s)) as [r h]. cbn in Hm |- *. subst h. f_equal. unfold drop_c. cbn.
  rewrite list_lookup_insert by (by eapply lookup_lt_Some). replace (f + 1 + -1) with f by lia. by apply set_set_c.
Qed.
Lemma with_read_s {A} l (m : M A) s f : ce_s s !! l = Some f -> (forall h, snd (m h) = h) ->
  with_s false l (on_heap m) s = if f <? 0 then (Panic PBorrow, s) else (fst (m (ce_heap s)), s).
Proof.
  intros E Hm. unfold with_s, hold_s. rewrite E. destruct (f <? 0); [done|]. unfold on_heap. specialize (Hm (ce_heap s)).
  cbn [set_s ce_heap]. destruct (m (ce_heap s)) as [r h]. cbn in Hm |- *. subst h. f_equal. unfold drop_s. cbn.
  rewrite list_lookup_insert by (by eapply lookup_lt_Some). replace (f + 1 + -1) with f by lia. by apply set_set_s.
Qed.
Lemma ask_ok {A} l (q : circuit -> A) s c f : h_circ (ce_heap s) !! l = Some c -> ce_c s !! l = Some f ->
  b_ask l q s = if f <? 0 then (Panic PBorrow, s) else (Ok (q c), s).
Proof.
  intros E Ef. unfold b_ask. rewrite (with_read_c l _ s f Ef).
  - destruct (f <? 0); [done|]. unfold st_bind, get_circ, st_ret. by rewrite E.
  - intros h. unfold st_bind, get_circ, st_ret. by destruct (h_circ h !! l).
Qed.
Lemma ask_none {A} l (q : circuit -> A) s : ce_c s !! l = None -> b_ask l q s = (Panic PDangling, s).
Proof. unfold b_ask, with_c, hold_c. by intros ->. Qed.
Lemma lookup_ok s l mid x f : h_stor (ce_heap s) !! l = Some x -> ce_s s !! l = Some f ->
  b_lookup l mid s = if f <? 0 then (Panic PBorrow, s) else (match module_map x !! mid with Some l' => Ok l' | None => Err (EUnknownModule mid) end, s).
Proof.
  intros E Ef. unfold b_lookup. rewrite (with_read_s l _ s f Ef).
  - destruct (f <? 0); [done|]. unfold st_bind, get_stor, st_ret, st_err. rewrite E. by destruct (module_map x !! mid).
  - intros h. unfold st_bind, get_stor, st_ret, st_err. destruct (h_stor h !! l); [|done]. by destruct (module_map s0 !! mid).
Qed.
Lemma lookup_none s l mid : ce_s s !! l = None -> b_lookup l mid s = (Panic PDangling, s).
Proof. unfold b_lookup, with_s, hold_s. by intros ->. Qed.
Lemma drop_back_s s l f h cs : ce_s s !! l = Some f -> drop_s (Cells h cs (<[l := f - 1]> (ce_s s))) l 1 = Cells h cs (ce_s s).
Proof.
  intros E. unfold drop_s. cbn. rewrite list_lookup_insert by (by eapply lookup_lt_Some). unfold set_s. cbn.
  rewrite list_insert_insert. replace (f - 1 + 1) with f by lia. by rewrite list_insert_id.
Qed.

Lemma register_body s l' x : fit s -> h_stor (ce_heap s) !! x <> None -> ce_s s !! x = Some 0 ->
  b_register x l' s = let (r, h) := s_register x l' (ce_heap s) in (r, grow s h).
Proof.
  intros F Hx E. unfold b_register. rewrite with_s_free by done. unfold on_heap, s_register, st_bind, get_stor. cbn [set_s ce_heap].
  destruct (h_stor (ce_heap s) !! x) as [y|]; [|done]. unfold put_stor, st_ret. cbn [ce_c ce_s]. rewrite (drop_back_s s x 0) by done.
  by rewrite grow_same by (cbn; by rewrite ?insert_length).
Qed.

Lemma run_module md l mid ids h c : h_circ h !! l = Some c -> run_op md (OpModule l mid ids) h =
  match h_stor h !! c_storage c with
  | None => (Panic PDangling, h)
  | Some x => match module_map x !! mid with
    | None => (Err (EUnknownModule mid), h)
    | Some l' => if decide (l' = l) then (Panic PBorrow, h) else
      match h_circ h !! l' with
      | None => (Panic PDangling, h)
      | Some m => match c_module md c m mid ids with
        | None => (Panic PArith, h)
        | Some (outs, c') => (Ok (RGates outs), Heap (<[l := c']> (h_circ h)) (h_stor h))
        end
      end
    end
  end.
Proof.
  intros E. cbn [run_op]. unfold as_ret, r_module, r_get_module, st_bind, get_circ, get_stor. rewrite E.
  destruct (h_stor h !! c_storage c) as [x|]; [|done]. destruct (module_map x !! mid) as [l'|]; [|done]. cbn. destruct (decide (l' = l)); [done|].
  destruct (h_circ h !! l') as [m|]; [|done]. rewrite E. by destruct (c_module md c m mid ids) as [[outs c']|].
Qed.

(** A method called on a receiver that is borrowed mutably: it either runs into a guard and nothing happens, or does what Circuit.v says. *)
Lemma inner_spec md o l m s : fit s -> b_inner md o = Some (l, m) -> held_mut (ce_c s) l ->
  (inner_conflict s o -> m s = (Panic PBorrow, s))
  /\ (~ inner_conflict s o -> m s = let (r, h) := run_op md o (ce_heap s) in (r, grow s h)).
Proof.
  intros F Hm Hl. 
  assert (exists c, h_circ (ce_heap s) !! l = Some c) as [c Ec].
  { apply lookup_lt_is_Some. rewrite <- (fit_c _ F). by eapply lookup_lt_Some. }
  destruct o; cbn [b_inner] in Hm; try done; injection Hm as <- <-;
    try (split; [intros X; inversion X|]; intros _; cbn [run_op]; apply on_heap_grow;
         unfold r_input, r_output, r_constant, r_not, r_xor, r_and, r_or, r_equivalent, r_identity;
         first [apply keeps_on_circ | apply keeps_lift; [apply keeps_on_circ|]; intros r h r' h' [= <- <-]; done]).
  - (* register *) split.
    + intros X. inversion X as [? ? c1 c1' E1 E1' Hh | | |]; subst. rewrite Ec in E1. injection E1 as <-.
      unfold b_as_ret, on_heap, st_bind, get_circ. rewrite Ec. cbn. rewrite E1'. destruct s as [h0 cs ss]; cbn in *.
      unfold b_register. by rewrite (with_s_held (c_storage c)).
    + intros X. cbn [run_op]. unfold as_ret, r_register, b_as_ret, on_heap, st_bind, get_circ. rewrite Ec. cbn.
      destruct (h_circ (ce_heap s) !! l') as [c'|] eqn:E'; [|by rewrite grow_refl; destruct s].
      replace (Cells (ce_heap s) (ce_c s) (ce_s s)) with s by (by destruct s).
      destruct (h_stor (ce_heap s) !! c_storage c) as [x|] eqn:Ex.
      * destruct (fit_flag_s s _ _ F Ex) as (f & Ef & _). destruct (decide (f = 0)) as [->|Hf].
        -- rewrite register_body by (try done; by rewrite Ex). destruct (s_register _ _ _) as [[]?]; done.
        -- destruct X. eapply ic_register; [exact Ec|exact E'|]. by exists f.
      * unfold b_register, with_s, hold_s. rewrite (fit_none_s s _ F Ex). unfold s_register, st_bind, get_stor. rewrite Ex. by rewrite grow_refl.
  - (* sub *) split.
    + intros X. inversion X as [ | ? c1 E1 Hh | |]; subst. rewrite Ec in E1. injection E1 as <-.
      unfold b_as_ret, on_heap, st_bind, get_circ. rewrite Ec. destruct s as [h0 cs ss]; cbn in *.
      unfold b_sub. by rewrite (with_s_held (c_storage c)).
    + intros X. cbn [run_op]. unfold as_ret, r_sub_circuit, b_as_ret. unfold st_bind at 1. unfold st_bind at 1. unfold on_heap at 1, get_circ at 1.
      rewrite Ec. replace (Cells (ce_heap s) (ce_c s) (ce_s s)) with s by (by destruct s).
      destruct (h_stor (ce_heap s) !! c_storage c) as [x|] eqn:Ex.
      * destruct (fit_flag_s s _ _ F Ex) as (f & Ef & _). destruct (decide (f = 0)) as [->|Hf].
        -- unfold b_sub. rewrite with_s_free by done. unfold st_bind, get_circ. rewrite Ec. unfold get_stor at 1. rewrite Ex.
           unfold new_c, alloc_circ, on_heap, s_register, st_bind, get_stor, st_ret. cbn [set_s ce_heap ce_c ce_s h_circ h_stor]. rewrite Ex.
           unfold put_stor. cbn [h_circ h_stor fst snd]. rewrite (drop_back_s s (c_storage c) 0) by done.
           unfold grow. cbn [h_circ h_stor]. rewrite app_length, insert_length, Nat.sub_diag. cbn [length].
           replace (length (h_circ (ce_heap s)) + 1 - length (h_circ (ce_heap s)))%nat with 1%nat by lia. cbn. by rewrite app_nil_r.
        -- destruct X. eapply ic_sub; [exact Ec|]. by exists f.
      * unfold b_sub, with_s, hold_s. rewrite (fit_none_s s _ F Ex). unfold st_bind, get_circ. rewrite Ec. unfold get_stor. rewrite Ex. by rewrite grow_refl.
  - (* module *)
    assert (on_heap (get_circ l0) s = (Ok c, s)) as G0 by (unfold on_heap, get_circ; rewrite Ec; by destruct s).
    unfold b_as_ret, b_module. split.
    + intros X. unfold st_bind at 1 2. rewrite G0. inversion X as [ | | ? c1 ? ? E1 Hh | ? c1 x ? ? l' E1 Ex Em Hh]; subst; rewrite Ec in E1; injection E1 as <-.
      * assert (exists x, h_stor (ce_heap s) !! c_storage c = Some x) as [x Ex].
        { apply lookup_lt_is_Some. rewrite <- (fit_s _ F). by eapply lookup_lt_Some. }
        unfold st_bind. by rewrite (lookup_ok s _ mid x (-1) Ex Hh).
      * destruct (fit_flag_s s _ _ F Ex) as (f & Ef & _). unfold st_bind at 1. rewrite (lookup_ok s _ mid x f Ex Ef). destruct (f <? 0); [done|].
        rewrite Em. assert (exists c', h_circ (ce_heap s) !! l' = Some c') as [c' Ec'].
        { apply lookup_lt_is_Some. rewrite <- (fit_c _ F). by eapply lookup_lt_Some. }
        unfold st_bind at 1. by rewrite (ask_ok l' _ s c' (-1) Ec' Hh).
    + intros X. unfold st_bind at 1 2. rewrite G0. rewrite (run_module md l0 mid ids (ce_heap s) c Ec).
      destruct (h_stor (ce_heap s) !! c_storage c) as [x|] eqn:Ex.
      2:{ unfold st_bind at 1. rewrite (lookup_none s _ mid (fit_none_s s _ F Ex)). by rewrite grow_refl. }
      destruct (fit_flag_s s _ _ F Ex) as (f & Ef & Hf). unfold st_bind at 1. rewrite (lookup_ok s _ mid x f Ex Ef).
      destruct (Z.ltb_spec f 0) as [Hf'|_]. { destruct X. eapply ic_lookup; [exact Ec|]. unfold held_mut. rewrite Ef. f_equal. lia. }
      destruct (module_map x !! mid) as [l'|] eqn:Em; [|unfold st_err; by rewrite grow_refl].
      destruct (decide (l' = l0)) as [->|Hne]. { destruct X. by eapply ic_callee. }
      destruct (h_circ (ce_heap s) !! l') as [c'|] eqn:Ec'.
      2:{ unfold st_bind at 1. rewrite (ask_none l' _ s (fit_none_c s _ F Ec')). by rewrite grow_refl. }
      destruct (fit_flag_c s _ _ F Ec') as (g & Eg & Hg).
      destruct (Z.ltb_spec g 0) as [Hg'|Hg'].
      { destruct X. eapply ic_callee; [exact Ec|exact Ex|exact Em|]. unfold held_mut. rewrite Eg. f_equal. lia. }
      assert (forall A (q : circuit -> A), b_ask l' q s = (Ok (q c'), s)) as Ask.
      { intros A q. rewrite (ask_ok l' q s c' g Ec' Eg). destruct (Z.ltb_spec g 0); [lia|done]. }
      unfold st_bind, on_heap. rewrite !Ask. unfold b_module_body, st_bind, get_circ. rewrite Ec.
      replace (c_module md c (Circuit _ _ _ _ _ _ _ _ _ _ _ _) mid ids) with (c_module md c c' mid ids) by done.
      destruct (c_module md c c' mid ids) as [[outs c2]|]; unfold put_circ, st_ret, st_panic; rewrite grow_same; cbn; rewrite ?insert_length; done.
Qed.

Lemma b_op_inner md o l : receiver o = Some l -> exists m, b_inner md o = Some (l, m) /\ b_op md o = with_c true l m.
Proof. destruct o; cbn; intros [= <-]; eexists; split; reflexivity. Qed.
Lemma receiver_inner md o l m : b_inner md o = Some (l, m) -> receiver o = Some l.
Proof. by destruct o; cbn; try done; intros [= <- <-]. Qed.
Lemma run_dangling md o l h : receiver o = Some l -> h_circ h !! l = None -> run_op md o h = (Panic PDangling, h).
Proof.
  intros R E. destruct o; cbn in R; try done; injection R as <-; cbn [run_op]; 
    unfold as_ret, r_input, r_output, r_constant, r_not, r_xor, r_and, r_or, r_equivalent, r_identity, r_register, r_sub_circuit, r_module, r_get_module, on_circ,
      st_bind, get_circ; by rewrite E.
Qed.
Lemma fit_set_c s l f : fit s -> -1 <= f -> fit (set_c s l f).
Proof. intros [? ? ? ?] ?. split; cbn; [by rewrite insert_length|done|by apply Forall_insert|done]. Qed.
Lemma fit_set_s s l f : fit s -> -1 <= f -> fit (set_s s l f).
Proof. intros [? ? ? ?] ?. split; cbn; [done|by rewrite insert_length|done|by apply Forall_insert]. Qed.
Lemma conflict_inner s o l : ce_c s !! l = Some 0 -> receiver o = Some l -> conflict s o <-> inner_conflict (set_c s l (-1)) o.
Proof.
  intros E R. split; intros X.
  - destruct X as [o l1 R1 (f & Ef & Hf) | l1 Hl | | | | l1 c x mid ids l' E1 Ex Em Hl |]; cbn in *; simplify_eq; try by econstructor.
    eapply ic_callee; [exact E1|exact Ex|exact Em|]. unfold held_mut. cbn. destruct Hl as [->|Hl].
    + apply list_lookup_insert. by eapply lookup_lt_Some.
    + destruct (decide (l' = l)) as [->|]; [apply list_lookup_insert; by eapply lookup_lt_Some|]. by rewrite list_lookup_insert_ne.
  - destruct X as [| | | l1 c x mid ids l' E1 Ex Em Hl]; cbn in *; simplify_eq; try by econstructor.
    eapply cf_callee; [exact E1|exact Ex|exact Em|]. destruct (decide (l' = l)) as [->|Hne]; [by left|right].
    unfold held_mut in Hl. cbn in Hl. by rewrite list_lookup_insert_ne in Hl.
Qed.
Lemma grow_set_c s l f h : (l < length (ce_c s))%nat -> grow (set_c s l f) h = set_c (grow s h) l f.
Proof. intros Hl. unfold grow, set_c. cbn. by rewrite insert_app_l. Qed.

(** Whatever guards are held: a call that meets one panics and changes nothing, not even a flag; any other call does what [run_op] says and leaves
    the flags as they were. *)
Theorem C75_calls md o s : fit s ->
  (conflict s o -> b_op md o s = (Panic PBorrow, s))
  /\ (~ conflict s o -> b_op md o s = let (r, h) := run_op md o (ce_heap s) in (r, grow s h)).
Proof.
  intros F. destruct (receiver o) as [l|] eqn:R.
  - destruct (b_op_inner md o l R) as (m & Hm & ->). destruct (ce_c s !! l) as [f|] eqn:E.
    + destruct (decide (f = 0)) as [->|Hf].
      * assert ((l < length (ce_c s))%nat) as Hlt by (by eapply lookup_lt_Some).
        assert (fit (set_c s l (-1))) as F1 by (by apply fit_set_c).
        assert (held_mut (ce_c (set_c s l (-1))) l) as H1 by (unfold held_mut; cbn; by apply list_lookup_insert).
        destruct (inner_spec md o l m _ F1 Hm H1) as [A B]. pose proof (conflict_inner s o l E R) as C.
        rewrite with_c_free by done. split; intros X.
        -- rewrite A by tauto. f_equal. unfold drop_c. rewrite H1. by apply set_set_c.
        -- rewrite B by tauto. cbn [set_c ce_heap]. destruct (run_op md o (ce_heap s)) as [r h]. f_equal.
           change (Cells (ce_heap s) (<[l:=-1]> (ce_c s)) (ce_s s)) with (set_c s l (-1)). rewrite grow_set_c by done. unfold drop_c.
           assert (ce_c (grow s h) !! l = Some 0) as E2 by (unfold grow; cbn; by rewrite lookup_app_l).
           assert (ce_c (set_c (grow s h) l (-1)) !! l = Some (-1)) as -> by (cbn; apply list_lookup_insert; by eapply lookup_lt_Some).
           by apply set_set_c.
      * assert (held (ce_c s) l) as Hh by (by exists f). rewrite with_c_held by done. split; [done|]. intros X. destruct X. by eapply cf_receiver.
    + assert (h_circ (ce_heap s) !! l = None) as E1 by (apply lookup_ge_None; rewrite <- (fit_c _ F); by apply lookup_ge_None).
      split.
      * intros X. exfalso. destruct X as [o l1 R1 (f & Ef & Hf) | | | | | |]; cbn in *; simplify_eq.
      * intros _. rewrite (run_dangling md o l _ R E1). unfold with_c, hold_c. rewrite E. by rewrite grow_refl.
  - destruct o as [|x|l| | | | | | | | | | | | |x l']; try done.
    + split; [intros X; inversion X; done|]. intros _. cbn. f_equal. unfold grow. cbn. rewrite app_length, Nat.sub_diag, app_nil_r.
      replace (length (h_stor (ce_heap s)) + length [storage_new] - length (h_stor (ce_heap s)))%nat with 1%nat by (cbn; lia). done.
    + split; [intros X; inversion X; done|]. intros _. cbn [b_op run_op]. unfold b_as_ret, as_ret, on_heap, st_bind, get_stor.
      destruct (h_stor (ce_heap s) !! x) eqn:E; [|cbn; rewrite grow_refl; by destruct s]. cbn. f_equal. unfold grow. cbn.
      rewrite app_length, Nat.sub_diag, app_nil_r. replace (length (h_circ (ce_heap s)) + length [circuit_new x] - length (h_circ (ce_heap s)))%nat with 1%nat by (cbn; lia). done.
    + cbn [b_op run_op]. unfold b_as_ret. destruct (h_circ (ce_heap s) !! l) as [c|] eqn:E.
      * destruct (fit_flag_c s _ _ F E) as (f & Ef & Hf).
        assert (with_c false l (on_heap (get_circ l)) s = if f <? 0 then (Panic PBorrow, s) else (Ok c, s)) as W.
        { rewrite (with_read_c l (get_circ l) s f Ef); [|intros h; unfold get_circ; by destruct (h_circ h !! l)]. unfold get_circ. by rewrite E. }
        split; intros X.
        -- assert (f = -1) as -> by (inversion X as [? ? R1|? H1| | | | |]; subst; [done|]; unfold held_mut in H1; congruence).
           unfold st_bind at 1 2. by rewrite W.
        -- unfold st_bind at 1 2. rewrite W. destruct (Z.ltb_spec f 0). { destruct X. apply cf_copy. unfold held_mut. rewrite Ef. f_equal. lia. }
           unfold as_ret, st_bind, get_circ. rewrite E. cbn. f_equal. unfold grow. cbn.
           rewrite app_length, Nat.sub_diag, app_nil_r. replace (length (h_circ (ce_heap s)) + length [c] - length (h_circ (ce_heap s)))%nat with 1%nat by (cbn; lia). done.
      * pose proof (fit_none_c s l F E) as Ef. split; intros X.
        -- exfalso. inversion X as [? ? R1|? H1| | | | |]; subst; [done|]. unfold held_mut in H1. congruence.
        -- unfold st_bind at 1 2, with_c, hold_c. rewrite Ef. unfold as_ret, st_bind, get_circ. rewrite E. by rewrite grow_refl.
    + cbn [b_op run_op]. unfold as_ret, b_as_ret, on_heap, st_bind, get_circ. destruct (h_circ (ce_heap s) !! l') as [c'|] eqn:E'.
      2:{ split; [intros X; inversion X; subst; [done|congruence]|]. intros _. rewrite grow_refl. by destruct s. }
      replace (Cells (ce_heap s) (ce_c s) (ce_s s)) with s by (by destruct s). split.
      * intros X. inversion X as [? ? R1| | | | | |? ? ? ? Hh]; subst; [done|]. unfold b_register. by rewrite (with_s_held x).
      * intros X. destruct (h_stor (ce_heap s) !! x) as [y|] eqn:Ex.
        -- destruct (fit_flag_s s _ _ F Ex) as (f & Ef & _). destruct (decide (f = 0)) as [->|Hf].
           ++ rewrite register_body by (try done; by rewrite Ex). destruct (s_register _ _ _) as [[]?]; done.
           ++ destruct X. eapply cf_put; [exact E'|]. by exists f.
        -- unfold b_register, with_s, hold_s. rewrite (fit_none_s s _ F Ex). unfold s_register, st_bind, get_stor. rewrite Ex. by rewrite grow_refl.
Qed.

Lemma inner_conflict_dec s o : inner_conflict s o \/ ~ inner_conflict s o.
Proof.
  destruct o; try (right; intros X; inversion X; fail).
  - destruct (h_circ (ce_heap s) !! l) as [c|] eqn:E; [|right; intros X; inversion X; congruence].
    destruct (h_circ (ce_heap s) !! l') as [c'|] eqn:E'; [|right; intros X; inversion X; congruence].
    destruct (ce_s s !! c_storage c) as [f|] eqn:Ef.
    + destruct (decide (f = 0)) as [->|]; [|left; eapply ic_register; [exact E|exact E'|]; by exists f].
      right. intros X. inversion X as [? ? c1 c2 E1 E2 (f & Ef1 & ?)| | |]; subst. rewrite E in E1. injection E1 as <-. congruence.
    + right. intros X. inversion X as [? ? c1 c2 E1 E2 (f & Ef1 & ?)| | |]; subst. rewrite E in E1. injection E1 as <-. congruence.
  - destruct (h_circ (ce_heap s) !! l) as [c|] eqn:E; [|right; intros X; inversion X; congruence].
    destruct (ce_s s !! c_storage c) as [f|] eqn:Ef.
    + destruct (decide (f = 0)) as [->|]; [|left; eapply ic_sub; [exact E|]; by exists f].
      right. intros X. inversion X as [|? c1 E1 (f & Ef1 & ?)| |]; subst. rewrite E in E1. injection E1 as <-. congruence.
    + right. intros X. inversion X as [|? c1 E1 (f & Ef1 & ?)| |]; subst. rewrite E in E1. injection E1 as <-. congruence.
  - destruct (h_circ (ce_heap s) !! l) as [c|] eqn:E; [|right; intros X; inversion X; congruence].
    destruct (decide (ce_s s !! c_storage c = Some (-1))) as [Hs|Hs]; [left; by eapply ic_lookup|].
    destruct (h_stor (ce_heap s) !! c_storage c) as [x|] eqn:Ex.
    + destruct (module_map x !! mid) as [l'|] eqn:Em.
      * destruct (decide (ce_c s !! l' = Some (-1))) as [Hc|Hc]; [left; by eapply ic_callee|].
        right. intros X. inversion X as [| |? c1 ? ? E1 H1|? c1 x1 ? ? l1 E1 Ex1 Em1 H1]; subst; rewrite E in E1; injection E1 as <-; unfold held_mut in H1; congruence.
      * right. intros X. inversion X as [| |? c1 ? ? E1 H1|? c1 x1 ? ? l1 E1 Ex1 Em1 H1]; subst; rewrite E in E1; injection E1 as <-; unfold held_mut in H1; congruence.
    + right. intros X. inversion X as [| |? c1 ? ? E1 H1|? c1 x1 ? ? l1 E1 Ex1 Em1 H1]; subst; rewrite E in E1; injection E1 as <-; unfold held_mut in H1; congruence.
Qed.
Lemma conflict_dec s o : fit s -> conflict s o \/ ~ conflict s o.
Proof.
  intros F. destruct (receiver o) as [l|] eqn:R.
  - destruct (ce_c s !! l) as [f|] eqn:E.
    + destruct (decide (f = 0)) as [->|]; [|left; eapply cf_receiver; [done|by exists f]].
      rewrite (conflict_inner s o l E R). apply inner_conflict_dec.
    + right. pose proof (proj1 (lookup_ge_None _ _) E) as E1. rewrite (fit_c _ F), <- lookup_ge_None in E1.
      intros X. destruct X as [o l1 R1 (f & Ef & Hf) | | | | | |]; cbn in *; simplify_eq.
  - destruct o as [|x|l| | | | | | | | | | | | |x l']; try done; try (right; intros X; inversion X; done).
    + destruct (decide (ce_c s !! l = Some (-1))) as [H|H]; [left; by apply cf_copy|]. right. intros X. inversion X; subst; done.
    + destruct (h_circ (ce_heap s) !! l') as [c'|] eqn:E'; [|right; intros X; inversion X; subst; [done|congruence]].
      destruct (ce_s s !! x) as [f|] eqn:Ef.
      * destruct (decide (f = 0)) as [->|]; [|left; eapply cf_put; [exact E'|]; by exists f].
        right. intros X. inversion X as [? ? R1| | | | | |? ? ? ? (f & Ef1 & ?)]; subst; [done|congruence].
      * right. intros X. inversion X as [? ? R1| | | | | |? ? ? ? (f & Ef1 & ?)]; subst; [done|congruence].
Qed.

(** What a call can change. *)
Inductive shape (h : heap) (o : op) : heap -> Prop :=
| sh_same : shape h o h
| sh_circ l c : receiver o = Some l -> shape h o (Heap (<[l := c]> (h_circ h)) (h_stor h))
| sh_new c : shape h o (Heap (h_circ h ++ [c]) (h_stor h))
| sh_stor x : shape h o (Heap (h_circ h) (h_stor h ++ [x]))
| sh_register l l' c c' y : o = OpRegister l l' -> h_circ h !! l = Some c -> h_circ h !! l' = Some c' ->
    shape h o (Heap (h_circ h) (<[c_storage c := y]> (h_stor h)))
| sh_sub l c y d : o = OpSub l -> h_circ h !! l = Some c -> shape h o (Heap (h_circ h ++ [d]) (<[c_storage c := y]> (h_stor h)))
| sh_put x l' c' y : o = OpPut x l' -> h_circ h !! l' = Some c' -> shape h o (Heap (h_circ h) (<[x := y]> (h_stor h))).
Lemma shape_on_circ {A} (f : A -> ret) h o l (g : circuit -> A * circuit) : receiver o = Some l -> shape h o (snd (as_ret f (on_circ l g) h)).
Proof.
  intros R. unfold as_ret, on_circ, st_bind, get_circ. destruct (h_circ h !! l); [|apply sh_same]. destruct (g c). cbn. by apply sh_circ.
Qed.
Lemma step_shape md o h : shape h o (step md h o).
Proof.
  unfold step. destruct o; cbn [run_op]; unfold r_input, r_constant, r_not, r_xor, r_and, r_or, r_equivalent, r_identity; try (by apply shape_on_circ).
  - cbn. apply sh_stor.
  - unfold as_ret, st_bind, get_stor. destruct (h_stor h !! s); [|apply sh_same]. cbn. apply sh_new.
  - unfold as_ret, st_bind, get_circ. destruct (h_circ h !! l); [|apply sh_same]. cbn. apply sh_new.
  - unfold as_ret, r_output, on_circ, st_bind, get_circ. destruct (h_circ h !! l); [|apply sh_same]. destruct (c_output c g) as [r c']. cbn.
    destruct r; cbn; by apply sh_circ.
  - unfold as_ret, r_register, st_bind, get_circ. destruct (h_circ h !! l) as [c|] eqn:E; [|apply sh_same]. destruct (h_circ h !! l') as [c'|] eqn:E'; [|apply sh_same].
    unfold s_register, st_bind, get_stor. destruct (h_stor h !! c_storage c); [|apply sh_same]. cbn. by eapply sh_register.
  - unfold as_ret, r_sub_circuit, st_bind, get_circ. destruct (h_circ h !! l) as [c|] eqn:E; [|apply sh_same]. unfold get_stor.
    destruct (h_stor h !! c_storage c) eqn:Ex; [|apply sh_same]. unfold alloc_circ, s_register, st_bind, get_stor. cbn. rewrite Ex. cbn. by eapply sh_sub.
  - destruct (h_circ h !! l) as [c|] eqn:E.
    + pose proof (run_module md l mid ids h c E) as X. cbn [run_op] in X. rewrite X. destruct (h_stor h !! c_storage c) as [x|]; [|apply sh_same].
      destruct (module_map x !! mid) as [l'|]; [|apply sh_same]. destruct (decide (l' = l)); [apply sh_same|]. destruct (h_circ h !! l') as [m|]; [|apply sh_same].
      destruct (c_module md c m mid ids) as [[outs c']|]; [|apply sh_same]. by apply sh_circ.
    + pose proof (run_dangling md (OpModule l mid ids) l h eq_refl E) as X. cbn [run_op] in X. rewrite X. apply sh_same.
  - unfold as_ret, st_bind, get_circ. destruct (h_circ h !! l') as [c'|] eqn:E'; [|apply sh_same].
    unfold s_register, st_bind, get_stor. destruct (h_stor h !! s); [|apply sh_same]. cbn. by eapply sh_put.
Qed.
Lemma shape_len h o h' : shape h o h' -> (length (h_circ h) <= length (h_circ h') /\ length (h_stor h) <= length (h_stor h'))%nat.
Proof. intros []; cbn; rewrite ?app_length, ?insert_length; lia. Qed.
Lemma shape_circ h o h' l : shape h o h' -> (l < length (h_circ h))%nat -> receiver o <> Some l -> h_circ h' !! l = h_circ h !! l.
Proof.
  intros [| l1 c R | | | | |] Hl Hr; cbn; try done; try (by rewrite lookup_app_l). apply list_lookup_insert_ne. congruence.
Qed.
Lemma shape_stor h o h' x : shape h o h' -> (x < length (h_stor h))%nat ->
  (forall l l' c c', o = OpRegister l l' -> h_circ h !! l = Some c -> h_circ h !! l' = Some c' -> c_storage c <> x) ->
  (forall l c, o = OpSub l -> h_circ h !! l = Some c -> c_storage c <> x) ->
  (forall z l' c', o = OpPut z l' -> h_circ h !! l' = Some c' -> z <> x) -> h_stor h' !! x = h_stor h !! x.
Proof.
  intros [| | | | l l' c c' y R E E' | l c y d R E | z l' c' y R E] Hl Hr Hs Hz; cbn; try done; try (by rewrite lookup_app_l).
  - apply list_lookup_insert_ne. by eapply Hr.
  - apply list_lookup_insert_ne. by eapply Hs.
  - apply list_lookup_insert_ne. by eapply Hz.
Qed.

Lemma grow_fit s h : fit s -> (length (h_circ (ce_heap s)) <= length (h_circ h) /\ length (h_stor (ce_heap s)) <= length (h_stor h))%nat -> fit (grow s h).
Proof.
  intros [A B C D] [L1 L2]. split; cbn.
  - rewrite app_length, replicate_length. lia.
  - rewrite app_length, replicate_length. lia.
  - apply Forall_app. split; [done|]. apply Forall_replicate. lia.
  - apply Forall_app. split; [done|]. apply Forall_replicate. lia.
Qed.
(** One call, from any flags. *)
Lemma call_cases md o s : fit s ->
  (conflict s o /\ b_op md o s = (Panic PBorrow, s))
  \/ (~ conflict s o /\ b_op md o s = (fst (run_op md o (ce_heap s)), grow s (step md (ce_heap s) o))).
Proof.
  intros F. destruct (C75_calls md o s F) as [A B]. destruct (conflict_dec s o F) as [C|C]; [left; auto|right]. split; [done|].
  rewrite (B C). unfold step. by destruct (run_op md o (ce_heap s)).
Qed.
Lemma inner_cases md o l m s : fit s -> b_inner md o = Some (l, m) -> held_mut (ce_c s) l ->
  (inner_conflict s o /\ m s = (Panic PBorrow, s))
  \/ (~ inner_conflict s o /\ m s = (fst (run_op md o (ce_heap s)), grow s (step md (ce_heap s) o))).
Proof.
  intros F E H. destruct (inner_spec md o l m s F E H) as [A B]. destruct (inner_conflict_dec s o) as [C|C]; [left; auto|right]. split; [done|].
  rewrite (B C). unfold step. by destruct (run_op md o (ce_heap s)).
Qed.

(** * Without guards: [Circuit.v] is the whole story *)
Theorem C75_no_guard md o s r h : fit s -> unheld s -> run_op md o (ce_heap s) = (r, h) ->
  exists s', b_op md o s = (r, s') /\ ce_heap s' = h /\ fit s' /\ unheld s'.
Proof.
  intros F [U1 U2] E. exists (grow s h). destruct (C75_calls md o s F) as [A B]. rewrite E in B.
  assert ((length (h_circ (ce_heap s)) <= length (h_circ h) /\ length (h_stor (ce_heap s)) <= length (h_stor h))%nat) as L.
  { replace h with (step md (ce_heap s) o) by (unfold step; by rewrite E). eapply shape_len, step_shape. }
  assert (forall l, ~ held (ce_c s) l) as N1. { intros l (f & Ef & Hf). apply Hf. exact (Forall_lookup_1 _ _ _ _ U1 Ef). }
  assert (forall l, ~ held (ce_s s) l) as N2. { intros l (f & Ef & Hf). apply Hf. exact (Forall_lookup_1 _ _ _ _ U2 Ef). }
  assert (forall fs l, held_mut fs l -> held fs l) as HM by (intros fs l X; by exists (-1)).
  split; [|split; [done|split; [by apply grow_fit|split; cbn; (apply Forall_app; split; [done|by apply Forall_replicate])]]].
  destruct (conflict_dec s o F) as [C|C]; [|by apply B]. rewrite (A C).
  destruct C as [o l R X|l X|l l' c c' Ec Ec' X|l c Ec X|l c mid ids Ec X|l c x mid ids l' Ec Ex Em [->|X]|x l' c' Ec X];
    try (exfalso; first [by eapply N1, X|by eapply N2, X|by eapply N1, HM, X|by eapply N2, HM, X]).
  rewrite (run_module _ _ _ _ _ _ Ec), Ex, Em, decide_True in E by done. injection E as <- <-. by rewrite grow_refl.
Qed.
Theorem C75_no_guard_history md ops : ce_heap (b_run md (EvCall <$> ops)) = run md ops /\ unheld (b_run md (EvCall <$> ops)).
Proof.
  unfold b_run, run. assert (fit cells_empty) as F by (split; try done; constructor). assert (unheld cells_empty) as U by (split; constructor).
  change heap_empty with (ce_heap cells_empty). revert F U. generalize cells_empty. induction ops as [|o ops IH]; intros s F U; [done|]. cbn.
  destruct (run_op md o (ce_heap s)) as [r h] eqn:E. destruct (C75_no_guard md o s r h F U E) as (s' & E' & Hh & F' & U').
  assert (b_step md s (EvCall o) = s') as Hs by (unfold b_step; cbn; unfold st_bind; rewrite E'; by destruct r).
  assert (step md (ce_heap s) o = ce_heap s') as -> by (unfold step; by rewrite E). rewrite Hs. by apply IH.
Qed.

(** * With guards *)
(** A call through a guard of [borrow_mut] is the call on the handle, had that guard not been held; the guard is still held afterwards. *)
Theorem C75_through_guard md o l m s r s' : fit s -> b_inner md o = Some (l, m) -> held_mut (ce_c s) l ->
  b_op md o (set_c s l 0) = (r, s') -> m s = (r, set_c s' l (-1)).
Proof.
  intros F E H X. destruct (b_op_inner md o l (receiver_inner _ _ _ _ E)) as (m' & Em & Eb). rewrite E in Em. injection Em as <-.
  rewrite Eb in X. assert ((l < length (ce_c s))%nat) as Hl by (by eapply lookup_lt_Some).
  rewrite with_c_free in X by (cbn; by apply list_lookup_insert).
  rewrite (set_set_c s l (-1) 0 H) in X.
  assert (exists s2, m s = (fst (m s), s2) /\ ce_c s2 !! l = Some (-1)) as (s2 & E2 & H2).
  { destruct (inner_cases md o l m s F E H) as [[_ ->]|[_ ->]]; [by exists s|]. eexists. split; [done|]. cbn. by rewrite lookup_app_l. }
  rewrite E2 in X |- *. injection X as <- <-. f_equal. unfold drop_c. rewrite H2. symmetry. by apply set_set_c.
Qed.

(** Questions change nothing; they need that nobody else holds a guard of [borrow_mut]. *)
Theorem C75_questions {A} s l c (q : circuit -> A) : fit s -> h_circ (ce_heap s) !! l = Some c ->
  (held_mut (ce_c s) l -> b_ask l q s = (Panic PBorrow, s)) /\ (~ held_mut (ce_c s) l -> b_ask l q s = (Ok (q c), s)).
Proof.
  intros F E. destruct (fit_flag_c s l c F E) as (f & Ef & Hf). rewrite (ask_ok l q s c f E Ef). unfold held_mut. rewrite Ef.
  destruct (Z.ltb_spec f 0); split; try done; [intros N; destruct N; f_equal; lia|intros [= ->]; lia].
Qed.
Theorem C75_get_module s l c x mid : fit s -> h_circ (ce_heap s) !! l = Some c -> h_stor (ce_heap s) !! c_storage c = Some x ->
  (held_mut (ce_c s) l \/ held_mut (ce_s s) (c_storage c) -> b_get_module l mid s = (Panic PBorrow, s))
  /\ (~ held_mut (ce_c s) l -> ~ held_mut (ce_s s) (c_storage c) ->
      b_get_module l mid s = (match module_map x !! mid with Some l' => Ok l' | None => Err (EUnknownModule mid) end, s)).
Proof.
  intros F E Ex. destruct (fit_flag_c s l c F E) as (f & Ef & Hf). destruct (fit_flag_s s _ x F Ex) as (g & Eg & Hg).
  assert (b_get_module l mid s = if f <? 0 then (Panic PBorrow, s) else if g <? 0 then (Panic PBorrow, s)
    else (match module_map x !! mid with Some l' => Ok l' | None => Err (EUnknownModule mid) end, s)) as ->.
  { unfold b_get_module, with_c, hold_c. rewrite Ef. destruct (f <? 0); [done|].
    assert (on_heap (get_circ l) (set_c s l (f + 1)) = (Ok c, set_c s l (f + 1))) as G by (unfold on_heap, get_circ; cbn; by rewrite E).
    rewrite (st_bind_ok _ _ _ _ _ G). rewrite (lookup_ok (set_c s l (f + 1)) _ mid x g Ex Eg).
    assert (drop_c (set_c s l (f + 1)) l (back false) = s) as D.
    { unfold drop_c. cbn. rewrite list_lookup_insert by (by eapply lookup_lt_Some). replace (f + 1 + -1) with f by lia. by apply set_set_c. }
    destruct (g <? 0); [by rewrite D|]. by rewrite D. }
  unfold held_mut. rewrite Ef, Eg. destruct (Z.ltb_spec f 0), (Z.ltb_spec g 0); split; try done.
  - intros N. destruct N. f_equal; lia.
  - intros N. destruct N. f_equal; lia.
  - intros _ N. destruct N. f_equal; lia.
  - intros [[= ->]|[= ->]]; lia.
Qed.

(** ** The guards in existence *)
(** A guard: on a circuit or on a storage, of [borrow_mut] or of [borrow], and the cell. *)
Definition lease : Set := bool * bool * nat.
Definition count (g : lease) (gs : list lease) : nat := length (filter (fun x => x = g) gs).
Local Arguments count : simpl never.
Fixpoint remove_one (g : lease) (gs : list lease) : list lease :=
  match gs with [] => [] | x :: gs => if decide (x = g) then gs else x :: remove_one g gs end.
(** A caller that keeps a list of the guards it owns: a guard is added when [borrow] or [borrow_mut] returns, only an owned guard is dropped, and calls
    through a guard need one. *)
Definition g_step (md : mode) (st : cells * list lease) (e : event) : cells * list lease :=
  let (s, gs) := st in
  match e with
  | EvCall o => (b_step md s e, gs)
  | EvHoldC w l => (b_step md s e, if is_ok (fst (hold_c w l s)) then (true, w, l) :: gs else gs)
  | EvHoldS w l => (b_step md s e, if is_ok (fst (hold_s w l s)) then (false, w, l) :: gs else gs)
  | EvDropC w l => if decide ((true, w, l) ∈ gs) then (b_step md s e, remove_one (true, w, l) gs) else (s, gs)
  | EvDropS w l => if decide ((false, w, l) ∈ gs) then (b_step md s e, remove_one (false, w, l) gs) else (s, gs)
  | EvGuard o => match receiver o with Some l => if decide ((true, true, l) ∈ gs) then (b_step md s e, gs) else (s, gs) | None => (s, gs) end
  end.
Definition g_run (md : mode) (es : list event) : cells * list lease := fold_left (g_step md) es (cells_empty, []).
(** The flag of a cell, from the guards: -1 for one of [borrow_mut] and no other, else the number of those of [borrow]. *)
Definition flag_ok (gs : list lease) (k : bool) (l : nat) (f : Z) : Prop :=
  (f = -1 /\ count (k, true, l) gs = 1%nat /\ count (k, false, l) gs = 0%nat)
  \/ (f = Z.of_nat (count (k, false, l) gs) /\ count (k, true, l) gs = 0%nat).

Record agree (s : cells) (gs : list lease) : Prop := {
  ag_fit : fit s;
  ag_c : forall l, match ce_c s !! l with Some f => flag_ok gs true l f | None => forall w, count (true, w, l) gs = 0%nat end;
  ag_s : forall l, match ce_s s !! l with Some f => flag_ok gs false l f | None => forall w, count (false, w, l) gs = 0%nat end;
}.
Lemma count_cons g x gs : count g (x :: gs) = (if decide (x = g) then 1 + count g gs else count g gs)%nat.
Proof. unfold count. rewrite filter_cons. by destruct decide. Qed.
Lemma count_remove g x gs : x ∈ gs -> count g (remove_one x gs) = (if decide (x = g) then count g gs - 1 else count g gs)%nat.
Proof.
  induction gs as [|y gs IH]; [by intros ?%elem_of_nil|]. intros Hx. cbn [remove_one]. destruct (decide (y = x)) as [->|Hne].
  - rewrite count_cons. destruct (decide (x = g)); [|done]. lia.
  - rewrite elem_of_cons in Hx. destruct Hx as [->|Hx]; [done|]. rewrite !count_cons, (IH Hx).
    destruct (decide (y = g)), (decide (x = g)); subst; try done.
Qed.
Lemma count_pos g gs : g ∈ gs <-> (0 < count g gs)%nat.
Proof.
  induction gs as [|y gs IH]; [split; [by intros ?%elem_of_nil|unfold count; cbn; lia]|]. rewrite elem_of_cons, count_cons, IH.
  destruct (decide (y = g)) as [->|Hne]; [split; [lia|auto]|]. split; [intros [->|]; done|auto].
Qed.
Lemma grow_agree s gs h : agree s gs -> (length (h_circ (ce_heap s)) <= length (h_circ h) /\ length (h_stor (ce_heap s)) <= length (h_stor h))%nat -> agree (grow s h) gs.
Proof.
  intros [F C D] L. split; [by apply grow_fit| |]; intros l; cbn.
  - specialize (C l). destruct (ce_c s !! l) as [f|] eqn:E; [by rewrite (lookup_app_l_Some _ _ _ _ E)|]. rewrite lookup_app_r by (by apply lookup_ge_None).
    destruct (replicate _ _ !! _) as [f|] eqn:E2; [|done]. apply lookup_replicate in E2. destruct E2 as [-> _]. right. by rewrite !C.
  - specialize (D l). destruct (ce_s s !! l) as [f|] eqn:E; [by rewrite (lookup_app_l_Some _ _ _ _ E)|]. rewrite lookup_app_r by (by apply lookup_ge_None).
    destruct (replicate _ _ !! _) as [f|] eqn:E2; [|done]. apply lookup_replicate in E2. destruct E2 as [-> _]. right. by rewrite !D.
Qed.
Lemma step_call md s o : fit s -> b_step md s (EvCall o) = s \/ b_step md s (EvCall o) = grow s (step md (ce_heap s) o).
Proof.
  intros F. unfold b_step. cbn. unfold st_bind. destruct (call_cases md o s F) as [[_ ->]|[_ ->]]; [by left|right].
  by destruct (fst (run_op md o (ce_heap s))).
Qed.
Lemma step_guard md s o : fit s -> b_step md s (EvGuard o) = s \/ b_step md s (EvGuard o) = grow s (step md (ce_heap s) o).
Proof.
  intros F. unfold b_step. cbn. destruct (b_inner md o) as [[l m]|] eqn:E; [|by left]. case_bool_decide as H; [|by left].
  unfold st_bind. destruct (inner_cases md o l m s F E H) as [[_ ->]|[_ ->]]; [by left|right].
  by destruct (fst (run_op md o (ce_heap s))).
Qed.
Lemma g_step_agree md st e : agree st.1 st.2 -> agree (g_step md st e).1 (g_step md st e).2.
Proof.
  destruct st as [s gs]. cbn [fst snd]. intros A. pose proof A as [F C D]. destruct e as [o|w l|w l|w l|w l|o]; cbn [g_step].
  - cbn [fst snd]. destruct (step_call md s o F) as [->| ->]; [done|]. apply grow_agree; [done|]. eapply shape_len, step_shape.
  - cbn [fst snd]. unfold b_step. cbn [b_event]. unfold st_bind, hold_c. specialize (C l) as Cl. destruct (ce_c s !! l) as [f|] eqn:E; [|done].
    assert ((l < length (ce_c s))%nat) as Hl by (by eapply lookup_lt_Some).
    pose proof (Forall_lookup_1 _ _ _ _ (fit_cf _ F) E) as Hf. cbn in Hf.
    destruct w; [destruct (Z.eqb_spec f 0) as [->|]; [|done]|destruct (Z.ltb_spec f 0); [done|]]; cbn [fst snd is_ok st_ret].
    + split; [by apply fit_set_c| |].
      * intros k. cbn. destruct (decide (l = k)) as [->|].
        -- rewrite list_lookup_insert by done. left. rewrite !count_cons, decide_True, decide_False by done.
           destruct Cl as [[? _]|[Hc Ht]]; [done|]. lia.
        -- rewrite list_lookup_insert_ne by done. specialize (C k). destruct (ce_c s !! k); unfold flag_ok in *; intros; rewrite !count_cons, !decide_False by congruence; auto.
      * intros k. cbn. specialize (D k). destruct (ce_s s !! k); unfold flag_ok in *; intros; rewrite !count_cons, !decide_False by congruence; auto.
    + split; [apply fit_set_c; [done|lia]| |].
      * intros k. cbn. destruct (decide (l = k)) as [->|].
        -- rewrite list_lookup_insert by done. right. rewrite !count_cons, decide_True, decide_False by done.
           destruct Cl as [[? _]|[Hc Ht]]; lia.
        -- rewrite list_lookup_insert_ne by done. specialize (C k). destruct (ce_c s !! k); unfold flag_ok in *; intros; rewrite !count_cons, !decide_False by congruence; auto.
      * intros k. cbn. specialize (D k). destruct (ce_s s !! k); unfold flag_ok in *; intros; rewrite !count_cons, !decide_False by congruence; auto.
  - destruct (decide ((true, w, l) ∈ gs)) as [Hin|]; [|done]. cbn [fst snd]. unfold b_step. cbn [b_event]. specialize (C l) as Cl.
    pose proof (proj1 (count_pos _ _) Hin) as Hp. destruct (ce_c s !! l) as [f|] eqn:E; [|rewrite Cl in Hp; lia].
    assert ((l < length (ce_c s))%nat) as Hl by (by eapply lookup_lt_Some).
    assert ((if w then f =? -1 else 0 <? f) = true) as ->.
    { destruct Cl as [(? & ? & ?)|[? ?]], w; try lia. } cbn [snd]. unfold drop_c. rewrite E.
    split; [apply fit_set_c; [done|]; destruct Cl as [(? & ? & ?)|[? ?]], w; cbn; lia| |].
    + intros k. cbn. destruct (decide (l = k)) as [->|].
      * rewrite list_lookup_insert by done. right. rewrite !count_remove by done. 
        destruct Cl as [(? & ? & ?)|[? ?]], w; cbn; repeat (destruct decide; try congruence); lia.
      * rewrite list_lookup_insert_ne by done. specialize (C k). destruct (ce_c s !! k); unfold flag_ok in *; intros; rewrite !count_remove, !decide_False by (done || congruence); auto.
    + intros k. cbn. specialize (D k). destruct (ce_s s !! k); unfold flag_ok in *; intros; rewrite !count_remove, !decide_False by (done || congruence); auto.
  - cbn [fst snd]. unfold b_step. cbn [b_event]. unfold st_bind, hold_s. specialize (D l) as Cl. destruct (ce_s s !! l) as [f|] eqn:E; [|done].
    assert ((l < length (ce_s s))%nat) as Hl by (by eapply lookup_lt_Some).
    pose proof (Forall_lookup_1 _ _ _ _ (fit_sf _ F) E) as Hf. cbn in Hf.
    destruct w; [destruct (Z.eqb_spec f 0) as [->|]; [|done]|destruct (Z.ltb_spec f 0); [done|]]; cbn [fst snd is_ok st_ret].
    + split; [by apply fit_set_s| |].
      * intros k. cbn. specialize (C k). destruct (ce_c s !! k); unfold flag_ok in *; intros; rewrite !count_cons, !decide_False by congruence; auto.
      * intros k. cbn. destruct (decide (l = k)) as [->|].
        -- rewrite list_lookup_insert by done. left. rewrite !count_cons, decide_True, decide_False by done.
           destruct Cl as [[? _]|[Hc Ht]]; [done|]. lia.
        -- rewrite list_lookup_insert_ne by done. specialize (D k). destruct (ce_s s !! k); unfold flag_ok in *; intros; rewrite !count_cons, !decide_False by congruence; auto.
    + split; [apply fit_set_s; [done|lia]| |].
      * intros k. cbn. specialize (C k). destruct (ce_c s !! k); unfold flag_ok in *; intros; rewrite !count_cons, !decide_False by congruence; auto.
      * intros k. cbn. destruct (decide (l = k)) as [->|].
        -- rewrite list_lookup_insert by done. right. rewrite !count_cons, decide_True, decide_False by done.
           destruct Cl as [[? _]|[Hc Ht]]; lia.
        -- rewrite list_lookup_insert_ne by done. specialize (D k). destruct (ce_s s !! k); unfold flag_ok in *; intros; rewrite !count_cons, !decide_False by congruence; auto.
  - destruct (decide ((false, w, l) ∈ gs)) as [Hin|]; [|done]. cbn [fst snd]. unfold b_step. cbn [b_event]. specialize (D l) as Cl.
    pose proof (proj1 (count_pos _ _) Hin) as Hp. destruct (ce_s s !! l) as [f|] eqn:E; [|rewrite Cl in Hp; lia].
    assert ((l < length (ce_s s))%nat) as Hl by (by eapply lookup_lt_Some).
    assert ((if w then f =? -1 else 0 <? f) = true) as ->.
    { destruct Cl as [(? & ? & ?)|[? ?]], w; try lia. } cbn [snd]. unfold drop_s. rewrite E.
    split; [apply fit_set_s; [done|]; destruct Cl as [(? & ? & ?)|[? ?]], w; cbn; lia| |].
    + intros k. cbn. specialize (C k). destruct (ce_c s !! k); unfold flag_ok in *; intros; rewrite !count_remove, !decide_False by (done || congruence); auto.
    + intros k. cbn. destruct (decide (l = k)) as [->|].
      * rewrite list_lookup_insert by done. right. rewrite !count_remove by done. 
        destruct Cl as [(? & ? & ?)|[? ?]], w; cbn; repeat (destruct decide; try congruence); lia.
      * rewrite list_lookup_insert_ne by done. specialize (D k). destruct (ce_s s !! k); unfold flag_ok in *; intros; rewrite !count_remove, !decide_False by (done || congruence); auto.
  - destruct (receiver o) as [l|]; [|done]. destruct (decide _); [|done]. cbn [fst snd].
    destruct (step_guard md s o F) as [->| ->]; [done|]. apply grow_agree; [done|]. eapply shape_len, step_shape.
Qed.
Lemma g_run_agree md es : agree (g_run md es).1 (g_run md es).2.
Proof.
  unfold g_run. assert (agree (cells_empty, @nil lease).1 (cells_empty, @nil lease).2) as A by (split; [split; try done; constructor|done|done]).
  revert A. generalize (cells_empty, @nil lease). induction es as [|e es IH]; intros st A; [done|]. apply IH. by apply g_step_agree.
Qed.
(** Whatever a caller does, panicking calls included: the flags are exactly the guards the caller owns, and a guard of [borrow_mut] excludes every other
    guard on the same cell. *)
Theorem C75_guards md es l : 
  let (s, gs) := g_run md es in
  (forall f, ce_c s !! l = Some f -> flag_ok gs true l f) /\ (forall f, ce_s s !! l = Some f -> flag_ok gs false l f)
  /\ (forall k w, (k, w, l) ∈ gs -> (if k : bool then is_Some (h_circ (ce_heap s) !! l) else is_Some (h_stor (ce_heap s) !! l))).
Proof.
  pose proof (g_run_agree md es) as A. destruct (g_run md es) as [s gs]. destruct A as [F C D]. cbn [fst snd] in *. split; [|split].
  - intros f E. specialize (C l). by rewrite E in C.
  - intros f E. specialize (D l). by rewrite E in D.
  - intros k w Hin%count_pos. destruct k.
    + specialize (C l). destruct (h_circ (ce_heap s) !! l) eqn:E; [done|]. rewrite (fit_none_c s l F E) in C. rewrite C in Hin. lia.
    + specialize (D l). destruct (h_stor (ce_heap s) !! l) eqn:E; [done|]. rewrite (fit_none_s s l F E) in D. rewrite D in Hin. lia.
Qed.

(** ** What a guard protects *)
(** Events of others: neither a drop of a guard of this circuit nor a call through one. *)
Definition others (l : nat) (e : event) : Prop := match e with EvDropC _ l' => l' <> l | EvGuard o => receiver o <> Some l | _ => True end.
Lemma b_step_fit md s e : fit s -> fit (b_step md s e).
Proof.
  intros F. destruct e as [o|w l|w l|w l|w l|o].
  - destruct (step_call md s o F) as [->| ->]; [done|]. apply grow_fit; [done|]. eapply shape_len, step_shape.
  - unfold b_step. cbn. unfold st_bind, hold_c. destruct (ce_c s !! l) as [f|] eqn:E; [|done].
    destruct w; [destruct (f =? 0); [|done]; by apply fit_set_c|]. destruct (Z.ltb_spec f 0); [done|]. apply fit_set_c; [done|lia].
  - unfold b_step. cbn. destruct (ce_c s !! l) as [f|] eqn:E; [|done]. destruct (if w then f =? -1 else 0 <? f) eqn:G; [|done]. cbn. unfold drop_c. rewrite E.
    apply fit_set_c; [done|]. destruct w; cbn; lia.
  - unfold b_step. cbn. unfold st_bind, hold_s. destruct (ce_s s !! l) as [f|] eqn:E; [|done].
    destruct w; [destruct (f =? 0); [|done]; by apply fit_set_s|]. destruct (Z.ltb_spec f 0); [done|]. apply fit_set_s; [done|lia].
  - unfold b_step. cbn. destruct (ce_s s !! l) as [f|] eqn:E; [|done]. destruct (if w then f =? -1 else 0 <? f) eqn:G; [|done]. cbn. unfold drop_s. rewrite E.
    apply fit_set_s; [done|]. destruct w; cbn; lia.
  - destruct (step_guard md s o F) as [->| ->]; [done|]. apply grow_fit; [done|]. eapply shape_len, step_shape.
Qed.
Lemma held_lt s l : fit s -> held (ce_c s) l -> (l < length (h_circ (ce_heap s)))%nat.
Proof. intros F (f & E & _). rewrite <- (fit_c _ F). by eapply lookup_lt_Some. Qed.
Lemma b_step_frozen md s e l : fit s -> held (ce_c s) l -> others l e ->
  h_circ (ce_heap (b_step md s e)) !! l = h_circ (ce_heap s) !! l /\ held (ce_c (b_step md s e)) l.
Proof.
  intros F H O. pose proof (held_lt s l F H) as Hl.
  assert (forall h, held (ce_c (grow s h)) l) as Hg. { intros h. destruct H as (f & E & Hf). exists f. cbn. by rewrite (lookup_app_l_Some _ _ _ _ E). }
  destruct e as [o|w k|w k|w k|w k|o]; cbn in O.
  - unfold b_step. cbn. unfold st_bind. destruct (call_cases md o s F) as [[_ ->]|[N ->]]; [done|]. 
    assert (h_circ (step md (ce_heap s) o) !! l = h_circ (ce_heap s) !! l) as E.
    { eapply shape_circ; [apply step_shape|done|]. intros R. apply N. by eapply cf_receiver. }
    destruct (fst (run_op md o (ce_heap s))); cbn [snd]; (split; [exact E|apply Hg]).
  - unfold b_step. cbn. unfold st_bind, hold_c. destruct (ce_c s !! k) as [f|] eqn:E; [|done].
    destruct H as (f0 & E0 & Hf). destruct w.
    + destruct (Z.eqb_spec f 0) as [->|]; [|split; [done|by exists f0]]. split; [done|]. exists f0. cbn. rewrite list_lookup_insert_ne; [done|]. congruence.
    + destruct (Z.ltb_spec f 0); [split; [done|by exists f0]|]. split; [done|]. cbn. destruct (decide (k = l)) as [->|].
      * exists (f + 1). rewrite list_lookup_insert by (by eapply lookup_lt_Some). split; [done|lia].
      * exists f0. by rewrite list_lookup_insert_ne.
  - unfold b_step. cbn. destruct (ce_c s !! k) as [f|] eqn:E; [|done]. destruct (if w then f =? -1 else 0 <? f); [|done]. cbn. unfold drop_c. rewrite E. cbn.
    split; [done|]. destruct H as (f0 & E0 & Hf). exists f0. by rewrite list_lookup_insert_ne.
  - unfold b_step. cbn. unfold st_bind, hold_s. destruct (ce_s s !! k) as [f|] eqn:E; [|done].
    destruct w; [destruct (f =? 0); done|]. destruct (f <? 0); done.
  - unfold b_step. cbn. destruct (ce_s s !! k) as [f|] eqn:E; [|done]. destruct (if w then f =? -1 else 0 <? f); [|done]. cbn. unfold drop_s. rewrite E. done.
  - destruct (step_guard md s o F) as [->| ->]; [done|]. split; [|apply Hg]. eapply shape_circ; [apply step_shape|done|done].
Qed.
(** As long as somebody holds a guard on a circuit, of either kind, no call of anybody else changes that circuit. *)
Theorem C75_frozen md s es l : fit s -> held (ce_c s) l -> Forall (others l) es ->
  h_circ (ce_heap (fold_left (b_step md) es s)) !! l = h_circ (ce_heap s) !! l.
Proof.
  intros F H O. revert s F H. induction O as [|e es He O IH]; intros s F H; [done|]. cbn.
  destruct (b_step_frozen md s e l F H He) as [<- H']. apply IH; [by apply b_step_fit|done].
Qed.
(** The same for a module storage: no module can be registered. *)
Definition others_s (l : nat) (e : event) : Prop := match e with EvDropS _ l' => l' <> l | _ => True end.
Lemma b_step_frozen_s md s e l : fit s -> held (ce_s s) l -> others_s l e ->
  h_stor (ce_heap (b_step md s e)) !! l = h_stor (ce_heap s) !! l /\ held (ce_s (b_step md s e)) l.
Proof.
  intros F H O. assert ((l < length (h_stor (ce_heap s)))%nat) as Hl. { destruct H as (f & E & _). rewrite <- (fit_s _ F). by eapply lookup_lt_Some. }
  assert (forall h, held (ce_s (grow s h)) l) as Hg. { intros h. destruct H as (f & E & Hf). exists f. cbn. by rewrite (lookup_app_l_Some _ _ _ _ E). }
  destruct e as [o|w k|w k|w k|w k|o]; cbn in O.
  - unfold b_step. cbn. unfold st_bind. destruct (call_cases md o s F) as [[_ ->]|[N ->]]; [done|]. 
    assert (h_stor (step md (ce_heap s) o) !! l = h_stor (ce_heap s) !! l) as E.
    { eapply shape_stor; [apply step_shape|done| | |].
      - intros l1 l2 c c' -> E1 E2 <-. apply N. by eapply cf_register.
      - intros l1 c -> E1 <-. apply N. by eapply cf_sub.
      - intros z l1 c' -> E1 ->. apply N. by eapply cf_put. }
    destruct (fst (run_op md o (ce_heap s))); cbn [snd]; (split; [exact E|apply Hg]).
  - unfold b_step. cbn. unfold st_bind, hold_c. destruct (ce_c s !! k) as [f|] eqn:E; [|done].
    destruct w; [destruct (f =? 0); done|]. destruct (f <? 0); done.
  - unfold b_step. cbn. destruct (ce_c s !! k) as [f|] eqn:E; [|done]. destruct (if w then f =? -1 else 0 <? f); [|done]. cbn. unfold drop_c. rewrite E. done.
  - unfold b_step. cbn. unfold st_bind, hold_s. destruct (ce_s s !! k) as [f|] eqn:E; [|done].
    destruct H as (f0 & E0 & Hf). destruct w.
    + destruct (Z.eqb_spec f 0) as [->|]; [|split; [done|by exists f0]]. split; [done|]. exists f0. cbn. rewrite list_lookup_insert_ne; [done|]. congruence.
    + destruct (Z.ltb_spec f 0); [split; [done|by exists f0]|]. split; [done|]. cbn. destruct (decide (k = l)) as [->|].
      * exists (f + 1). rewrite list_lookup_insert by (by eapply lookup_lt_Some). split; [done|lia].
      * exists f0. by rewrite list_lookup_insert_ne.
  - unfold b_step. cbn. destruct (ce_s s !! k) as [f|] eqn:E; [|done]. destruct (if w then f =? -1 else 0 <? f); [|done]. cbn. unfold drop_s. rewrite E. cbn.
    split; [done|]. destruct H as (f0 & E0 & Hf). exists f0. by rewrite list_lookup_insert_ne.
  - unfold b_step. cbn. destruct (b_inner md o) as [[k m]|] eqn:E; [|done]. case_bool_decide as Hk; [|done].
    unfold st_bind. destruct (inner_cases md o k m s F E Hk) as [[_ ->]|[N ->]]; [done|].
    assert (h_stor (step md (ce_heap s) o) !! l = h_stor (ce_heap s) !! l) as Es.
    { eapply shape_stor; [apply step_shape|done| | |].
      - intros l1 l2 c c' -> E1 E2 <-. apply N. by eapply ic_register.
      - intros l1 c -> E1 <-. apply N. by eapply ic_sub.
      - intros z l1 c' -> _ _. done. }
    destruct (fst (run_op md o (ce_heap s))); cbn [snd]; (split; [exact Es|apply Hg]).
Qed.
Theorem C75_frozen_storage md s es l : fit s -> held (ce_s s) l -> Forall (others_s l) es ->
  h_stor (ce_heap (fold_left (b_step md) es s)) !! l = h_stor (ce_heap s) !! l.
Proof.
  intros F H O. revert s F H. induction O as [|e es He O IH]; intros s F H; [done|]. cbn.
  destruct (b_step_frozen_s md s e l F H He) as [<- H']. apply IH; [by apply b_step_fit|done].
Qed.

(** * Evaluation *)
(** The circuit at [l] contains a call of the circuit at [l']. *)
Definition contains_call (h : heap) (l l' : nat) : Prop := exists c g il ol ids oi mid x, h_circ h !! l = Some c
  /\ gate_map c !! g = Some (GModule il ol ids oi mid) /\ h_stor h !! c_storage c = Some x /\ module_map x !! mid = Some l'.
(** A guard of [borrow_mut] on a circuit that the evaluation may look at, or on its storage. *)
Definition blocked (s : cells) (l : nat) : Prop := exists l' c, rtc (contains_call (ce_heap s)) l l' /\ h_circ (ce_heap s) !! l' = Some c
  /\ (held_mut (ce_c s) l' \/ held_mut (ce_s s) (c_storage c)).

Section sim.
Context (P : Prop).
Definition sim {T A} (m m' : ST T A) : Prop := forall t, m t = m' t \/ (P /\ fst (m t) = Panic PBorrow).
Lemma sim_refl {T A} (m : ST T A) : sim m m. Proof. by left. Qed.
Lemma sim_bind {T A B} (m m' : ST T A) (k k' : A -> ST T B) : sim m m' -> (forall a, sim (k a) (k' a)) -> sim (st_bind m k) (st_bind m' k').
Proof.
  intros Hm Hk t. unfold st_bind. destruct (Hm t) as [->|[p E]].
  - destruct (m' t) as [[a|e|q|] t']; try by left. apply Hk.
  - right. split; [done|]. destruct (m t) as [[a|e|q|] t']; cbn in *; by simplify_eq.
Qed.
Lemma sim_mapM {T A B} (f f' : A -> ST T B) xs : (forall x, sim (f x) (f' x)) -> sim (st_mapM f xs) (st_mapM f' xs).
Proof.
  intros H. induction xs as [|x xs IH]; [apply sim_refl|]. cbn [st_mapM]. apply sim_bind; [done|]. intros y. apply sim_bind; [done|]. intros; apply sim_refl.
Qed.
Lemma sim_need eg eg' a : sim (eg a) (eg' a) -> sim (e_need eg a) (e_need eg' a).
Proof. intros H t. unfold e_need. destruct (evaled t !! a); [by left|apply H]. Qed.
Lemma sim_binary md c eg eg' f g a b : (forall x, sim (eg x) (eg' x)) -> sim (e_binary md c eg f g a b) (e_binary md c eg' f g a b).
Proof. intros H. unfold e_binary. apply sim_bind; [by apply sim_need|]. intros _. apply sim_bind; [by apply sim_need|]. intros _. apply sim_refl. Qed.
Lemma sim_output h eg eg' l inputs : (forall x, sim (eg l x) (eg' l x)) ->
  eval_output_with h eg l inputs = eval_output_with h eg' l inputs \/ (P /\ eval_output_with h eg l inputs = Panic PBorrow).
Proof.
  intros H. unfold eval_output_with. destruct (h_circ h !! l) as [c|]; [|by left]. destruct (negb _); [by left|].
  assert (sim (e_load c (length inputs + size (input_map c) + 1) 0 inputs ;; st_mapM (e_single_output c (eg l) inputs) (nrange (output_len c)))
              (e_load c (length inputs + size (input_map c) + 1) 0 inputs ;; st_mapM (e_single_output c (eg' l) inputs) (nrange (output_len c)))) as X.
  { apply sim_bind; [apply sim_refl|]. intros _. apply sim_mapM. intros w. unfold e_single_output. destruct (negb _); [apply sim_refl|].
    destruct (_ <=? _)%N; [apply sim_refl|]. destruct (output_map c !! w) as [o|]; [|apply sim_refl]. intros t. destruct (evaled t !! o); [by left|].
    apply (sim_bind (eg l o) (eg' l o)); [apply H|]. intros; apply sim_refl. }
  destruct (X (EState ∅ ∅)) as [->|[p E]]; [by left|by right].
Qed.
Lemma sim_gate md lc ls h fuel : forall l g,
  (forall l' c, rtc (contains_call h) l l' -> h_circ h !! l' = Some c -> lc l' = true \/ ls (c_storage c) = true -> P) ->
  (forall l' : nat, h_circ h !! l' = None -> lc l' = false) ->
  sim (be_gate lc ls md h fuel l g) (eval_gate md h fuel l g).
Proof using.
  induction fuel as [|fuel IH]; intros l g HP HN; [apply sim_refl|]. cbn [be_gate eval_gate]. destruct (h_circ h !! l) as [c|] eqn:E.
  2:{ rewrite (HN l E). apply sim_refl. }
  destruct (lc l) eqn:El. { intros t. right. split; [|done]. eapply HP; [apply rtc_refl|exact E|by left]. }
  destruct (gate_map c !! g) as [[w|b|a|a b|a b|a b|il ol ids oi mid]|] eqn:Eg; try apply sim_refl; try (apply sim_binary; intros; by apply IH).
  - apply sim_bind; [apply sim_need; by apply IH|]. intros; apply sim_refl.
  - apply sim_bind. { apply sim_mapM. intros x. apply sim_bind; [apply sim_need; by apply IH|]. intros; apply sim_refl. }
    intros bits. destruct (ls (c_storage c)) eqn:Es. { intros t. right. split; [|done]. eapply HP; [apply rtc_refl|exact E|by right]. }
    destruct (h_stor h !! c_storage c) as [x|] eqn:Ex; [|apply sim_refl]. destruct (module_map x !! mid) as [l'|] eqn:Em; [|apply sim_refl].
    assert (contains_call h l l') as Hc by (by exists c, g, il, ol, ids, oi, mid, x).
    apply sim_bind; [|intros; apply sim_refl]. unfold be_output_with. intros t.
    destruct (lc l') eqn:El'.
    { right. split; [|done]. destruct (h_circ h !! l') as [c'|] eqn:E'; [|rewrite (HN l' E') in El'; done].
      eapply HP; [by apply rtc_once|exact E'|by left]. }
    unfold st_lift. destruct (sim_output h (be_gate lc ls md h fuel) (eval_gate md h fuel) l' bits) as [->|[p Ep]]; [|by left|right; by rewrite Ep].
    intros y. apply IH; [|done]. intros l2 c2 Hr. apply HP. by eapply rtc_l.
Qed.
End sim.
Lemma writing_mut fs l : Forall (fun f => -1 <= f) fs -> writing fs l = true <-> held_mut fs l.
Proof.
  intros F. unfold writing, held_mut. destruct (fs !! l) as [f|] eqn:E; [|split; done]. pose proof (Forall_lookup_1 _ _ _ _ F E) as Hf. cbn in Hf.
  destruct (Z.ltb_spec f 0); split; try done; [intros _; f_equal; lia|intros [= ->]; lia].
Qed.
(** Guards of [borrow] do not disturb an evaluation. One of [borrow_mut] on a circuit that the evaluation looks at, or on its storage, can only stop it: then
    it panics, and it never returns something else. *)
Theorem C75_eval md s fuel l inputs : fit s ->
  be_output md s fuel l inputs = eval_output md (ce_heap s) fuel l inputs \/ (blocked s l /\ be_output md s fuel l inputs = Panic PBorrow).
Proof.
  intros F. unfold be_output, be_output_with, eval_output.
  assert (forall l' c, rtc (contains_call (ce_heap s)) l l' -> h_circ (ce_heap s) !! l' = Some c ->
    writing (ce_c s) l' = true \/ writing (ce_s s) (c_storage c) = true -> blocked s l) as HP.
  { intros l' c R E [H|H]; exists l', c; (split; [done|split; [done|]]); [left|right]; apply writing_mut; try done; apply F. }
  assert (forall l', h_circ (ce_heap s) !! l' = None -> writing (ce_c s) l' = false) as HN.
  { intros l' E. unfold writing. by rewrite (fit_none_c s l' F E). }
  destruct (writing (ce_c s) l) eqn:W.
  - right. split; [|done]. destruct (h_circ (ce_heap s) !! l) as [c|] eqn:E; [|rewrite (HN l E) in W; done]. eapply HP; [apply rtc_refl|exact E|by left].
  - apply sim_output. intros x. apply sim_gate; done.
Qed.
Theorem C75_eval_held md s fuel l inputs : held_mut (ce_c s) l -> be_output md s fuel l inputs = Panic PBorrow.
Proof. intros H. unfold be_output, be_output_with, writing. by rewrite H. Qed.
(** A guard of [borrow_mut] on the storage stops the evaluation of every module call whose operands have values. *)
Theorem C75_eval_lookup md s fuel l c g il ol ids oi mid t bits : h_circ (ce_heap s) !! l = Some c -> gate_map c !! g = Some (GModule il ol ids oi mid) ->
  held_mut (ce_s s) (c_storage c) -> writing (ce_c s) l = false -> Forall2 (fun i b => evaled t !! i = Some b) ids bits ->
  be_gate (writing (ce_c s)) (writing (ce_s s)) md (ce_heap s) (S fuel) l g t = (Panic PBorrow, t).
Proof.
  intros E Eg H W V. cbn [be_gate]. rewrite W, E, Eg. unfold st_bind at 1.
  assert (st_mapM (fun id => e_need (be_gate (writing (ce_c s)) (writing (ce_s s)) md (ce_heap s) fuel l) id ;; e_get id) ids t = (Ok bits, t)) as ->.
  { clear Eg. induction V as [|i b ids bits Hi V IH]; [done|]. cbn [st_mapM]. erewrite st_bind_ok; [|erewrite st_bind_ok; [unfold e_get; by rewrite Hi|unfold e_need; by rewrite Hi]].
    erewrite st_bind_ok; [|exact IH]. done. }
  unfold writing. by rewrite H.
Qed.

(** * Examples *)
(** One storage, two circuits, the second registered in it and called by the first; then various guards. *)
Definition two : list event := EvCall <$> [OpNewStorage; OpNewCircuit 0; OpInput 0; OpSub 0; OpInput 1; OpNot 1 0; OpOutput 1 1].
Definition call_it : op := OpModule 0 0 [0%N].
Definition outcome (es : list event) (o : op) : res ret := fst (b_op Debug o (b_run Debug es)).
Example C75_example :
  outcome two call_it = Ok (RGates [1%N])
  /\ outcome (two ++ [EvHoldC false 1]) call_it = Ok (RGates [1%N])       (* reading the callee meanwhile *)
  /\ outcome (two ++ [EvHoldC true 1]) call_it = Panic PBorrow
  /\ outcome (two ++ [EvHoldC false 0]) call_it = Panic PBorrow
  /\ outcome (two ++ [EvHoldS false 0]) call_it = Ok (RGates [1%N])       (* reading the storage *)
  /\ outcome (two ++ [EvHoldS true 0]) call_it = Panic PBorrow
  /\ outcome (two ++ [EvHoldS false 0]) (OpSub 1) = Panic PBorrow
  /\ outcome (two ++ [EvHoldC true 1]) (OpRegister 0 1) = Ok (RModule 1)  (* the argument is not borrowed *)
  /\ outcome (two ++ [EvHoldC true 1; EvDropC true 1]) call_it = Ok (RGates [1%N])
  /\ outcome (two ++ [EvHoldC true 0; EvGuard call_it; EvDropC true 0]) call_it = Ok (RGates [2%N])
  /\ outcome (two ++ [EvCall (OpRegister 0 0); EvCall (OpModule 0 1 [0%N])]) call_it = Ok (RGates [1%N])  (* after a caught self-call *)
  /\ outcome two (OpModule 0 5 []) = Err (EUnknownModule 5).
Proof. vm_compute. done. Qed.
Example C75_eval_example :
  let es := two ++ [EvCall call_it; EvCall (OpOutput 0 1%N)] in
  let ev es := be_output Debug (b_run Debug es) 9 0 [true] in
  ev es = Ok [false] /\ ev (es ++ [EvHoldC false 0; EvHoldC false 1; EvHoldS false 0]) = Ok [false]
  /\ ev (es ++ [EvHoldC true 1]) = Panic PBorrow /\ ev (es ++ [EvHoldS true 0]) = Panic PBorrow /\ ev (es ++ [EvHoldC true 0]) = Panic PBorrow.
Proof. vm_compute. done. Qed.
(** The guards a caller owns after a run in which some attempts fail. *)
Example C75_guards_example :
  let st := g_run Debug (two ++ [EvHoldC false 0; EvHoldC true 0; EvHoldC false 0; EvHoldC true 1; EvHoldC false 1; EvDropC false 0; EvCall call_it; EvHoldS true 0]) in
  snd st = [(false, true, 0%nat); (true, true, 1%nat); (true, false, 0%nat)] /\ ce_c (fst st) = [1; -1] /\ ce_s (fst st) = [-1]
  /\ fit (fst st) /\ held (ce_c (fst st)) 0 /\ ~ unheld (fst st).
Proof.
  assert (fit (fst (g_run Debug (two ++ [EvHoldC false 0; EvHoldC true 0; EvHoldC false 0; EvHoldC true 1; EvHoldC false 1; EvDropC false 0; EvCall call_it; EvHoldS true 0]))))
    as F by apply g_run_agree.
  cbv zeta. split; [vm_compute; done|]. split; [vm_compute; done|]. split; [vm_compute; done|]. split; [exact F|]. split.
  - exists 1. split; [vm_compute; done|done].
  - intros [U _]. revert U. replace (ce_c _) with [1; -1] by (vm_compute; done). intros U. apply Forall_cons in U. by destruct U.
Qed.
