(** Property C85: the failures of the reader. *)
From Verif Require Export Prop_Reader.
Open Scope N_scope.
Open Scope list_scope.

(** * What the text says, in terms of its lines and tokens *)
(** The gate lines: from the fifth line up to the first empty one. *)
Fixpoint upto_empty (ls : list string) : list string :=
  match ls with [] => [] | x :: r => if String.eqb x "" then [] else x :: upto_empty r end.
Definition gate_lines (text : string) : list string := upto_empty (drop 4 (lines text)).
(** The line [x] announces [n] operands and [m] results; [rest] are the further tokens. *)
Definition counts (x : string) (n m : N) (rest : list string) : Prop :=
  exists a b, tokens x = a :: b :: rest /\ num_value a = Some n /\ num_value b = Some m.
Definition uses (x : string) (w : N) : Prop :=
  exists n m rest i t, counts x n m rest /\ N.of_nat i < n /\ rest !! i = Some t /\ num_value t = Some w.
Definition defines (x : string) (w : N) : Prop :=
  exists n m rest t, counts x n m rest /\ 0 < m /\ rest !! N.to_nat n = Some t /\ num_value t = Some w.
Definition named (x : string) (n m : N) (ty : string) : Prop := exists rest, counts x n m rest /\ rest !! N.to_nat (n + m) = Some ty.
(** Fewer tokens than announced. *)
Definition short_gate (x : string) : Prop := (List.length (tokens x) < 2)%nat \/ exists n m rest, counts x n m rest /\ N.of_nat (List.length rest) < n + m + 1.
Definition short_group (x : string) : Prop := tokens x = [] \/ exists a rest n, tokens x = a :: rest /\ num_value a = Some n /\ N.of_nat (List.length rest) < n.
(** The numbers of a line [k n1 .. nk]. *)
Definition group (x : string) (ns : list N) : Prop :=
  exists a rest, tokens x = a :: rest /\ num_value a = Some (N.of_nat (List.length ns)) /\ mapM num_value (take (List.length ns) rest) = Some ns.
(** The text declares [k] input wires. *)
Definition declares (text : string) (k : N) : Prop := exists x ns, lines text !! 1%nat = Some x /\ group x ns /\ k = nsum ns.
Definition needs (ty : string) : option N :=
  if String.eqb ty "INV" then Some 1 else if String.eqb ty "XOR" then Some 2 else if String.eqb ty "AND" then Some 2 else if String.eqb ty "OR" then Some 2
  else if String.eqb ty "EQ" || String.eqb ty "EQW" then Some 1 else None.
(** A wire that is no input and no result of the gate lines [ls], and was not known to the reader before. *)
Definition unknown (text : string) (gw : gmap N N) (ls : list string) (w : N) : Prop :=
  (exists k, declares text k /\ k <= w) /\ gw !! w = None /\ forall y, y ∈ ls -> ~ defines y w.

(** * Reading without a circuit: only which wires are known *)
Fixpoint chk_inputs (D : gset N) (k : nat) (w : N) : gset N := match k with O => D | S k => chk_inputs ({[w]} ∪ D) k (w + 1) end.
Fixpoint chk_groups (D : gset N) (toks : list string) (k sum : N) : res (gset N) :=
  if k =? 0 then Ok D
  else match toks with
       | [] => Err ELineSplit
       | t :: ts => res_bind (parse_usize t) (fun n => chk_groups (chk_inputs D (N.to_nat n) sum) ts (k - 1) (sum + n))
       end.
Fixpoint chk_operands (D : gset N) (toks : list string) (k : N) : res (list string) :=
  if k =? 0 then Ok toks
  else match toks with
       | [] => Err ELineSplit
       | t :: ts => res_bind (parse_usize t) (fun w => if decide (w ∈ D) then chk_operands D ts (k - 1) else Err (EUnknownWire w))
       end.
Definition chk_gate (D : gset N) (ty : string) (n : N) (os : list N) : res (gset N) :=
  match needs ty with
  | None => Err (ENotSupportedGate ty)
  | Some k => if n <? k then Panic PIndex else match os with o :: _ => Ok ({[o]} ∪ D) | [] => Panic PIndex end
  end.
Definition chk_line (D : gset N) (toks : list string) : res (gset N) :=
  res_bind (next_num toks) (fun '(n, t1) => res_bind (next_num t1) (fun '(m, t2) => res_bind (chk_operands D t2 n) (fun t3 =>
  res_bind (rd_nums t3 m) (fun '(os, t4) => res_bind (next_tok t4) (fun '(ty, _) => chk_gate D ty n os))))).
Fixpoint chk_lines (D : gset N) (ls : list string) : res (gset N) :=
  match ls with [] => Ok D | x :: r => if String.eqb x "" then Ok D else res_bind (chk_line D (tokens x)) (fun D => chk_lines D r) end.
Fixpoint chk_outputs (D : gset N) (k : nat) (w : N) : res unit :=
  match k with O => Ok tt | S k => if decide (w ∈ D) then chk_outputs D k (w + 1) else Panic PKey end.
Definition check (md : mode) (D : gset N) (text : string) : res unit :=
  res_bind (next_line 1 (lines text)) (fun '(l1, ls) => res_bind (next_num (tokens l1)) (fun '(_, ts) => res_bind (next_num ts) (fun '(num_wire, _) =>
  res_bind (next_line 2 ls) (fun '(l2, ls) => res_bind (next_num (tokens l2)) (fun '(num_input, ts) => res_bind (chk_groups D ts num_input 0) (fun D =>
  res_bind (next_line 3 ls) (fun '(l3, ls) => res_bind (next_num (tokens l3)) (fun '(num_output, ts) => res_bind (rd_sum md ts num_output 0) (fun osum =>
  res_bind (next_line 4 ls) (fun '(_, ls) => res_bind (chk_lines D ls) (fun D => res_bind (usize_sub md num_wire osum) (fun lo =>
  chk_outputs D (N.to_nat (num_wire - lo)) lo)))))))))))).

(** The circuit at [l] exists and has the gates the reader knows. *)
Definition knows (h : heap) (l : nat) (gw : gmap N N) : Prop := exists c, h_circ h !! l = Some c /\ forall w g, gw !! w = Some g -> is_Some (gate_map c !! g).
Section run.
Context (l : nat).
(** [m] with a circuit ends as [r] without. *)
Definition as_check {A} (m : RM A) (D : gset N) (r : res (gset N)) : Prop := forall gw h, knows h l gw -> dom gw = D ->
  match r with
  | Ok D' => exists a gw' h', m (gw, h) = (Ok a, (gw', h')) /\ knows h' l gw' /\ dom gw' = D'
  | Err e => fst (m (gw, h)) = Err e | Panic p => fst (m (gw, h)) = Panic p | NoFuel => False end.
Lemma as_bind {A B} (m : RM A) (f : A -> RM B) D r r' : as_check m D r -> (forall D' a, r = Ok D' -> as_check (f a) D' (r' D')) -> as_check (st_bind m f) D (res_bind r r').
Proof.
  intros Hm Hf gw h K E. specialize (Hm gw h K E). unfold st_bind. destruct r as [D'|e|p|]; cbn [res_bind].
  - destruct Hm as (a & gw' & h' & -> & K' & E'). by apply (Hf D' a).
  - destruct (m (gw, h)) as [rr s]. cbn in Hm. by subst rr.
  - destruct (m (gw, h)) as [rr s]. cbn in Hm. by subst rr.
  - done.
Qed.
Lemma as_lift {A B} (x : res A) (f : A -> RM B) D r : x <> NoFuel -> (forall a, x = Ok a -> as_check (f a) D (r a)) -> as_check (st_bind (st_lift x) f) D (res_bind x r).
Proof. intros Hx Hf gw h K E. unfold st_bind, st_lift. destruct x as [a|e|p|]; cbn; [by apply Hf|done|done|by destruct Hx]. Qed.
Lemma as_ret {A} (a : A) D : as_check (st_ret a) D (Ok D).
Proof. intros gw h K E. by exists a, gw, h. Qed.
(** One gate is made and its wire is entered. *)
Lemma as_new (m : M N) w : (forall h c, h_circ h !! l = Some c -> exists g h' c', m h = (Ok g, h') /\ h_circ h' !! l = Some c' /\ is_Some (gate_map c' !! g) /\
  forall g', is_Some (gate_map c !! g') -> is_Some (gate_map c' !! g')) -> forall D, as_check (g <- rd_h m ;; rd_insert w g) D (Ok ({[w]} ∪ D)).
Proof.
  intros Hm D gw h (c & Ec & K) E. destruct (Hm h c Ec) as (g & h' & c' & E1 & Ec' & Hg & Hmono). exists tt, (<[w := g]> gw), h'.
  split; [unfold st_bind, rd_h; cbn; by rewrite E1|]. split.
  - exists c'. split; [done|]. intros w' g'. destruct (decide (w' = w)) as [->|Hw]; [rewrite lookup_insert; by intros [= <-]|rewrite lookup_insert_ne by done]. intros H. apply Hmono. by eapply K.
  - by rewrite dom_insert_L, E.
Qed.
Lemma push_grows c gt c' g : push c gt c' -> is_Some (gate_map c !! g) -> is_Some (gate_map c' !! g).
Proof. intros P H. rewrite (p_gm _ _ _ P). destruct (decide (g = gate_index c)) as [->|?]; [by rewrite lookup_insert|by rewrite lookup_insert_ne]. Qed.
Lemma push_new c gt c' : push c gt c' -> is_Some (gate_map c' !! gate_index c).
Proof. intros P. rewrite (p_gm _ _ _ P). by rewrite lookup_insert. Qed.
Ltac one X := let h := fresh "h" in let c := fresh "c" in let Ec := fresh "Ec" in intros h c Ec; destruct (X h l c Ec) as (c' & E & P); exists (gate_index c), (upd h l c'), c';
  split; [exact E|]; split; [by eapply upd_lookup|]; split; [by eapply push_new|]; intros g'; by apply push_grows with (1 := P).
Lemma as_input w D : as_check (g <- rd_h (r_input l) ;; rd_insert w g) D (Ok ({[w]} ∪ D)).
Proof. apply as_new. one r_input_ok. Qed.
Lemma as_assoc {A B C} (m : RM A) (f : A -> RM B) (k : RM C) D r : as_check (st_bind (st_bind m f) (fun _ => k)) D r -> as_check (st_bind m (fun a => st_bind (f a) (fun _ => k))) D r.
Proof.
  intros H gw h K E. specialize (H gw h K E). assert (forall s, st_bind m (fun a => st_bind (f a) (fun _ => k)) s = st_bind (st_bind m f) (fun _ => k) s) as X.
  { intros s. unfold st_bind. destruct (m s) as [[a|e|p|] s']; done. }
  by rewrite X.
Qed.
Lemma as_inputs k : forall w D, as_check (rd_inputs l k w) D (Ok (chk_inputs D k w)).
Proof.
  induction k as [|k IH]; intros w D; [apply as_ret|]. cbn [rd_inputs chk_inputs]. apply as_assoc.
  exact (as_bind _ _ _ (Ok ({[w]} ∪ D)) (fun D' => Ok (chk_inputs D' k (w + 1))) (as_input w D) (fun D' a _ => IH (w + 1) D')).
Qed.
Lemma parse_total t : parse_usize t <> NoFuel.
Proof. destruct (num_value t) eqn:E; [apply parse_usize_value in E|destruct (C23_rejects t E) as [k H]]; congruence. Qed.
Lemma as_groups : forall toks k sum D, as_check (rd_groups l toks k sum) D (chk_groups D toks k sum).
Proof.
  induction toks as [|t ts IH]; intros k sum D; cbn [rd_groups chk_groups]; destruct (k =? 0); try apply as_ret; [by intros gw h K E|].
  apply as_lift; [apply parse_total|]. intros n _.
  exact (as_bind _ _ _ (Ok (chk_inputs D (N.to_nat n) sum)) (fun D' => chk_groups D' ts (k - 1) (sum + n)) (as_inputs _ _ _) (fun D' a _ => IH _ _ D')).
Qed.
Lemma operands_check gw : forall toks k, match rd_operands gw toks k with
  | Ok (gs, r) => chk_operands (dom gw) toks k = Ok r /\ N.of_nat (List.length gs) = k
  | Err e => chk_operands (dom gw) toks k = Err e | Panic p => chk_operands (dom gw) toks k = Panic p | NoFuel => False end.
Proof.
  induction toks as [|t ts IH]; intros k; cbn [rd_operands chk_operands]; destruct (N.eqb_spec k 0) as [->|Hk]; try done.
  pose proof (parse_total t) as Ht. destruct (parse_usize t) as [w|e|p|]; cbn [res_bind]; [|done|done|done].
  destruct (gw !! w) as [g|] eqn:Eg.
  - rewrite decide_True by (by apply elem_of_dom_2 in Eg). specialize (IH (k - 1)). destruct (rd_operands gw ts (k - 1)) as [[gs r]|e|p|]; cbn [res_bind]; [|done|done|done].
    destruct IH as [-> IH]. split; [done|]. cbn [List.length]. lia.
  - rewrite decide_False; [done|]. by apply not_elem_of_dom.
Qed.
Lemma as_gate ty gs os D : as_check (rd_gate l ty gs os) D (chk_gate D ty (N.of_nat (List.length gs)) os).
Proof.
  unfold rd_gate, chk_gate, needs.
  assert (forall (m : N -> M N), (forall a w, as_check (g <- rd_h (m a) ;; rd_insert w g) D (Ok ({[w]} ∪ D))) ->
    as_check (a <- st_nth gs 0 ;; g <- rd_h (m a) ;; o <- st_nth os 0 ;; rd_insert o g) D
      (if N.of_nat (List.length gs) <? 1 then Panic PIndex else match os with o :: _ => Ok ({[o]} ∪ D) | [] => Panic PIndex end)) as H1.
  { intros m Hm gw h K E. destruct gs as [|a gs]; [done|]. replace (N.of_nat (List.length (a :: gs)) <? 1) with false by (symmetry; apply N.ltb_ge; cbn; lia).
    specialize (Hm a). destruct os as [|o os].
    - destruct (Hm 0 gw h K E) as (x & gw' & h' & E1 & _). revert E1. unfold st_bind, st_nth, rd_h. cbn. destruct (m a h) as [[g|e|p|] h2]; done.
    - destruct (Hm o gw h K E) as (x & gw' & h' & E1 & K' & E'). exists x, gw', h'. split; [|done]. rewrite <- E1. unfold st_bind, st_nth, rd_h. cbn. destruct (m a h) as [[g|e|p|] h2]; done. }
  assert (forall (m : N -> N -> M N), (forall a b w, as_check (g <- rd_h (m a b) ;; rd_insert w g) D (Ok ({[w]} ∪ D))) ->
    as_check (a <- st_nth gs 0 ;; b <- st_nth gs 1 ;; g <- rd_h (m a b) ;; o <- st_nth os 0 ;; rd_insert o g) D
      (if N.of_nat (List.length gs) <? 2 then Panic PIndex else match os with o :: _ => Ok ({[o]} ∪ D) | [] => Panic PIndex end)) as H2.
  { intros m Hm gw h K E. destruct gs as [|a [|b gs]]; [done|done|]. replace (N.of_nat (List.length (a :: b :: gs)) <? 2) with false by (symmetry; apply N.ltb_ge; cbn; lia).
    specialize (Hm a b). destruct os as [|o os].
    - destruct (Hm 0 gw h K E) as (x & gw' & h' & E1 & _). revert E1. unfold st_bind, st_nth, rd_h. cbn. destruct (m a b h) as [[g|e|p|] h2]; done.
    - destruct (Hm o gw h K E) as (x & gw' & h' & E1 & K' & E'). exists x, gw', h'. split; [|done]. rewrite <- E1. unfold st_bind, st_nth, rd_h. cbn. destruct (m a b h) as [[g|e|p|] h2]; done. }
  destruct (String.eqb ty "INV"); [|destruct (String.eqb ty "XOR"); [|destruct (String.eqb ty "AND"); [|destruct (String.eqb ty "OR"); [|destruct (String.eqb ty "EQ" || String.eqb ty "EQW")]]]].
  - apply H1. intros a w. apply as_new. one (fun h l c E => r_not_ok h l c E a).
  - apply H2. intros a b w. apply as_new. one (fun h l c E => r_xor_ok h l c E a b).
  - apply H2. intros a b w. apply as_new. one (fun h l c E => r_and_ok h l c E a b).
  - apply H2. intros a b w. apply as_new. one (fun h l c E => r_or_ok h l c E a b).
  - apply H1. intros a w. apply as_new. intros h c Ec. destruct (r_identity_ok h l c Ec a) as (c1 & c2 & E & G & P1 & P2).
    exists (gate_index c1), (upd (upd h l c1) l c2), c2. split; [done|]. split; [eapply upd_lookup; by eapply upd_lookup|]. split; [by eapply push_new|].
    intros g Hg. eapply push_grows; [exact P2|]. by eapply push_grows.
  - by intros gw h K E.
Qed.
Lemma next_tok_total toks : next_tok toks <> NoFuel. Proof. by destruct toks. Qed.
Lemma next_num_total toks : next_num toks <> NoFuel.
Proof. destruct toks as [|t ts]; [done|]. unfold next_num. cbn. pose proof (parse_total t). by destruct (parse_usize t). Qed.
Lemma rd_nums_total : forall toks k, rd_nums toks k <> NoFuel.
Proof.
  induction toks as [|t ts IH]; intros k; cbn [rd_nums]; destruct (k =? 0); try done. pose proof (parse_total t). destruct (parse_usize t); try done. cbn.
  specialize (IH (k - 1)). by destruct (rd_nums ts (k - 1)) as [[]| | |].
Qed.
Lemma rd_sum_total md : forall toks k s, rd_sum md toks k s <> NoFuel.
Proof.
  induction toks as [|t ts IH]; intros k s; cbn [rd_sum]; destruct (k =? 0); try done. pose proof (parse_total t). destruct (parse_usize t); try done. cbn.
  unfold usize_add. destruct (_ <? _); [apply IH|]. destruct md; [done|apply IH].
Qed.
Lemma as_tail t3 m gs D : as_check ('(os, t4) <- st_lift (rd_nums t3 m) ;; '(ty, _) <- st_lift (next_tok t4) ;; rd_gate l ty gs os) D
  (res_bind (rd_nums t3 m) (fun '(os, t4) => res_bind (next_tok t4) (fun '(ty, _) => chk_gate D ty (N.of_nat (List.length gs)) os))).
Proof. apply as_lift; [apply rd_nums_total|]. intros [os t4] _. apply as_lift; [apply next_tok_total|]. intros [ty t5] _. apply as_gate. Qed.
Lemma as_map {A} (f : gmap N N -> RM A) D r : (forall gw, dom gw = D -> as_check (f gw) D r) -> as_check (st_bind rd_map f) D r.
Proof. intros H gw h K E. exact (H gw E gw h K E). Qed.
Lemma as_line toks D : as_check (rd_line l toks) D (chk_line D toks).
Proof.
  unfold rd_line, chk_line. apply as_lift; [apply next_num_total|]. intros [n t1] _. apply as_lift; [apply next_num_total|]. intros [m t2] _.
  apply as_map. intros gw E. pose proof (operands_check gw t2 n) as H. rewrite E in H.
  destruct (rd_operands gw t2 n) as [[gs t3]|e|p|]; [destruct H as [-> Hn]|rewrite H; by intros gw2 h2 K2 E2..|done]. subst n. exact (as_tail t3 m gs D).
Qed.
Lemma as_lines : forall ls D, as_check (rd_lines l ls) D (chk_lines D ls).
Proof.
  induction ls as [|x ls IH]; intros D; cbn [rd_lines chk_lines]; [apply as_ret|]. destruct (String.eqb x ""); [apply as_ret|].
  apply as_bind; [apply as_line|]. intros D' a _. apply IH.
Qed.
Lemma outputs_check : forall k w gw h, knows h l gw -> fst (rd_outputs l k w (gw, h)) = chk_outputs (dom gw) k w.
Proof.
  induction k as [|k IH]; intros w gw h K; [done|]. cbn [rd_outputs chk_outputs]. unfold st_bind at 1, rd_map. cbn [fst]. destruct (gw !! w) as [g|] eqn:Eg.
  - rewrite decide_True by (by apply elem_of_dom_2 in Eg). destruct K as (c & Ec & K). unfold st_bind, rd_h. cbn [fst snd].
    destruct (r_output_cases h l c Ec g) as [[Hn _]|(c' & -> & P)]; [by destruct (K _ _ Eg) as [? ?]; congruence|]. apply IH. exists c'. split; [by eapply upd_lookup|].
    intros w' g' H. destruct (K _ _ H) as [gt Hgt]. exists gt. by rewrite (po_eq _ _ _ P).
  - rewrite decide_False; [done|]. by apply not_elem_of_dom.
Qed.
Lemma next_line_total n ls : next_line n ls <> NoFuel. Proof. by destruct ls. Qed.
Definition ends_as (m : RM unit) (D : gset N) (r : res unit) : Prop := forall gw h, knows h l gw -> dom gw = D -> fst (m (gw, h)) = r.
Lemma ends_bind {A} (m : RM A) (f : A -> RM unit) D r r' : as_check m D r -> (forall D' a, r = Ok D' -> ends_as (f a) D' (r' D')) -> ends_as (st_bind m f) D (res_bind r r').
Proof.
  intros Hm Hf gw h K E. specialize (Hm gw h K E). unfold st_bind. destruct r as [D'|e|p|]; cbn [res_bind].
  - destruct Hm as (a & gw' & h' & -> & K' & E'). by apply (Hf D' a).
  - destruct (m (gw, h)) as [rr s]. cbn in Hm. by subst rr.
  - destruct (m (gw, h)) as [rr s]. cbn in Hm. by subst rr.
  - done.
Qed.
Lemma ends_lift {A} (x : res A) (f : A -> RM unit) D r : (forall a, x = Ok a -> ends_as (f a) D (r a)) -> ends_as (st_bind (st_lift x) f) D (res_bind x r).
Proof. intros Hf gw h K E. unfold st_bind, st_lift. destruct x as [a|e|p|]; cbn; [by apply Hf|done..]. Qed.
Theorem read_check md text gw h : knows h l gw -> fst (read md l text (gw, h)) = check md (dom gw) text.
Proof.
  intros K. assert (ends_as (read md l text) (dom gw) (check md (dom gw) text)) as H; [|by apply H]. clear K. generalize (dom gw : gset N). intros D. unfold read, check.
  apply ends_lift. intros [l1 ls] _. apply ends_lift. intros [ng ts] _. apply ends_lift. intros [nw ts1] _. apply ends_lift. intros [l2 ls2] _. apply ends_lift. intros [ni ts2] _.
  apply ends_bind; [apply as_groups|]. intros D1 _ _. apply ends_lift. intros [l3 ls3] _. apply ends_lift. intros [no ts3] _. apply ends_lift. intros osum _.
  apply ends_lift. intros [l4 ls4] _. apply ends_bind; [apply as_lines|]. intros D2 _ _. apply ends_lift. intros lo _.
  intros gw2 h2 K2 E2. subst D2. by apply outputs_check.
Qed.
End run.

(** * The causes, on the check *)
Lemma elem_chk_inputs k : forall D w x, x ∈ chk_inputs D k w <-> x ∈ D \/ w <= x < w + N.of_nat k.
Proof. induction k as [|k IH]; intros D w x; cbn [chk_inputs]; [|rewrite IH, elem_of_union, elem_of_singleton]; destruct (decide (x ∈ D)); split; intros; repeat destruct_or?; try tauto; try (right; lia); try lia. Qed.
Definition parse_fails (t : string) (k : int_error) : Prop := num_value t = None /\ parse_usize t = Err (EParseInt k).
Lemma parse_cases t : (exists n, num_value t = Some n /\ parse_usize t = Ok n) \/ exists k, parse_usize t = Err (EParseInt k) /\ parse_fails t k.
Proof.
  destruct (num_value t) as [n|] eqn:E; [left; exists n; split; [done|by apply parse_usize_value]|right]. destruct (C23_rejects t E) as [k H]. by exists k.
Qed.
Definition bad_token (toks : list string) (k : int_error) : Prop := exists t, t ∈ toks /\ parse_fails t k.
Lemma bad_cons t ts k : bad_token ts k -> bad_token (t :: ts) k. Proof. intros (u & H & P). exists u. split; [by right|done]. Qed.
Lemma bad_here t ts k : parse_fails t k -> bad_token (t :: ts) k. Proof. intros P. exists t. split; [by left|done]. Qed.
Lemma groups_cause : forall toks k s D, match chk_groups D toks k s with
  | Ok D' => exists ns, N.of_nat (List.length ns) = k /\ mapM num_value (take (List.length ns) toks) = Some ns /\ forall x, x ∈ D' <-> x ∈ D \/ s <= x < s + nsum ns
  | Err ELineSplit => N.of_nat (List.length toks) < k | Err (EParseInt e) => bad_token toks e | _ => False end.
Proof.
  induction toks as [|t ts IH]; intros k s D; cbn [chk_groups]; destruct (N.eqb_spec k 0) as [->|Hk].
  1,3: exists []; cbn; split; [done|]; split; [done|]; intros x; split; [by left|intros [?|?]; [done|lia]].
  - cbn. lia.
  - destruct (parse_cases t) as [(n & Hn & ->)|(e & -> & P)]; cbn [res_bind]; [|by apply bad_here].
    specialize (IH (k - 1) (s + n) (chk_inputs D (N.to_nat n) s)). destruct (chk_groups _ ts (k - 1) (s + n)) as [D'|[]|p|]; try done; [|by cbn [List.length]; lia|by apply bad_cons].
    destruct IH as (ns & Hl & Hm & Hx). exists (n :: ns). cbn [List.length take mapM nsum]. split; [lia|]. rewrite Hn. cbn [mbind option_bind]. rewrite Hm. split; [done|].
    intros x. rewrite Hx, elem_chk_inputs. replace (nsum (n :: ns)) with (n + nsum ns) by done. split; intros; repeat destruct_or?; try tauto; try (right; lia).
    destruct (decide (x < s + n)); [left; right; lia|right; lia].
Qed.
Lemma operands_cause D : forall toks k, match chk_operands D toks k with
  | Ok r => r = drop (N.to_nat k) toks /\ k <= N.of_nat (List.length toks)
  | Err ELineSplit => N.of_nat (List.length toks) < k | Err (EParseInt e) => bad_token toks e
  | Err (EUnknownWire w) => w ∉ D /\ exists i t, N.of_nat i < k /\ toks !! i = Some t /\ num_value t = Some w
  | _ => False end.
Proof.
  induction toks as [|t ts IH]; intros k; cbn [chk_operands]; destruct (N.eqb_spec k 0) as [->|Hk].
  1,3: split; [done|cbn; lia].
  - cbn. lia.
  - destruct (parse_cases t) as [(n & Hn & ->)|(e & -> & P)]; cbn [res_bind]; [|by apply bad_here].
    destruct (decide (n ∈ D)) as [Hd|Hd]; [|split; [done|]; exists 0%nat, t; split; [lia|done]].
    specialize (IH (k - 1)). destruct (chk_operands D ts (k - 1)) as [r|[]|p|]; try done.
    + destruct IH as [-> IH]. replace (N.to_nat k) with (S (N.to_nat (k - 1))) by lia. split; [done|]. cbn [List.length]. lia.
    + cbn [List.length]. lia.
    + destruct IH as (Hw & i & u & Hi & Hu). split; [done|]. exists (S i), u. split; [lia|done].
    + by apply bad_cons.
Qed.
Lemma nums_cause : forall toks k, match rd_nums toks k with
  | Ok _ => True | Err ELineSplit => N.of_nat (List.length toks) < k | Err (EParseInt e) => bad_token toks e | _ => False end.
Proof.
  induction toks as [|t ts IH]; intros k; cbn [rd_nums]; destruct (N.eqb_spec k 0) as [->|Hk]; try done.
  - cbn. lia.
  - destruct (parse_cases t) as [(n & Hn & ->)|(e & -> & P)]; cbn [res_bind]; [|by apply bad_here].
    specialize (IH (k - 1)). destruct (rd_nums ts (k - 1)) as [[]|[]|p|]; try done; [cbn [res_bind List.length] in *; lia|by apply bad_cons].
Qed.
Lemma sum_cause md : forall toks k s, s < 2 ^ 64 -> match rd_sum md toks k s with
  | Ok n => n < 2 ^ 64 /\ exists ns, N.of_nat (List.length ns) = k /\ mapM num_value (take (List.length ns) toks) = Some ns /\ (md = Debug -> n = s + nsum ns)
  | Err ELineSplit => N.of_nat (List.length toks) < k | Err (EParseInt e) => bad_token toks e
  | Panic PArith => md = Debug /\ exists ns, N.of_nat (List.length ns) <= k /\ mapM num_value (take (List.length ns) toks) = Some ns /\ 2 ^ 64 <= s + nsum ns
  | _ => False end.
Proof.
  induction toks as [|t ts IH]; intros k s Hs; cbn [rd_sum]; destruct (N.eqb_spec k 0) as [->|Hk].
  1,3: split; [done|]; exists []; cbn; split; [done|]; split; [done|]; lia.
  - cbn. lia.
  - destruct (parse_cases t) as [(n & Hn & ->)|(e & -> & P)]; cbn [res_bind]; [|by apply bad_here]. unfold usize_add. change usize_modulus with (2 ^ 64).
    assert (forall s', s' < 2 ^ 64 -> (md = Debug -> s' = s + n) -> match rd_sum md ts (k - 1) s' with
      | Ok n => n < 2 ^ 64 /\ exists ns, N.of_nat (List.length ns) = k /\ mapM num_value (take (List.length ns) (t :: ts)) = Some ns /\ (md = Debug -> n = s + nsum ns)
      | Err ELineSplit => N.of_nat (List.length (t :: ts)) < k | Err (EParseInt e) => bad_token (t :: ts) e
      | Panic PArith => md = Debug /\ exists ns, N.of_nat (List.length ns) <= k /\ mapM num_value (take (List.length ns) (t :: ts)) = Some ns /\ 2 ^ 64 <= s + nsum ns
      | _ => False end) as H.
    { intros s' Hs' Hd. specialize (IH (k - 1) s' Hs'). destruct (rd_sum md ts (k - 1) s') as [r|[]|[]|]; try done; [|cbn [List.length]; lia|by apply bad_cons|].
      - destruct IH as (Hr & ns & Hl & Hm & Hx). split; [done|]. exists (n :: ns). cbn [List.length take mapM]. split; [lia|]. rewrite Hn. cbn [mbind option_bind]. rewrite Hm. split; [done|].
        intros Hmd. rewrite (Hx Hmd), (Hd Hmd). change (nsum (n :: ns)) with (n + nsum ns). lia.
      - destruct IH as (Hmd & ns & Hl & Hm & Hx). split; [done|]. exists (n :: ns). cbn [List.length take mapM]. split; [lia|]. rewrite Hn. cbn [mbind option_bind]. rewrite Hm. split; [done|].
        rewrite (Hd Hmd) in Hx. change (nsum (n :: ns)) with (n + nsum ns). lia. }
    destruct (N.ltb_spec (s + n) (2 ^ 64)) as [Hlt|Hge]; cbn [res_bind]; [by apply H|]. destruct md; cbn [res_bind].
    + split; [done|]. exists [n]. cbn [List.length take mapM]. rewrite Hn. split; [lia|]. split; [by destruct ts|]. change (nsum [n]) with (n + 0). lia.
    + apply H; [|done]. apply N.mod_lt. done.
Qed.
Lemma next_num_cause toks : match next_num toks with
  | Ok (n, r) => exists t, toks = t :: r /\ num_value t = Some n | Err ELineSplit => toks = [] | Err (EParseInt e) => bad_token toks e | _ => False end.
Proof.
  destruct toks as [|t ts]; [done|]. unfold next_num. cbn [next_tok res_bind]. destruct (parse_cases t) as [(n & Hn & ->)|(e & -> & P)]; cbn [res_bind]; [by exists t|by apply bad_here].
Qed.
Lemma counts_fun x n m r n' m' r' : counts x n m r -> counts x n' m' r' -> n = n' /\ m = m' /\ r = r'.
Proof. intros (a & b & E & Ha & Hb) (a' & b' & E' & Ha' & Hb'). rewrite E in E'. injection E' as <- <- <-. rewrite Ha in Ha'. rewrite Hb in Hb'. by simplify_eq. Qed.
Lemma defines_fun x w w' : defines x w -> defines x w' -> w = w'.
Proof.
  intros (n & m & r & t & C & Hm & Hr & Hw) (n' & m' & r' & t' & C' & Hm' & Hr' & Hw'). destruct (counts_fun _ _ _ _ _ _ _ C C') as (-> & -> & ->). rewrite Hr in Hr'. injection Hr' as ->.
  rewrite Hw in Hw'. by injection Hw'.
Qed.
Lemma line_cause D x : match chk_line D (tokens x) with
  | Ok D' => exists w, defines x w /\ D' = {[w]} ∪ D
  | Err ELineSplit => short_gate x | Err (EParseInt e) => bad_token (tokens x) e
  | Err (EUnknownWire w) => uses x w /\ w ∉ D
  | Err (ENotSupportedGate ty) => needs ty = None /\ exists n m, named x n m ty
  | Panic PIndex => exists n m ty k, named x n m ty /\ needs ty = Some k /\ (n < k \/ m = 0)
  | _ => False end.
Proof.
  unfold chk_line. pose proof (next_num_cause (tokens x)) as H1. destruct (next_num (tokens x)) as [[n t1]|[]|p|]; cbn [res_bind]; try done; [|left; rewrite H1; cbn; lia].
  destruct H1 as (a & E & Ha). pose proof (next_num_cause t1) as H2. destruct (next_num t1) as [[m rest]|[]|p|]; cbn [res_bind]; try done.
  2: { subst t1. left. rewrite E. cbn. lia. }
  2: { rewrite E. by apply bad_cons. }
  destruct H2 as (b & -> & Hb). assert (counts x n m rest) as C by (by exists a, b).
  pose proof (operands_cause D rest n) as H3. destruct (chk_operands D rest n) as [t3|[]|p|]; cbn [res_bind]; try done.
  2: { right. exists n, m, rest. split; [done|lia]. }
  2: { destruct H3 as (Hw & i & t & Hi & Ht & Hv). split; [|done]. by exists n, m, rest, i, t. }
  2: { rewrite E. by do 2 apply bad_cons. }
  destruct H3 as [-> Hl]. pose proof (nums_cause (drop (N.to_nat n) rest) m) as H4. destruct (rd_nums (drop (N.to_nat n) rest) m) as [[os t4]|[]|p|] eqn:En; cbn [res_bind]; try done.
  2: { right. exists n, m, rest. split; [done|]. rewrite drop_length in H4. lia. }
  2: { destruct H4 as (t & Ht & P). exists t. split; [|done]. rewrite E. do 2 right. rewrite <- (take_drop (N.to_nat n) rest). apply elem_of_app. by right. }
  apply rd_nums_ok in En as (Hm & Ho & ->). rewrite drop_length in Hm. rewrite drop_drop.
  destruct (drop (N.to_nat n + N.to_nat m) rest) as [|ty t5] eqn:Et; cbn [next_tok res_bind].
  { right. exists n, m, rest. split; [done|]. apply (f_equal List.length) in Et. rewrite drop_length in Et. cbn in Et. lia. }
  assert (named x n m ty) as Hty.
  { exists rest. split; [done|]. replace (N.to_nat (n + m)) with (N.to_nat n + N.to_nat m + 0)%nat by lia. rewrite <- lookup_drop, Et. done. }
  unfold chk_gate. destruct (needs ty) as [k|] eqn:Ek; [|by split; [|exists n, m]]. destruct (N.ltb_spec n k) as [Hk|Hk]; [exists n, m, ty, k; split; [done|]; split; [done|by left]|].
  destruct os as [|o os].
  - exists n, m, ty, k. split; [done|]. split; [done|]. right. apply mapM_length in Ho. rewrite take_length, drop_length in Ho. cbn in Ho. lia.
  - exists o. split; [|done]. assert (0 < m) as Hpos. { apply mapM_length in Ho. rewrite take_length, drop_length in Ho. cbn in Ho. lia. }
    destruct (N.to_nat m) as [|m'] eqn:Em; [lia|]. destruct (drop (N.to_nat n) rest) as [|t r'] eqn:Ed; [done|]. cbn [take mapM] in Ho.
    destruct (num_value t) as [o'|] eqn:Hv; [|done]. cbn [mbind option_bind] in Ho. destruct (mapM num_value (take m' r')); [|done]. injection Ho as <- <-.
    exists n, m, rest, t. split; [done|]. split; [done|]. split; [|done]. replace (N.to_nat n) with (N.to_nat n + 0)%nat by lia. by rewrite <- lookup_drop, Ed.
Qed.
Lemma lines_cause : forall ls D, match chk_lines D ls with
  | Ok D' => forall w, w ∈ D' <-> w ∈ D \/ exists y, y ∈ upto_empty ls /\ defines y w
  | Err ELineSplit => exists x, x ∈ upto_empty ls /\ short_gate x | Err (EParseInt e) => exists x, x ∈ upto_empty ls /\ bad_token (tokens x) e
  | Err (EUnknownWire w) => exists i x, upto_empty ls !! i = Some x /\ uses x w /\ w ∉ D /\ forall y, y ∈ take i (upto_empty ls) -> ~ defines y w
  | Err (ENotSupportedGate ty) => needs ty = None /\ exists x n m, x ∈ upto_empty ls /\ named x n m ty
  | Panic PIndex => exists x n m ty k, x ∈ upto_empty ls /\ named x n m ty /\ needs ty = Some k /\ (n < k \/ m = 0)
  | _ => False end.
Proof.
  induction ls as [|x ls IH]; intros D; cbn [chk_lines upto_empty].
  { intros w. split; [by left|]. intros [?|(y & Hy & _)]; [done|by apply elem_of_nil in Hy]. }
  destruct (String.eqb x "").
  { intros w. split; [by left|]. intros [?|(y & Hy & _)]; [done|by apply elem_of_nil in Hy]. }
  pose proof (line_cause D x) as H. destruct (chk_line D (tokens x)) as [D1|[]|[]|]; cbn [res_bind]; try done.
  - destruct H as (w1 & H1 & ->). specialize (IH ({[w1]} ∪ D)). destruct (chk_lines ({[w1]} ∪ D) ls) as [D'|[]|[]|]; try done.
    + intros w. rewrite IH, elem_of_union, elem_of_singleton. split.
      * intros [[->|?]|(y & Hy & Hd)]; [right; exists x; split; [by left|done]|by left|right; exists y; split; [by right|done]].
      * intros [?|(y & [->|Hy]%elem_of_cons & Hd)]; [by left; right|left; left; by eapply defines_fun|right; by exists y].
    + destruct IH as (y & Hy & Hs). exists y. split; [by right|done].
    + destruct IH as (i & y & Hy & Hu & Hn & Hd). exists (S i), y. split; [done|]. split; [done|]. rewrite elem_of_union, elem_of_singleton in Hn.
      split; [by intros ?; apply Hn; right|]. cbn [take]. intros z [->|Hz]%elem_of_cons; [|by apply Hd]. intros Hw. apply Hn. left. by eapply defines_fun.
    + destruct IH as (Hn & y & n & m & Hy & Hs). split; [done|]. exists y, n, m. split; [by right|done].
    + destruct IH as (y & Hy & Hs). exists y. split; [by right|done].
    + destruct IH as (y & n & m & ty & k & Hy & Hs). exists y, n, m, ty, k. split; [by right|done].
  - exists x. split; [by left|done].
  - destruct H as [H Hn]. exists 0%nat, x. split; [done|]. split; [done|]. split; [done|]. intros y Hy. by apply elem_of_nil in Hy.
  - destruct H as (Hn & n & m & H). split; [done|]. exists x, n, m. split; [by left|done].
  - exists x. split; [by left|done].
  - destruct H as (n & m & ty & k & H). exists x, n, m, ty, k. split; [by left|done].
Qed.
Lemma outputs_cause D : forall k w, match chk_outputs D k w with
  | Ok _ => True | Panic PKey => exists w', w <= w' < w + N.of_nat k /\ w' ∉ D | _ => False end.
Proof.
  induction k as [|k IH]; intros w; cbn [chk_outputs]; [done|]. destruct (decide (w ∈ D)) as [Hw|Hw]; [|exists w; split; [lia|done]].
  specialize (IH (w + 1)). destruct (chk_outputs D k (w + 1)) as [|[]|[]|]; try done. destruct IH as (w' & Hr & Hn). exists w'. split; [lia|done].
Qed.

(** * The theorems *)
(** What is wrong with the text, by the way the reading ends. *)
Definition blame (md : mode) (text : string) (gw : gmap N N) (r : res unit) : Prop :=
  let top := take 3 (lines text) in let gates := gate_lines text in
  match r with
  | Ok _ => True
  | Err (ENotFoundLine n) => 1 <= n <= 4 /\ N.of_nat (List.length (lines text)) = n - 1
  | Err ELineSplit => (exists x, lines text !! 0%nat = Some x /\ (List.length (tokens x) < 2)%nat) \/
      (exists i x, lines text !! i = Some x /\ (i = 1 \/ i = 2)%nat /\ short_group x) \/ (exists x, x ∈ gates /\ short_gate x)
  | Err (EParseInt e) => exists x, x ∈ top ++ gates /\ bad_token (tokens x) e
  | Err (EUnknownWire w) => exists i x, gates !! i = Some x /\ uses x w /\ unknown text gw (take i gates) w
  | Err (ENotSupportedGate ty) => needs ty = None /\ exists x n m, x ∈ gates /\ named x n m ty
  | Panic PIndex => exists x n m ty k, x ∈ gates /\ named x n m ty /\ needs ty = Some k /\ (n < k \/ m = 0)
  | Panic PKey => exists x a b rest nw w, lines text !! 0%nat = Some x /\ tokens x = a :: b :: rest /\ num_value b = Some nw /\ w < nw /\ unknown text gw gates w
  | Panic PArith => md = Debug /\ exists x a b rest nw y c outs ns, lines text !! 0%nat = Some x /\ tokens x = a :: b :: rest /\ num_value b = Some nw /\
      lines text !! 2%nat = Some y /\ tokens y = c :: outs /\ mapM num_value (take (List.length ns) outs) = Some ns /\ nw < nsum ns
  | _ => False
  end.
Lemma check_cause md gw text : blame md text gw (check md (dom gw) text).
Proof.
  unfold check, blame, gate_lines, unknown, declares. destruct (lines text) as [|l1 ls]; cbn [next_line res_bind]; [cbn; lia|].
  pose proof (next_num_cause (tokens l1)) as H1. destruct (next_num (tokens l1)) as [[ng ts]|[]|p|]; cbn [res_bind]; try done.
  2: { left. exists l1. split; [done|]. rewrite H1. cbn. lia. }
  2: { exists l1. split; [by left|done]. }
  destruct H1 as (a & E1 & _). pose proof (next_num_cause ts) as H2. destruct (next_num ts) as [[nw ts1]|[]|p|]; cbn [res_bind]; try done.
  2: { left. exists l1. split; [done|]. rewrite E1, H2. cbn. lia. }
  2: { exists l1. split; [by left|]. rewrite E1. by apply bad_cons. }
  destruct H2 as (b & -> & Hb). destruct ls as [|l2 ls]; cbn [next_line res_bind]; [cbn; lia|].
  pose proof (next_num_cause (tokens l2)) as H3. destruct (next_num (tokens l2)) as [[ni ts2]|[]|p|]; cbn [res_bind]; try done.
  2: { right. left. exists 1%nat, l2. split; [done|]. split; [by left|by left]. }
  2: { exists l2. split; [right; by left|done]. }
  destruct H3 as (a2 & E2 & Hni). pose proof (groups_cause ts2 ni 0 (dom gw)) as H4. destruct (chk_groups (dom gw) ts2 ni 0) as [D1|[]|p|]; cbn [res_bind]; try done.
  2: { right. left. exists 1%nat, l2. split; [done|]. split; [by left|]. right. by exists a2, ts2, ni. }
  2: { exists l2. split; [right; by left|]. rewrite E2. by apply bad_cons. }
  destruct H4 as (ns & <- & Hns & HD1).
  assert (group l2 ns) as Hg by (by exists a2, ts2).
  destruct ls as [|l3 ls]; cbn [next_line res_bind]; [cbn; lia|].
  pose proof (next_num_cause (tokens l3)) as H5. destruct (next_num (tokens l3)) as [[no ts3]|[]|p|]; cbn [res_bind]; try done.
  2: { right. left. exists 2%nat, l3. split; [done|]. split; [by right|by left]. }
  2: { exists l3. split; [do 2 right; by left|done]. }
  destruct H5 as (a3 & E3 & Hno). pose proof (sum_cause md ts3 no 0 ltac:(done)) as H6. destruct (rd_sum md ts3 no 0) as [osum|[]|[]|]; cbn [res_bind]; try done.
  2: { right. left. exists 2%nat, l3. split; [done|]. split; [by right|]. right. by exists a3, ts3, no. }
  2: { exists l3. split; [do 2 right; by left|]. rewrite E3. by apply bad_cons. }
  2: { destruct H6 as (Hmd & os & _ & Hos & Hlt). split; [done|]. exists l1, a, b, ts1, nw, l3, a3, ts3, os. repeat (split; [done|]).
       assert (nw < 2 ^ 64); [|lia]. unfold num_value in Hb. destruct (_ && (_ <? 2 ^ 64)) eqn:Eb in Hb; [|done]. injection Hb as <-. apply andb_prop in Eb as [_ Eb]. by apply N.ltb_lt. }
  destruct H6 as (Hos & os & Hlo & Hmo & Hso). destruct ls as [|l4 ls]; cbn [next_line res_bind]; [cbn; lia|]. cbn [drop].
  assert (forall w, w ∉ D1 -> (exists k, (exists x ns, (l1 :: l2 :: l3 :: l4 :: ls) !! 1%nat = Some x /\ group x ns /\ k = nsum ns) /\ k <= w) /\ gw !! w = None) as Hun.
  { intros w Hw. split; [exists (nsum ns); split; [by exists l2, ns|]|].
    - destruct (N.le_gt_cases (nsum ns) w) as [|Hlt]; [done|]. destruct Hw. apply HD1. right. lia.
    - apply not_elem_of_dom. intros Hin. apply Hw, HD1. by left. }
  pose proof (lines_cause ls D1) as H7. destruct (chk_lines D1 ls) as [D2|[]|[]|]; cbn [res_bind]; try done.
  2: { do 2 right. done. }
  2: { destruct H7 as (i & x & Hx & Hu & Hw & Hd). exists i, x. split; [done|]. split; [done|]. destruct (Hun _ Hw) as [? ?]. by split. }
  2: { destruct H7 as (x & Hx & Hbad). exists x. split; [|done]. apply elem_of_app. by right. }
  unfold usize_sub. destruct (N.leb_spec osum nw) as [Hle|Hgt]; cbn [res_bind].
  2: { destruct md; cbn [res_bind].
    - split; [done|]. exists l1, a, b, ts1, nw, l3, a3, ts3, os. repeat (split; [done|]). specialize (Hso eq_refl). lia.
    - replace (nw - (usize_modulus + nw - osum)) with 0 by (change usize_modulus with (2 ^ 64); lia). done. }
  pose proof (outputs_cause D2 (N.to_nat (nw - (nw - osum))) (nw - osum)) as H8. destruct (chk_outputs D2 _ _) as [|[]|[]|]; try done.
  destruct H8 as (w & Hw & Hn). exists l1, a, b, ts1, nw, w. split; [done|]. split; [done|]. split; [done|]. split; [lia|].
  destruct (Hun w) as [? ?]; [intros Hin; apply Hn, H7; by left|]. split; [done|]. split; [done|]. intros y Hy Hd. apply Hn, H7. right. by exists y.
Qed.

(** A reading ends in one of these ways, and for each there is the cause in the text. *)
Theorem C85_cause md l text gw h r s : knows h l gw -> read md l text (gw, h) = (r, s) -> blame md text gw r.
Proof. intros K E. pose proof (read_check l md text gw h K) as H. rewrite E in H. cbn in H. subst r. apply check_cause. Qed.
(** How it ends depends on the text, the build mode and the wires the reader knows; neither on the circuit nor on the gates of these wires. *)
Theorem C85_same md text l gw h l' gw' h' : knows h l gw -> knows h' l' gw' -> (forall w, is_Some (gw !! w) <-> is_Some (gw' !! w)) ->
  fst (read md l text (gw, h)) = fst (read md l' text (gw', h')).
Proof. intros K K' H. rewrite !read_check by done. f_equal. apply set_eq. intros w. rewrite !elem_of_dom. apply H. Qed.
(** A build without overflow checks ends the same way unless the checked one panics with an overflow. *)
Lemma sum_modes : forall toks k s, rd_sum Debug toks k s <> Panic PArith -> rd_sum Release toks k s = rd_sum Debug toks k s.
Proof.
  induction toks as [|t ts IH]; intros k s H; cbn [rd_sum] in *; destruct (k =? 0); try done. destruct (parse_usize t) as [n|e|p|]; try done. cbn [res_bind] in *.
  unfold usize_add in *. destruct (s + n <? usize_modulus); [|done]. cbn [res_bind] in *. by apply IH.
Qed.
Theorem C85_modes l text gw h : knows h l gw -> fst (read Debug l text (gw, h)) <> Panic PArith -> fst (read Release l text (gw, h)) = fst (read Debug l text (gw, h)).
Proof.
  intros K. rewrite !read_check by done. unfold check. destruct (next_line 1 (lines text)) as [[l1 ls]| | |]; cbn [res_bind]; try done.
  destruct (next_num (tokens l1)) as [[ng ts]| | |]; cbn [res_bind]; try done. destruct (next_num ts) as [[nw ts1]| | |]; cbn [res_bind]; try done.
  destruct (next_line 2 ls) as [[l2 ls2]| | |]; cbn [res_bind]; try done. destruct (next_num (tokens l2)) as [[ni ts2]| | |]; cbn [res_bind]; try done.
  destruct (chk_groups (dom gw) ts2 ni 0) as [D1| | |]; cbn [res_bind]; try done. destruct (next_line 3 ls2) as [[l3 ls3]| | |]; cbn [res_bind]; try done.
  destruct (next_num (tokens l3)) as [[no ts3]| | |]; cbn [res_bind]; try done. intros H. rewrite sum_modes by (intros E; apply H; by rewrite E).
  destruct (rd_sum Debug ts3 no 0) as [osum| | |]; cbn [res_bind] in *; try done. destruct (next_line 4 ls3) as [[l4 ls4]| | |]; cbn [res_bind] in *; try done.
  destruct (chk_lines D1 ls4) as [D2| | |]; cbn [res_bind] in *; try done. unfold usize_sub in *. destruct (osum <=? nw); [done|]. by destruct H.
Qed.

(** The condition holds for a new reader on any circuit, and stays true whatever is read and whatever is done with the circuit. *)
Lemma knows_new h l : is_Some (h_circ h !! l) -> knows h l ∅.
Proof. intros [c E]. by exists c. Qed.
Section keep.
Context (l : nat).
Definition keeps {A} (m : RM A) : Prop := forall gw h, knows h l gw -> knows (snd (snd (m (gw, h)))) l (fst (snd (m (gw, h)))).
Lemma keeps_bind {A B} (m : RM A) (f : A -> RM B) : keeps m -> (forall a, keeps (f a)) -> keeps (st_bind m f).
Proof. intros Hm Hf gw h K. unfold st_bind. specialize (Hm gw h K). destruct (m (gw, h)) as [[a|e|p|] [gw' h']]; try done. by apply Hf. Qed.
Lemma keeps_lift {A} (r : res A) : keeps (st_lift r). Proof. by intros gw h K. Qed.
Lemma keeps_ret {A} (a : A) : keeps (st_ret a). Proof. by intros gw h K. Qed.
Lemma keeps_nth {A} (v : list A) i : keeps (st_nth v i). Proof. intros gw h K. unfold st_nth. by destruct (v !! i). Qed.
(** A gate is made, then the wire is looked for, which may fail. *)
Definition makes (m : M N) : Prop := forall h c, h_circ h !! l = Some c -> exists g h' c', m h = (Ok g, h') /\ h_circ h' !! l = Some c' /\ is_Some (gate_map c' !! g) /\
  forall g', is_Some (gate_map c !! g') -> is_Some (gate_map c' !! g').
Lemma keeps_new (m : M N) os : makes m -> keeps (g <- rd_h m ;; o <- st_nth os 0 ;; rd_insert o g).
Proof.
  intros Hm gw h (c & Ec & K). destruct (Hm h c Ec) as (g & h' & c' & E1 & Ec' & Hg & Hmono). unfold st_bind, rd_h, st_nth. cbn [fst snd]. rewrite E1.
  destruct (os !! 0%nat) as [o|]; cbn [fst snd rd_insert]; exists c'; (split; [done|]); intros w' g'; [|intros H; apply Hmono; by eapply K].
  destruct (decide (w' = o)) as [->|Hw]; [rewrite lookup_insert; by intros [= <-]|rewrite lookup_insert_ne by done]. intros H. apply Hmono. by eapply K.
Qed.
Lemma keeps_input w : keeps (g <- rd_h (r_input l) ;; rd_insert w g).
Proof.
  pose proof (keeps_new (r_input l) [w]) as H. apply H. intros h c Ec. destruct (r_input_ok h l c Ec) as (c' & E & P). exists (gate_index c), (upd h l c'), c'.
  split; [done|]. split; [by eapply upd_lookup|]. split; [by eapply push_new|]. intros g'. by apply push_grows with (1 := P).
Qed.
Lemma keeps_inputs : forall k w, keeps (rd_inputs l k w).
Proof.
  induction k as [|k IH]; intros w; [apply keeps_ret|]. cbn [rd_inputs]. intros gw h K.
  assert (forall s, (g <- rd_h (r_input l) ;; rd_insert w g ;; rd_inputs l k (w + 1)) s = st_bind (g <- rd_h (r_input l) ;; rd_insert w g) (fun _ => rd_inputs l k (w + 1)) s) as X.
  { intros s. unfold st_bind. by destruct (rd_h (r_input l) s) as [[]?]. }
  rewrite X. apply keeps_bind; [apply keeps_input|intros _; apply IH|done].
Qed.
Lemma keeps_groups : forall toks k w, keeps (rd_groups l toks k w).
Proof.
  induction toks as [|t ts IH]; intros k w; cbn [rd_groups]; destruct (k =? 0); try apply keeps_ret; [by intros gw h K|].
  apply keeps_bind; [apply keeps_lift|]. intros n. apply keeps_bind; [apply keeps_inputs|]. intros _. apply IH.
Qed.
Lemma keeps_gate ty gs os : keeps (rd_gate l ty gs os).
Proof.
  unfold rd_gate.
  repeat match goal with |- keeps (if ?b then _ else _) => destruct b end; repeat (apply keeps_bind; [apply keeps_nth|intros ?]); try (by intros gw h K); apply keeps_new; intros h c Ec.
  1: destruct (r_not_ok h l c Ec a) as (c' & E & P).
  2: destruct (r_xor_ok h l c Ec a a0) as (c' & E & P).
  3: destruct (r_and_ok h l c Ec a a0) as (c' & E & P).
  4: destruct (r_or_ok h l c Ec a a0) as (c' & E & P).
  1-4: exists (gate_index c), (upd h l c'), c'; (split; [done|]); (split; [by eapply upd_lookup|]); (split; [by eapply push_new|]); intros g'; by apply push_grows with (1 := P).
  destruct (r_identity_ok h l c Ec a) as (c1 & c2 & E & G & P1 & P2).
  exists (gate_index c1), (upd (upd h l c1) l c2), c2. split; [done|]. split; [eapply upd_lookup; by eapply upd_lookup|]. split; [by eapply push_new|].
  intros g Hg. eapply push_grows; [exact P2|]. by eapply push_grows.
Qed.
Lemma keeps_map : keeps rd_map. Proof. by intros gw h K. Qed.
Lemma keeps_lines : forall ls, keeps (rd_lines l ls).
Proof.
  induction ls as [|x ls IH]; cbn [rd_lines]; [apply keeps_ret|]. destruct (String.eqb x ""); [apply keeps_ret|]. apply keeps_bind; [|intros _; apply IH].
  unfold rd_line. apply keeps_bind; [apply keeps_lift|]. intros [n t1]. apply keeps_bind; [apply keeps_lift|]. intros [m t2]. apply keeps_bind; [apply keeps_map|]. intros gw0.
  apply keeps_bind; [apply keeps_lift|]. intros [gs t3]. apply keeps_bind; [apply keeps_lift|]. intros [os t4]. apply keeps_bind; [apply keeps_lift|]. intros [ty t5]. apply keeps_gate.
Qed.
Lemma keeps_outputs : forall k w, keeps (rd_outputs l k w).
Proof.
  induction k as [|k IH]; intros w; cbn [rd_outputs]; [apply keeps_ret|]. apply keeps_bind; [apply keeps_map|]. intros gw0. destruct (gw0 !! w) as [g|]; [|by intros gw h K].
  apply keeps_bind; [|intros _; apply IH]. intros gw h (c & Ec & K). unfold rd_h. cbn [fst snd]. destruct (r_output_cases h l c Ec g) as [[_ ->]|(c' & -> & P)]; [by exists c|].
  exists c'. split; [by eapply upd_lookup|]. cbn [fst]. intros w' g' H. rewrite (po_eq _ _ _ P). by eapply K.
Qed.
Theorem C85_again md text gw h r gw' h' : knows h l gw -> read md l text (gw, h) = (r, (gw', h')) -> knows h' l gw'.
Proof.
  intros K E. assert (keeps (read md l text)) as H; [|specialize (H gw h K); by rewrite E in H]. unfold read.
  apply keeps_bind; [apply keeps_lift|]. intros [l1 ls]. apply keeps_bind; [apply keeps_lift|]. intros [ng ts]. apply keeps_bind; [apply keeps_lift|]. intros [nw ts1].
  apply keeps_bind; [apply keeps_lift|]. intros [l2 ls2]. apply keeps_bind; [apply keeps_lift|]. intros [ni ts2]. apply keeps_bind; [apply keeps_groups|]. intros _.
  apply keeps_bind; [apply keeps_lift|]. intros [l3 ls3]. apply keeps_bind; [apply keeps_lift|]. intros [no ts3]. apply keeps_bind; [apply keeps_lift|]. intros osum.
  apply keeps_bind; [apply keeps_lift|]. intros [l4 ls4]. apply keeps_bind; [apply keeps_lines|]. intros _. apply keeps_bind; [apply keeps_lift|]. intros lo. apply keeps_outputs.
Qed.
End keep.
Theorem C85_calls md l gw h o : hinv h -> knows h l gw -> knows (step md h o) l gw.
Proof.
  intros Hi (c & Ec & K). unfold step. destruct (run_op md o h) as [r h'] eqn:E. destruct (run_op_hinv md h o r h' Hi E) as [_ L].
  destruct (hle_circ _ _ L _ _ Ec) as (c' & Ec' & Lc). exists c'. split; [done|]. intros w g H. destruct (K w g H) as [x Hx]. exists x. eapply lookup_weaken; [exact Hx|apply Lc].
Qed.

(** * Examples *)
Definition reads (ls : list string) : res unit := fst (read_fresh Debug 0 (unlines ls) blank).
Open Scope string_scope.
Example C85_example : knows blank 0 ∅ /\ reads [] = Err (ENotFoundLine 1) /\ reads ["1 3"; "1 1"; "1 1"] = Err (ENotFoundLine 4) /\ reads ["1"] = Err ELineSplit /\
  reads ["1 3"; "2 1"] = Err ELineSplit /\ reads ["1 3"; "1 2"; "1 1"; ""; "2 1 0 1 2"] = Err ELineSplit /\
  reads ["1 3"; "1 2"; "1 1"; ""; "2 1 0 4 2 AND"] = Err (EUnknownWire 4) /\ reads ["1 3"; "1 2"; "1 1"; ""; "2 1 0 1 2 NAND"] = Err (ENotSupportedGate "NAND") /\
  reads ["1 3"; "1 2"; "1 1"; ""; "1 1 0 2 AND"] = Panic PIndex /\ reads ["1 3"; "1 2"; "1 1"; ""] = Panic PKey /\ reads ["1 3"; "1 2"; "1 4"; ""] = Panic PArith /\
  match reads ["1 3"; "1 x"] with Err (EParseInt _) => True | _ => False end.
Proof. split; [apply knows_new; eexists; vm_compute; reflexivity|]. vm_compute. done. Qed.
