(** From the builders' invariants to the evaluator: what a finished module, or a finished circuit of the user, evaluates to. *)
From Verif Require Export Prop_Writer LogicFacts.
Open Scope list_scope.

(** [mid] names, in the storage of the circuit at [l], a circuit with [n_in] inputs and [n_out] outputs which the evaluator, in either build
    mode and with enough fuel for its recursion (the same for all inputs), maps the input bits [bits] to [F bits]. *)
Definition evaluates (h : heap) (l : nat) (n_in n_out : nat) (F : list bool -> list bool) : Prop :=
  inputs_of h l = Ok (N.of_nat n_in) /\ outputs_of h l = Ok (N.of_nat n_out) /\
  forall md, exists depth, forall fuel bits, (depth <= fuel)%nat -> length bits = n_in -> eval_output md h fuel l bits = Ok (F bits).
Definition module_evaluates (h : heap) (l : nat) (mid : N) (n_in n_out : nat) (F : list bool -> list bool) : Prop :=
  exists l', get_module h l mid = Ok l' /\ evaluates h l' n_in n_out F.

Lemma computes_evaluates h l c n_in n_out F : dinv h -> h_circ h !! l = Some c -> input_len c = N.of_nat n_in -> output_len c = N.of_nat n_out ->
  unconsumed h l -> (forall bits, length bits = n_in -> computes h l bits (F bits)) -> evaluates h l n_in n_out F.
Proof.
  intros D E Hi Ho U Hc. split; [unfold inputs_of, on; by rewrite E, Hi|]. split; [unfold outputs_of, on; by rewrite E, Ho|].
  intros md. destruct (eval_complete md h l D (unconsumed_evaluable _ _ U)) as [depth HF]. exists depth. intros fuel bits Hf Hb.
  destruct (HF fuel c bits E Hf) as [outs Eo]; [by rewrite Hb, Hi|]. rewrite Eo. f_equal.
  eapply computes_unique; [eapply eval_sound; [apply D|done]|by apply Hc].
Qed.
Lemma evaluates_eq h l n_in n_out F F' : evaluates h l n_in n_out F -> (forall bits, length bits = n_in -> F bits = F' bits) -> evaluates h l n_in n_out F'.
Proof.
  intros (H1 & H2 & H3) HF. split; [done|]. split; [done|]. intros md. destruct (H3 md) as [d Hd]. exists d. intros fuel bits Hf Hb.
  rewrite <- HF by done. by apply Hd.
Qed.
Lemma mspec_evaluates p h l mid n_in n_out F : dinv h -> mspec p h l mid n_in n_out F -> module_evaluates h l mid n_in n_out F.
Proof.
  intros D (c & x & l' & m & E & S & Hm & Hne & Hnp & E' & Hi & Ho & Hw & Hu & Hc). exists l'. split.
  - unfold get_module, r_get_module, get_circ, get_stor, st_bind. simpl. rewrite E. simpl. rewrite S. simpl. by rewrite Hm.
  - by eapply computes_evaluates.
Qed.
Lemma bs_evaluates p h l (n_in n_out : nat) os G F : bs p h l (N.of_nat n_in) os -> gfs h l os G -> Forall (free h l) os -> length os = n_out ->
  (forall bits, length bits = n_in -> G (wires bits) = F bits) -> evaluates h l n_in n_out F.
Proof.
  intros B Fo Ff Hlo HG. pose proof (bs_unconsumed _ _ _ _ _ B Ff) as U. pose proof B as [c B']. destruct (bs_o _ _ _ _ _ _ B') as [Ho _].
  eapply computes_evaluates; [apply B'|apply B'|apply B'|by rewrite Ho, Hlo|done|]. intros bits Hb. rewrite <- HG by done.
  eapply bs_computes; [exact B|done|by rewrite Hb].
Qed.

(** A new circuit, which no circuit calls. *)
Record fresh (h : heap) (l : nat) : Prop := {
  fr_d : dinv h;
  fr_c : exists st, h_circ h !! l = Some (circuit_new st);
  fr_u : uncalled h l;
}.
Lemma fresh_base h l : fresh h l -> base h l.
Proof. intros [D [st E] U]. split; [done|eauto]. Qed.
Lemma fresh_bs h l : fresh h l -> bs l h l 0 [].
Proof.
  intros [D [st E] U]. exists (circuit_new st). split; [split; eauto|done|done| |  |done].
  - split; [done|]. intros k g Hk. done.
  - intros l' (g & il & ol & ids & oi & mid & x & G & _). done.
Qed.
(** The first circuit of a run, in which other circuits may follow. *)
Lemma fresh_run md ops l st : disciplined md heap_empty ops -> h_circ (run md ops) !! l = Some (circuit_new st) -> uncalled (run md ops) l -> fresh (run md ops) l.
Proof. intros D E U. split; [by apply dinv_run|eauto|done]. Qed.
Lemma uncalled_fresh_storage h l st : h_circ h = [circuit_new st] -> uncalled h l.
Proof. intros E l1 c1 E1 (g & il & ol & ids & oi & mid & x & G & _). rewrite E in E1. destruct l1; [injection E1 as <-|]; done. Qed.
Definition blank1 : heap := run Debug [OpNewStorage; OpNewCircuit 0].
Lemma fresh_blank1 : fresh blank1 0.
Proof.
  split; [apply dinv_run, disciplined_b_sound; vm_compute; done|exists O; by vm_compute|]. apply (uncalled_fresh_storage _ _ 0). by vm_compute.
Qed.
