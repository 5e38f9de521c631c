(** C56: the shipped AES-128 circuit. *)
From Verif Require Import Netlist AesCheck ZBits Net_aes128 Cert_aes128 Prop_Arith64.
Open Scope N_scope.
Open Scope list_scope.

(** [build_aes128]: /repo/src/circuits/cryptography/mod.rs 16. *)
Definition build_aes128 (md : mode) : nat -> heap -> res unit * heap := build_from_bristol md aes128.

Lemma aes128_keys : let T := gate_tree aes128_gates in
  key_round_ok T aes128_K0 aes128_K1 1 aes128_key0 && key_round_ok T aes128_K1 aes128_K2 2 aes128_key1 && key_round_ok T aes128_K2 aes128_K3 4 aes128_key2 &&
  key_round_ok T aes128_K3 aes128_K4 8 aes128_key3 && key_round_ok T aes128_K4 aes128_K5 16 aes128_key4 && key_round_ok T aes128_K5 aes128_K6 32 aes128_key5 &&
  key_round_ok T aes128_K6 aes128_K7 64 aes128_key6 && key_round_ok T aes128_K7 aes128_K8 128 aes128_key7 && key_round_ok T aes128_K8 aes128_K9 27 aes128_key8 &&
  key_round_ok T aes128_K9 aes128_K10 54 aes128_key9 = true.
Proof. vm_compute. reflexivity. Qed.
Lemma aes128_rounds : let T := gate_tree aes128_gates in
  first_round_ok T (wires 0 16) aes128_K0 aes128_B1 aes128_round1 && mid_round_ok T aes128_B1 aes128_K1 aes128_B2 aes128_round2 &&
  mid_round_ok T aes128_B2 aes128_K2 aes128_B3 aes128_round3 && mid_round_ok T aes128_B3 aes128_K3 aes128_B4 aes128_round4 &&
  mid_round_ok T aes128_B4 aes128_K4 aes128_B5 aes128_round5 && mid_round_ok T aes128_B5 aes128_K5 aes128_B6 aes128_round6 &&
  mid_round_ok T aes128_B6 aes128_K6 aes128_B7 aes128_round7 && mid_round_ok T aes128_B7 aes128_K7 aes128_B8 aes128_round8 &&
  mid_round_ok T aes128_B8 aes128_K8 aes128_B9 aes128_round9 && last_round_ok T aes128_B9 aes128_K9 aes128_K10 (wires 33744 16) aes128_round10 = true.
Proof. vm_compute. reflexivity. Qed.
(** The wires that carry the given key: the input wires, and some wires that negate one. *)
Definition alias_ok (T : ptree cg) (w : N) (l : N * bool) : bool :=
  let '(x, p) := l in if p then match tget T x with Some (CI q _) => q =? w | _ => false end else x =? w.
Definition aliases_ok (T : ptree cg) (a : N) (W : list (list bitw)) : bool :=
  (length W =? 16)%nat && forallb (fun ws => (length ws =? 8)%nat) W && forallb (fun '(w, ls) => forallb (alias_ok T w) ls) (combine (nseq a 128) (concat W)).
Lemma aliases_sound v T a s W : tree_sat v T -> length s = 16%nat -> map v (nseq a 128) = bytes_bits s -> aliases_ok T a W = true -> knows v s W.
Proof.
  intros HT L E H. unfold aliases_ok in H. apply andb_true_iff in H as [H H3]. apply andb_true_iff in H as [H1 H2]. apply Nat.eqb_eq in H1.
  assert (HF : Forall2 (says v) (bytes_bits s) (concat W)).
  { assert (length (concat W) = 128%nat) as LW.
    { clear -H1 H2. change 128%nat with (8 * 16)%nat. rewrite <- H1. clear H1. induction W as [|w W IH]; [done|]. cbn [forallb concat length] in *.
      apply andb_true_iff in H2 as [H2 H3]. apply Nat.eqb_eq in H2. rewrite app_length, H2, (IH H3). lia. }
    rewrite <- E. assert (length (nseq a 128) = length (concat W)) as Le by (by rewrite nseq_length). clear E LW H1 H2 L.
    revert H3 Le. generalize (nseq a 128) (concat W). induction l as [|w l IH]; intros [|ls L] H Le; try done; [constructor|].
    cbn [combine forallb map] in *. apply andb_true_iff in H as [Hw H]. constructor; [|apply IH; [done|by injection Le]].
    apply Forall_forall. intros [x p] Hx. rewrite forallb_forall in Hw. specialize (Hw (x, p) (proj1 (elem_of_list_In _ _) Hx)). unfold alias_ok in Hw. unfold pval. cbn [fst snd].
    destruct p; [|apply N.eqb_eq in Hw; subst x; by destruct (v w)].
    destruct (tget T x) as [ [q r o|q r o|q o|q o]|] eqn:Ex; try done. apply N.eqb_eq in Hw. subst q. destruct (HT _ _ Ex) as [Hs Ho]. cbn [sat cg_out] in *. subst o.
    rewrite Hs. by destruct (v w). }
  clear -HF H1 H2 L. rewrite <- H1 in L. clear H1. unfold knows, knows_byte, bytes_bits in *. revert W HF H2 L.
  induction s as [|x s IH]; intros [|w W] HF H2 L; try done; [..|]. cbn [map concat forallb] in *. apply andb_true_iff in H2 as [H2 H3]. apply Nat.eqb_eq in H2.
  apply Forall2_app_inv in HF as [HF1 HF2]; [|rewrite H2; reflexivity]. constructor; [done|]. apply IH; [done|done|by injection L].
Qed.
Lemma aes128_key0_wires : aliases_ok (gate_tree aes128_gates) 128 aes128_K0 = true.
Proof. vm_compute. reflexivity. Qed.

(** * C56 *)
Lemma aes128_good : nl_good aes128
  (fun inputs => bytes_bits (aes128_encrypt (bits_bytes (drop 128 inputs)) (bits_bytes (take 128 inputs)))).
Proof.
  split; [vm_compute; reflexivity|]. split; [vm_compute; reflexivity|].
  intros v Hs. change (nl_outs aes128) with (nseq 33744 128). change (N.to_nat (nl_in aes128)) with (128 + 128)%nat.
  pose proof (gate_tree_sat _ _ Hs) as HT. change (nl_gates aes128) with aes128_gates in HT. clear Hs.
  pose proof aes128_keys as HK. pose proof aes128_rounds as HB. cbv zeta in HK, HB.
  rewrite map_nseq_app, take_app_alt, drop_app_alt by (by rewrite map_length, nseq_length). change (0 + N.of_nat 128) with 128.
  destruct (bytes_bits_bytes 16 (map v (nseq 0 128))) as (Ep & Fp & Lp); [by rewrite map_length, nseq_length|].
  destruct (bytes_bits_bytes 16 (map v (nseq 128 128))) as (Ek & Fk & Lk); [by rewrite map_length, nseq_length|].
  set (p := bits_bytes (map v (nseq 0 128))) in *. set (k := bits_bytes (map v (nseq 128 128))) in *. clearbody p k.
  assert (Kp : knows v p (wires 0 16)). { rewrite <- Lp. apply wires_known. rewrite Lp. symmetry. exact Ep. }
  assert (Kk : knows v k aes128_K0). { apply (aliases_sound v _ 128 k aes128_K0 HT Lk (eq_sym Ek)). exact aes128_key0_wires. }
  pose proof (aes128_sound v _ p k _ _ _ _ _ _ _ _ _ _ _ _ _ _ _ _ _ _ _ _ _ _ _ _ _ _ _ _ _ _ _ _ _ _ _ _ _ _ _ _ _ _ HT
    (conj Lp Fp) (conj Lk Fk) Kp Kk HK HB) as R.
  assert (length (aes128_encrypt k p) = 16%nat) as Lc. { apply Forall2_length in R. rewrite R. vm_compute. reflexivity. }
  rewrite <- Lc in R. apply wires_known in R. rewrite Lc in R. exact R.
Qed.
(** The first sixteen input bytes are the plaintext and the other sixteen the key; every byte is given most significant bit first. *)
Theorem C56_aes128 md : good_builder (build_aes128 md) 256 128
  (fun inputs => bytes_bits (aes128_encrypt (bits_bytes (drop 128 inputs)) (bits_bytes (take 128 inputs)))).
Proof. exact (good_nl _ _ md aes128_good). Qed.
Theorem C56_bytes md md' h l : target h l -> exists h', build_aes128 md l h = (Ok tt, h') /\
  exists F, forall fuel block key, (F <= fuel)%nat -> is_state block -> is_state key ->
    eval_output md' h' fuel l (bytes_bits block ++ bytes_bits key) = Ok (bytes_bits (aes128_encrypt key block)).
Proof.
  intros T. destruct (C56_aes128 md md' h l T) as (h' & E & _ & _ & _ & _ & _ & _ & F & HF). exists h'. split; [exact E|]. exists F.
  intros fuel block key Hf [Lb Fb] [Lk Fk]. assert (length (bytes_bits block) = 128%nat) as L by (by rewrite bytes_bits_length, Lb).
  rewrite HF; [|exact Hf|]. 2: { rewrite app_length, L, bytes_bits_length, Lk. reflexivity. }
  rewrite take_app_alt, drop_app_alt by exact (eq_sym L). rewrite !bits_bytes_bits by assumption. reflexivity.
Qed.
(** The example of FIPS-197, appendix C.1, meets the hypotheses. *)
Example C56_example : target blank 0 /\ is_state [0; 1; 2; 3; 4; 5; 6; 7; 8; 9; 10; 11; 12; 13; 14; 15] /\
  bits_bytes (bytes_bits [105; 196; 224; 216]) = [105; 196; 224; 216] /\ take 8 (bytes_bits [105; 196]) = [false; true; true; false; true; false; false; true].
Proof. split; [apply blank_target; lia|]. split; [|by vm_compute]. split; [done|]. repeat constructor. Qed.
