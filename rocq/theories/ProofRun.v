(** Runs of the command coder as a relation, and how sub-coder runs lift to it. *)
From Verif Require Import Prelude ModelAns ModelCdf SpecCdf ProofCdf ThmCdf ModelMux ProofZlist ModelCmd ModelPriors ModelContextLut ModelCodec ModelLit ModelPm ModelTop SpecCodec ThmPriors ProofCodecInv ProofCodecInv2.

(** distributions with an admissible history *)
Definition adapted (c : list Z) : Prop := exists h, hist_ok h /\ c = run_ref h.
Definition tame (s : Z * Z) : Prop := 0 <= fst s <= 5444 /\ snd s <= 16384.
Lemma adapted0 : adapted cdf_default. Proof. exists Fresh. split; [exact Logic.I|reflexivity]. Qed.
Lemma adapted_blend c v sp : adapted c -> nibble v -> tame sp -> adapted (blend c v (fst sp) (snd sp)).
Proof. intros (h & H & ->) V (S1 & S2). exists (Seen h v (fst sp) (snd sp)). split; [|reflexivity]. cbn [hist_ok]. auto. Qed.
Lemma tame_pos inc : 0 <= inc <= 384 -> forall lim, 0 <= lim <= 16384 -> tame (inc, lim).
Proof. intros. split; cbn; lia. Qed.
Lemma src_codable d : src_ok adapted d -> codable d.
Proof.
  intros [(h & H & ->)|(c1 & c2 & m & (h1 & H1 & ->) & (h2 & H2 & ->) & M & ->)].
  - exact (C05_adaptation_codable h H).
  - exact (C08_mixture_codable h1 h2 m H1 H2 M).
Qed.
Notation binv := (inv_bk adapted).
Notation linv := (inv_lbk adapted tame).
Notation nok := (node_ok adapted).

Section Steps.
Context {S : Type} (nd : S -> node S) (wt : S -> wanted).
Inductive nsteps : S -> list ev -> S -> Prop :=
| ns_refl s : nsteps s [] s
| ns_silent s s' v es s2 : wt s = Put v -> nd s = Silent (Next s') -> nsteps s' es s2 -> nsteps s es s2
| ns_code s st d k v s' es s2 : wt s = Put v -> nd s = Code st d k -> nibble v -> codable d -> k v = Next s' ->
    nsteps s' es s2 -> nsteps s (Ev st d v :: es) s2.
Lemma nsteps_app s1 es1 s2 es2 s3 : nsteps s1 es1 s2 -> nsteps s2 es2 s3 -> nsteps s1 (es1 ++ es2) s3.
Proof. induction 1; intros X2; cbn [app]; [assumption|eapply ns_silent; eauto|eapply ns_code; eauto]. Qed.
(** runs that end in a state with a property *)
Definition reaches (s : S) (G : S -> Prop) : Prop := exists es s', nsteps s es s' /\ G s'.
Lemma reaches_here s (G : S -> Prop) : G s -> reaches s G.
Proof. intros H. exists [], s. split; [constructor|exact H]. Qed.
Lemma reaches_silent s s' v G : wt s = Put v -> nd s = Silent (Next s') -> reaches s' G -> reaches s G.
Proof. intros W N (es & s2 & R & H). exists es, s2. split; [eapply ns_silent; eauto|exact H]. Qed.
Lemma reaches_code s st d k v s' (G : S -> Prop) : wt s = Put v -> nd s = Code st d k -> nibble v -> codable d -> k v = Next s' ->
  reaches s' G -> reaches s G.
Proof. intros W N V C E (es & s2 & R & H). exists (Ev st d v :: es), s2. split; [eapply ns_code; eauto|exact H]. Qed.
Lemma reaches_trans s (G H : S -> Prop) : reaches s G -> (forall s', G s' -> reaches s' H) -> reaches s H.
Proof.
  intros (es & s1 & R & A) K. destruct (K s1 A) as (es2 & s2 & R2 & B). exists (es ++ es2), s2.
  split; [eapply nsteps_app; eauto|exact B].
Qed.
(** the common kind of step: some prior is updated, then the continuation decides *)
Lemma reaches_by_code (Q G : S -> Prop) s b c bl ix sp k v : nd s = code b c bl ix sp k -> nok Q (nd s) -> wt s = Put v -> nibble v ->
  (forall pr, exists s', k (set_priors b pr) v = Next s' /\ (Q s' -> reaches s' G)) -> reaches s G.
Proof.
  intros E N W V K. rewrite E in N. unfold code in N, E. destruct (prior_index c bl ix) as [i|]; [|destruct N].
  cbn [node_ok] in N. destruct N as (N1 & N2). specialize (N2 v V).
  destruct (K (pupd (priors b) c i (blend (priors b c i) v (fst sp) (snd sp)))) as (s' & E' & H). rewrite E' in N2. cbn [oc_ok] in N2.
  eapply reaches_code; [exact W|exact E|exact V|exact (src_codable _ N1)|exact E'|exact (H N2)].
Qed.
End Steps.

(** ** mantissas *)
Lemma lxor_split x r : 0 <= r -> Z.lxor x (Z.shiftl (Z.shiftr x r) r) = x mod 2 ^ r.
Proof.
  intros R. apply Z.bits_inj'. intros n N. rewrite Z.lxor_spec, Z.shiftl_spec by lia.
  destruct (Z.ltb_spec n r).
  - rewrite Z.mod_pow2_bits_low by lia. rewrite (Z.testbit_neg_r _ (n - r)) by lia. apply xorb_false_r.
  - rewrite Z.mod_pow2_bits_high by lia. rewrite Z.shiftr_spec by lia. replace (n - r + r) with n by lia. apply xorb_nilpotent.
Qed.
Definition rest_ok (n dsf r : Z) : Prop := Z.land dsf (Z.lxor n dsf) = 0 /\ 0 <= Z.lxor n dsf < 2 ^ r.
Lemma mant_step n dsf r : 0 <= r -> rest_ok n dsf (r + 4) ->
  nibble (mant_nib n dsf r) /\ rest_ok n (Z.lor dsf (Z.shiftl (mant_nib n dsf r) r)) r.
Proof.
  intros R (L & X). unfold mant_nib. set (x := Z.lxor n dsf) in *.
  assert (V : 0 <= Z.shiftr x r < 16) by (pose proof (shiftr_range x (r + 4) r R X ltac:(lia)) as H; replace (r + 4 - r) with 4 in H by lia; exact H).
  rewrite (Z.mod_small _ 256) by lia. split; [exact V|].
  set (d := Z.lor dsf (Z.shiftl (Z.shiftr x r) r)).
  assert (E : Z.lxor n d = x mod 2 ^ r).
  { rewrite <- lxor_split by lia. assert (N : n = Z.lxor x dsf) by (unfold x; rewrite Z.lxor_assoc, Z.lxor_nilpotent, Z.lxor_0_r; reflexivity).
    rewrite N at 1. unfold d. apply Z.bits_inj'. intros i Hi. rewrite !Z.lxor_spec, Z.lor_spec, Z.shiftl_spec by lia.
    assert (LB : Z.testbit dsf i && Z.testbit x i = false) by (rewrite <- Z.land_spec, L; apply Z.bits_0).
    destruct (Z.ltb_spec i r).
    - rewrite (Z.testbit_neg_r _ (i - r)) by lia. destruct (Z.testbit dsf i), (Z.testbit x i); try discriminate; reflexivity.
    - rewrite Z.shiftr_spec by lia. replace (i - r + r) with i by lia. destruct (Z.testbit dsf i), (Z.testbit x i); try discriminate; reflexivity. }
  unfold rest_ok. rewrite E. split; [|apply Z.mod_pos_bound; apply Z.pow_pos_nonneg; lia].
  apply Z.bits_inj'. intros i Hi. rewrite Z.land_spec, Z.bits_0. unfold d. rewrite Z.lor_spec, Z.shiftl_spec by lia.
  assert (LB : Z.testbit dsf i && Z.testbit x i = false) by (rewrite <- Z.land_spec, L; apply Z.bits_0).
  destruct (Z.ltb_spec i r).
  - rewrite Z.mod_pow2_bits_low by lia. rewrite (Z.testbit_neg_r _ (i - r)) by lia. rewrite orb_false_r. exact LB.
  - rewrite Z.mod_pow2_bits_high by lia. apply andb_false_r.
Qed.
Lemma rest_done n d : rest_ok n d 0 -> d = n.
Proof. intros (_ & X). change (2 ^ 0) with 1 in X. assert (E : Z.lxor n d = 0) by lia. apply Z.lxor_eq in E. auto. Qed.
Lemma rest_start n L r : 0 <= L -> 2 ^ L <= n < 2 ^ (L + 1) -> L <= r -> rest_ok n (Z.shiftl 1 L) r.
Proof.
  intros L0 N LR. rewrite Z.shiftl_1_l. assert (E2 : 2 ^ (L + 1) = 2 * 2 ^ L) by (rewrite Z.pow_add_r by lia; lia).
  set (y := n - 2 ^ L). assert (Y : 0 <= y < 2 ^ L) by (unfold y; lia).
  assert (E : n = Z.lor y (Z.shiftl 1 L)) by (rewrite lor_shift_add by lia; unfold y; lia).
  assert (LX : Z.lxor n (2 ^ L) = y).
  { rewrite E, Z.shiftl_1_l. apply Z.bits_inj'. intros i Hi. rewrite Z.lxor_spec, Z.lor_spec, Z.pow2_bits_eqb by lia.
    destruct (Z.eqb_spec L i) as [->|]; [|destruct (Z.testbit y i); reflexivity]. rewrite (bits_hi y i i) by lia. reflexivity. }
  unfold rest_ok. rewrite LX. split.
  - apply Z.bits_inj'. intros i Hi. rewrite Z.land_spec, Z.bits_0, Z.pow2_bits_eqb by lia.
    destruct (Z.eqb_spec L i) as [->|]; [|reflexivity]. rewrite (bits_hi y i i) by lia. reflexivity.
  - split; [lia|]. assert (2 ^ L <= 2 ^ r) by (apply Z.pow_le_mono_r; lia). lia.
Qed.
Lemma rest_zero n r : 0 <= n < 2 ^ r -> rest_ok n 0 r.
Proof. intros N. unfold rest_ok. rewrite Z.lxor_0_r, Z.land_0_l. auto. Qed.
Lemma bitlen_spec n : 0 < n -> 2 ^ (bitlen n - 1) <= n < 2 ^ bitlen n /\ 1 <= bitlen n.
Proof.
  intros N. unfold bitlen. destruct (Z.eqb_spec n 0); [lia|]. pose proof (Z.log2_spec n N). pose proof (Z.log2_nonneg n).
  replace (Z.log2 n + 1 - 1) with (Z.log2 n) by lia. replace (Z.log2 n + 1) with (Z.succ (Z.log2 n)) by lia. lia.
Qed.
Lemma bitlen_ge n k : 0 <= k -> 2 ^ k <= n -> k + 1 <= bitlen n.
Proof.
  intros K N. assert (0 < 2 ^ k) by (apply Z.pow_pos_nonneg; lia). unfold bitlen. destruct (Z.eqb_spec n 0); [lia|].
  assert (k <= Z.log2 n) by (apply Z.log2_le_pow2; lia). lia.
Qed.
