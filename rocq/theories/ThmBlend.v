(** Property theorem C50: the blending distribution (feature "blend"). *)
From Verif Require Import Prelude ModelAns SpecAns ModelCdf ModelBlend SpecBlend ProofBlend.

(** C50.  After any history of symbols no assertion has fired, every symbol owns a
    non-empty interval that is looked up back to it, and the intervals are disjoint. *)
Theorem C50_any_history : forall h, Forall nibble h ->
  exists b, brun h = Some b /\ bias_ok b = true /\
    (forall s, nibble s -> codes (blookup b) s (binterval b s)) /\
    (forall s t, nibble s -> nibble t -> s < t -> fst (binterval b s) + snd (binterval b s) < fst (binterval b t)).
Proof.
  intros h H. destruct (brun_ok h bcdf_default binv_start H) as (b & E & I).
  destruct (binv_top b I) as (x & S & X). exists b. split; [exact E|].
  split; [apply (bias_ok_shape b x S); lia|]. split.
  - intros s N. apply (codes_ok b x s S); [lia|exact N].
  - intros s t Ns Nt L. apply (ordered_ok b x s t S); [lia|assumption..].
Qed.
Print Assumptions C50_any_history.

(** Mixing two distributions: no assertion fires, and every symbol can be coded if the
    stored entries leave a weight of at least 32 to be shared out evenly. *)
Theorem C50_mixed : forall h1 h2 mix b1 b2, Forall nibble h1 -> Forall nibble h2 -> 0 <= mix <= 2 ^ 15 ->
  brun h1 = Some b1 -> brun h2 = Some b2 ->
  exists a, baverage b1 b2 mix = Some a /\ bias_ok a = true /\
    (32 <= CDF_MAX - nth 15 (b_cdf a) 0 -> forall s, nibble s -> codes (blookup a) s (binterval a s)) /\
    (forall s, nibble s -> 0 <= snd (binterval a s)).
Proof.
  intros h1 h2 mix b1 b2 H1 H2 M E1 E2.
  destruct (brun_ok h1 bcdf_default binv_start H1) as (b1' & E1' & I1).
  destruct (brun_ok h2 bcdf_default binv_start H2) as (b2' & E2' & I2).
  assert (b1' = b1) as -> by (unfold brun in *; congruence). assert (b2' = b2) as -> by (unfold brun in *; congruence).
  destruct (binv_top b1 I1) as (x & Sx & X). destruct (binv_top b2 I2) as (y & Sy & Y).
  destruct (blend_internal_ok b1 (b_cdf b2) mix x y Sx Sy ltac:(lia) ltac:(lia) M) as (c & E & Sc & Zl).
  exists (BC c (b_rate b1) (b_count b1)). split; [exact E|]. cbn [b_cdf].
  split; [apply (bias_ok_shape (BC c (b_rate b1) (b_count b1)) _ Sc Zl)|]. split.
  - intros W s N. pose proof (proj1 (proj2 Sc)) as T. apply (codes_ok (BC c (b_rate b1) (b_count b1)) _ s Sc); [|exact N].
    rewrite <- T. change CDF_MAX with 32767 in W. lia.
  - intros s N. apply (width_ok (BC c (b_rate b1) (b_count b1)) _ s Sc Zl N).
Qed.
Print Assumptions C50_mixed.

(** Finding: without that condition it is false.  A fresh distribution mixed with one that
    has seen seven sevens gives symbol 0 an interval of width 0: it cannot be coded. *)
Theorem C50_mixed_refuted : exists h1 h2 mix b1 b2 a,
  Forall nibble h1 /\ Forall nibble h2 /\ 0 <= mix <= 2 ^ 15 /\ brun h1 = Some b1 /\ brun h2 = Some b2 /\
  baverage b1 b2 mix = Some a /\ snd (binterval a 0) = 0.
Proof.
  exists [], [7; 7; 7; 7; 7; 7; 7], 26481. do 3 eexists. split; [constructor|].
  split; [repeat (apply Forall_cons; [unfold nibble; lia|]); apply Forall_nil|]. split; [lia|].
  split; [reflexivity|]. split; [vm_compute; reflexivity|]. split; [vm_compute; reflexivity|]. vm_compute. reflexivity.
Qed.
Print Assumptions C50_mixed_refuted.

Example C50_case :
  Forall nibble [3; 3; 9] /\
  (match brun [3; 3; 9] with Some b => binterval b 3 = (4223, 9385) | None => False end) /\
  (match brun [3; 3; 9], brun [5] with
   | Some b1, Some b2 => match baverage b1 b2 16384 with Some a => nth 15 (b_cdf a) 0 <=? 32735 | None => false end
   | _, _ => false end = true).
Proof.
  split; [repeat (apply Forall_cons; [unfold nibble; lia|]); apply Forall_nil|].
  vm_compute. split; reflexivity.
Qed.
