(** Adaptation: what one update does, and what many equal ones do. *)
From Verif Require Import Prelude ModelAns SpecAns ModelCdf SpecCdf ProofCdf ProofAnsRt ProofAnsDec SpecCost ProofCost SpecLearn.

Lemma nth_blend_add sym inc c : forall i k, (k < length c)%nat ->
  nth k (blend_add i sym inc c) 0 = if sym <=? i + Z.of_nat k then i16 (nth k c 0 + inc) else nth k c 0.
Proof.
  induction c as [|x c IH]; intros i k H; cbn [length] in H; [lia|]. cbn [blend_add]. destruct k as [|k]; cbn [nth].
  - rewrite Z.add_0_r. reflexivity.
  - rewrite IH by lia. replace (i + 1 + Z.of_nat k) with (i + Z.of_nat (S k)) by lia. reflexivity.
Qed.
Lemma nth_blend_bias c : forall i k, (k < length c)%nat ->
  nth k (blend_bias i c) 0 = i16 (i16 (nth k c 0 + (i + Z.of_nat k + 1)) - Z.shiftr (i16 (nth k c 0 + (i + Z.of_nat k + 1))) 2).
Proof.
  induction c as [|x c IH]; intros i k H; cbn [length] in H; [lia|]. cbn [blend_bias]. destruct k as [|k]; cbn [nth].
  - rewrite Z.add_0_r. reflexivity.
  - rewrite IH by lia. replace (i + 1 + Z.of_nat k + 1) with (i + Z.of_nat (S k) + 1) by lia. reflexivity.
Qed.

Lemma total_base c : base_ok c -> total c = lastz 0 c.
Proof. intros (L & _ & _). rewrite last_max by exact L. reflexivity. Qed.
Lemma cumul_base c s : base_ok c -> nibble s -> 0 <= cumul c (s - 1) /\ cumul c (s - 1) + 3 <= cumul c s <= total c /\ total c <= 16384.
Proof.
  intros B N. pose proof (base_codable c B) as C. pose proof (cumul_prev_nonneg c s C N). pose proof (cumul_le_total c s C N).
  pose proof (total_base c B). destruct B as (L & G & M). pose proof (gaps_shares 3 c L G s N) as S. unfold share in S. lia.
Qed.

(** the cumulative counts after an update *)
Definition grown (c : list Z) (v inc s : Z) : Z := cumul c s + (if v <=? s then inc else 0).
Definition rescaled (x s : Z) : Z := x + s + 1 - (x + s + 1) / 4.
Lemma cumul_blend_add c v inc s : base_ok c -> nibble v -> 0 <= inc <= 5444 -> nibble s -> cumul (blend_add 0 v inc c) s = grown c v inc s.
Proof.
  intros B NV I N. destruct (cumul_base c s B N) as (A1 & A2 & A3). pose proof B as (L & _). unfold nibble in N. unfold grown. unfold cumul in *.
  destruct (Z.ltb_spec s 0); [lia|]. rewrite nth_blend_add by (rewrite L; lia). rewrite Z2Nat.id by lia. rewrite Z.add_0_l.
  destruct (Z.ltb_spec (s - 1) 0); destruct (v <=? s); try lia; rewrite i16_id; lia.
Qed.
Lemma blend_add_len i v inc c : length (blend_add i v inc c) = length c.
Proof. revert i. induction c as [|x c IH]; intros i; cbn [blend_add length]; congruence. Qed.
Lemma cumul_blend c v inc lim s : base_ok c -> nibble v -> 0 <= inc <= 5444 -> nibble s ->
  cumul (blend c v inc lim) s = if lim <=? total c + inc then rescaled (grown c v inc s) s else grown c v inc s.
Proof.
  intros B NV I N. unfold blend.
  assert (T : cdf_max (blend_add 0 v inc c) = total c + inc).
  { rewrite cdf_max_total. unfold total at 1. rewrite cumul_blend_add by (auto; unfold nibble; lia). unfold grown. destruct (Z.leb_spec v 15); [reflexivity|unfold nibble in NV; lia]. }
  rewrite T. destruct (lim <=? total c + inc); [|apply cumul_blend_add; assumption].
  pose proof (cumul_blend_add c v inc s B NV I N) as E. destruct (cumul_base c s B N) as (A1 & A2 & A3). pose proof B as (L & _).
  assert (R : 0 <= grown c v inc s <= 32767 - 17) by (unfold grown; destruct (v <=? s); lia).
  unfold nibble in N. unfold cumul in E |- *. destruct (Z.ltb_spec s 0); [lia|].
  rewrite nth_blend_bias by (rewrite blend_add_len, L; lia). rewrite E, Z2Nat.id, Z.add_0_l by lia. unfold rescaled. apply bias_step; lia.
Qed.

Lemma share_blend c v inc lim s : base_ok c -> nibble v -> 0 <= inc <= 5444 -> nibble s ->
  let own := share c s + (if s =? v then inc else 0) in
  (total c + inc < lim -> share (blend c v inc lim) s = own /\ total (blend c v inc lim) = total c + inc) /\
  (lim <= total c + inc -> 3 * own <= 4 * share (blend c v inc lim) s <= 3 * own + 6 /\
     3 * (total c + inc + 16) <= 4 * total (blend c v inc lim) <= 3 * (total c + inc + 16) + 3).
Proof.
  intros B NV I N own. pose proof (cumul_blend c v inc lim s B NV I N) as E. pose proof (cumul_blend c v inc lim 15 B NV I ltac:(unfold nibble; lia)) as ET.
  fold (total (blend c v inc lim)) in ET. unfold nibble in *.
  assert (G15 : grown c v inc 15 = total c + inc) by (unfold grown; destruct (Z.leb_spec v 15); [reflexivity|lia]). rewrite G15 in ET.
  assert (GS : own = grown c v inc s - (if s =? 0 then 0 else grown c v inc (s - 1))).
  { unfold own, share, grown. destruct (Z.eqb_spec s 0) as [->|S0].
    - rewrite (cumul_neg c (0 - 1)) by lia. destruct (Z.eqb_spec 0 v), (Z.leb_spec v 0); lia.
    - destruct (Z.eqb_spec s v), (Z.leb_spec v s), (Z.leb_spec v (s - 1)); lia. }
  assert (EP : cumul (blend c v inc lim) (s - 1) = if s =? 0 then 0 else if lim <=? total c + inc then rescaled (grown c v inc (s - 1)) (s - 1) else grown c v inc (s - 1)).
  { destruct (Z.eqb_spec s 0) as [->|S0]; [apply cumul_neg; lia|]. apply cumul_blend; auto; unfold nibble; lia. }
  unfold share at 1 2 3. rewrite E, EP, ET, GS. clear - N. unfold rescaled.
  destruct (Z.leb_spec lim (total c + inc)); destruct (Z.eqb_spec s 0) as [->|S0]; split; intros X; try lia; split; lia.
Qed.
Lemma others_blend c v inc lim : base_ok c -> nibble v -> 0 <= inc <= 5444 ->
  (total c + inc < lim -> others (blend c v inc lim) v = others c v) /\
  (lim <= total c + inc -> 4 * others (blend c v inc lim) v <= 3 * others c v + 51).
Proof.
  intros B NV I. pose proof (share_blend c v inc lim v B NV I NV) as (P & Q). cbn zeta in P, Q. rewrite Z.eqb_refl in P, Q. unfold others.
  split; intros H; [specialize (P H); lia|specialize (Q H); lia].
Qed.

Fixpoint rbound (k : nat) : Z := match k with O => 16384 | S k => (3 * rbound k + 51) / 4 end.
Lemma rbound_end k : (32 <= k)%nat -> rbound k <= 51.
Proof.
  intros H. replace k with (k - 32 + 32)%nat by lia. generalize (k - 32)%nat. clear. intros j. induction j as [|j IH]; [vm_compute; discriminate|].
  change (S j + 32)%nat with (S (j + 32)). cbn [rbound]. lia.
Qed.
Lemma repeated_ok h v inc lim n : hist_ok h -> nibble v -> 0 <= inc <= 5444 -> lim <= 16384 -> hist_ok (repeated h v inc lim n).
Proof. intros. induction n; cbn [repeated hist_ok]; auto. Qed.
Lemma learn_inv h v inc lim n : hist_ok h -> nibble v -> 0 <= inc <= 5444 -> lim <= 16384 ->
  let c := run_ref (repeated h v inc lim n) in
  exists k, inc * Z.of_nat n <= Z.of_nat k * 5445 + total c /\ others c v <= rbound k /\ ((1 <= k)%nat -> 3 * lim <= 4 * total c).
Proof.
  intros H NV I L. cbn zeta. induction n as [|n (k & IM & IR & IT)].
  - exists 0%nat. cbn [repeated]. pose proof (run_ref_ok h H) as B. destruct (cumul_base _ v B NV) as (A1 & A2 & A3). cbn [rbound]. unfold others, share. split; [lia|]. split; [lia|]. intros; lia.
  - cbn [repeated run_ref]. set (h' := repeated h v inc lim n) in *. pose proof (run_ref_ok h' (repeated_ok h v inc lim n H NV I L)) as B. set (c := run_ref h') in *.
    destruct (cumul_base _ v B NV) as (A1 & A2 & A3). destruct (others_blend c v inc lim B NV I) as (O1 & O2).
    pose proof (share_blend c v inc lim v B NV I NV) as (S1 & S2). cbn zeta in S1, S2.
    destruct (Z_lt_le_dec (total c + inc) lim) as [X|X].
    + destruct (S1 X) as (_ & T). rewrite T, (O1 X). exists k. split; [lia|]. split; [exact IR|]. intros K. specialize (IT K). lia.
    + destruct (S2 X) as (_ & T). specialize (O2 X). exists (S k). cbn [rbound]. split; [lia|]. split; [lia|]. intros _. lia.
Qed.
Lemma learned h v inc lim n : hist_ok h -> nibble v -> 0 <= inc <= 5444 -> lim <= 16384 -> 200000 <= inc * Z.of_nat n ->
  let c := run_ref (repeated h v inc lim n) in others c v <= 51 /\ 3 * lim <= 4 * total c.
Proof.
  intros H NV I L N. cbn zeta. destruct (learn_inv h v inc lim n H NV I L) as (k & IM & IR & IT).
  pose proof (run_ref_ok _ (repeated_ok h v inc lim n H NV I L)) as B. destruct (cumul_base _ v B NV) as (A1 & A2 & A3).
  assert (K : (32 <= k)%nat) by lia. pose proof (rbound_end k K). split; [lia|apply IT; lia].
Qed.
(** on the scale of the coder *)
Lemma freq_low c v : base_ok c -> nibble v -> share c v * 2 ^ 15 < (snd (ref_interval c v) + 2) * total c.
Proof.
  intros B NV. pose proof (base_codable c B) as C. pose proof (cumul_base c v B NV) as (A1 & A2 & A3).
  unfold ref_interval. rewrite (interval_eq _ c v C (divides_ref c ltac:(lia)) NV). cbn [snd]. unfold bnd, share.
  pose proof (Z.mul_div_le (cumul c (v - 1) * 2 ^ 15) (total c) ltac:(lia)). pose proof (Z.mul_succ_div_gt (cumul c v * 2 ^ 15) (total c) ltac:(lia)). lia.
Qed.
Lemma learned_freq h v inc lim n : hist_ok h -> nibble v -> 0 <= inc <= 5444 -> 0 < lim <= 16384 -> 200000 <= inc * Z.of_nat n ->
  (2 ^ 15 - 2 - snd (ref_interval (run_ref (repeated h v inc lim n)) v)) * (3 * lim) <= 204 * 2 ^ 15.
Proof.
  intros H NV I L N. destruct (learned h v inc lim n H NV I ltac:(lia) N) as (R & T).
  pose proof (run_ref_ok _ (repeated_ok h v inc lim n H NV I ltac:(lia))) as B. pose proof (freq_low _ v B NV) as F.
  set (c := run_ref (repeated h v inc lim n)) in *. set (f := snd (ref_interval c v)) in *. clearbody f. unfold others in R.
  assert (X : (2 ^ 15 - 2 - f) * total c <= 51 * 2 ^ 15) by lia. clear F.
  destruct (Z_lt_le_dec (2 ^ 15 - 2 - f) 0) as [Y|Y].
  - assert ((2 ^ 15 - 2 - f) * (3 * lim) <= 0) by (apply Z.mul_nonpos_nonneg; lia). lia.
  - assert ((2 ^ 15 - 2 - f) * (3 * lim) <= (2 ^ 15 - 2 - f) * (4 * total c)) by (apply Z.mul_le_mono_nonneg_l; lia). lia.
Qed.

Lemma pow_blocks k : 0 <= k -> 237 ^ k <= 2 ^ (k / 118 + 1) * 236 ^ k.
Proof.
  intros K. pose proof (Z.div_mod k 118 ltac:(lia)) as D. pose proof (Z.mod_pos_bound k 118 ltac:(lia)) as M. pose proof (Z.div_pos k 118 ltac:(lia) ltac:(lia)) as Q0.
  set (q := k / 118) in *. set (r := k mod 118) in *. clearbody q r. rewrite D.
  pose proof (shrink_half 237 118 ltac:(lia) ltac:(lia) ltac:(lia)) as S1. pose proof (shrink_half 237 r ltac:(lia) ltac:(lia) ltac:(lia)) as S2. change (237 - 1) with 236 in *.
  rewrite !(Z.pow_add_r _ (118 * q)), !(Z.pow_mul_r _ 118 q) by lia. rewrite (Z.pow_add_r 2 q 1), Z.pow_1_r by lia.
  assert (P1 : (237 ^ 118) ^ q <= (2 * 236 ^ 118) ^ q) by (apply Z.pow_le_mono_l; split; [apply Z.pow_nonneg; lia|exact S1]).
  rewrite Z.pow_mul_l in P1. pose proof (Z.pow_nonneg 237 r ltac:(lia)). pose proof (Z.pow_nonneg (237 ^ 118) q ltac:(apply Z.pow_nonneg; lia)).
  set (a := (237 ^ 118) ^ q) in *. set (b := 237 ^ r) in *. set (u := 2 ^ q) in *. set (w := (236 ^ 118) ^ q) in *. set (y := 236 ^ r) in *. clearbody a b u w y.
  pose proof (mul4 a (u * w) b (2 * y) ltac:(lia) ltac:(lia) P1 S2). lia.
Qed.
Lemma weight_ge l : Forall (fun p => 236 * 2 ^ 15 <= 237 * snd p) l -> (236 * 2 ^ 15) ^ count l <= 237 ^ count l * weight l.
Proof.
  induction 1 as [|[s f] l H F IH]; [vm_compute; discriminate|]. assert (EC : count ((s, f) :: l) = count l + 1) by (unfold count; cbn [length]; lia). rewrite EC.
  change (weight ((s, f) :: l)) with (f * weight l). assert (0 <= count l) by (unfold count; lia). rewrite !Z.pow_add_r, !Z.pow_1_r by lia. cbn [snd] in H.
  pose proof (Z.pow_nonneg (236 * 2 ^ 15) (count l) ltac:(lia)) as P. set (a := (236 * 2 ^ 15) ^ count l) in *. set (b := 237 ^ count l) in *. clearbody a b.
  pose proof (mul4 (236 * 2 ^ 15) (237 * f) a (b * weight l) ltac:(lia) P H IH). lia.
Qed.
Lemma weight_run l : Forall lsf l -> Forall (fun p => 236 * 2 ^ 15 <= 237 * snd p) l -> 2 ^ (15 * count l) <= 2 ^ (count l / 118 + 1) * weight l.
Proof.
  intros FL F. pose proof (weight_ge l F) as W. assert (N0 : 0 <= count l) by (unfold count; lia). pose proof (pow_blocks (count l) N0) as P.
  pose proof (weight_pos l FL) as W0. rewrite Z.pow_mul_l, <- (Z.pow_mul_r 2 15) in W by lia.
  pose proof (Z.pow_pos_nonneg 236 (count l) ltac:(lia) N0) as P6. set (a := 236 ^ count l) in *. set (V := 2 ^ (15 * count l)) in *. set (b := 237 ^ count l) in *. set (u := 2 ^ (count l / 118 + 1)) in *. clearbody a V b u.
  assert (X : b * weight l <= u * a * weight l) by (apply Z.mul_le_mono_nonneg_r; lia). assert (Y : a * V <= a * (u * weight l)) by lia. apply Z.mul_le_mono_pos_l in Y; assumption.
Qed.

Lemma run_legal h v inc lim l : hist_ok h -> nibble v -> 0 <= inc <= 5444 -> lim <= 16384 ->
  Forall lsf (map (fun i => ref_interval (run_ref (repeated h v inc lim i)) v) l).
Proof.
  intros H NV I L. apply Forall_map, Forall_forall. intros i _. pose proof (run_ref_ok _ (repeated_ok h v inc lim i H NV I L)) as B.
  pose proof (base_codable _ B) as C. pose proof (codable_codes _ _ v C (divides_ref _ ltac:(apply C)) NV) as (X & _). exact X.
Qed.
Lemma weight_ge1 l : Forall lsf l -> 1 <= weight l.
Proof. intros F. pose proof (weight_pos l F). lia. Qed.
Lemma run_cost h v inc n0 n : hist_ok h -> nibble v -> 0 <= inc <= 5444 -> 200000 <= inc * Z.of_nat n0 -> (n0 <= n)%nat ->
  exists out, ans_encode (run_of h v inc 16384 n) = Some out /\
    8 * Z.of_nat (length out) <= 15 * Z.of_nat n0 + (Z.of_nat (n - n0) / 118 + 1) + 130 * groups (Z.of_nat n).
Proof.
  intros H NV I N0 LE. pose proof (run_legal h v inc 16384 (seq 0 n) H NV I ltac:(lia)) as FL. destruct (encode_cost _ FL) as (out & E & _ & U).
  exists out. split; [exact E|]. fold (run_of h v inc 16384 n) in *. unfold at_most_ideal_plus in U.
  assert (CN : count (run_of h v inc 16384 n) = Z.of_nat n) by (unfold count, run_of; rewrite map_length, seq_length; reflexivity). rewrite CN in U.
  assert (SP : run_of h v inc 16384 n = run_of h v inc 16384 n0 ++ map (fun i => ref_interval (run_ref (repeated h v inc 16384 i)) v) (seq n0 (n - n0))).
  { unfold run_of. rewrite <- map_app, <- seq_app. f_equal. f_equal. lia. }
  rewrite SP, weight_app in U. set (tl := map (fun i => ref_interval (run_ref (repeated h v inc 16384 i)) v) (seq n0 (n - n0))) in *.
  pose proof (run_legal h v inc 16384 (seq n0 (n - n0)) H NV I ltac:(lia)) as FT. fold tl in FT.
  pose proof (weight_ge1 _ (run_legal h v inc 16384 (seq 0 n0) H NV I ltac:(lia))) as W1. fold (run_of h v inc 16384 n0) in W1.
  assert (CT : count tl = Z.of_nat (n - n0)) by (unfold count, tl; rewrite map_length, seq_length; reflexivity).
  assert (HI : Forall (fun p => 236 * 2 ^ 15 <= 237 * snd p) tl).
  { unfold tl. apply Forall_map, Forall_forall. intros i IN. apply in_seq in IN.
    assert (X : 200000 <= inc * Z.of_nat i) by (assert (inc * Z.of_nat n0 <= inc * Z.of_nat i) by (apply Z.mul_le_mono_nonneg_l; lia); lia).
    pose proof (learned_freq h v inc 16384 i H NV I ltac:(lia) X) as F. set (f := snd _) in *. clearbody f. lia. }
  pose proof (weight_run tl FT HI) as WR. pose proof (weight_pos tl FT) as W2. rewrite CT in WR.
  set (m := Z.of_nat (n - n0)) in *. set (g := groups (Z.of_nat n)) in *. assert (G0 : 0 <= g) by (unfold g, groups; apply Z.div_pos; lia).
  assert (M0 : 0 <= m) by (unfold m; lia). assert (NM : Z.of_nat n = Z.of_nat n0 + m) by (unfold m; lia). pose proof (Z.div_pos m 118 M0 ltac:(lia)) as MQ.
  set (x := 8 * Z.of_nat (length out)) in *. set (w0 := weight (run_of h v inc 16384 n0)) in *. set (w := weight tl) in *.
  assert (X1 : 2 ^ x * w <= 2 ^ (15 * Z.of_nat n + 130 * g)).
  { assert (2 ^ x * w * 1 <= 2 ^ x * w * w0) by (apply Z.mul_le_mono_nonneg_l; [apply Z.mul_nonneg_nonneg; [apply Z.pow_nonneg; lia|lia]|exact W1]). lia. }
  replace (15 * Z.of_nat n + 130 * g) with (15 * m + (15 * Z.of_nat n0 + 130 * g)) in X1 by lia. rewrite Z.pow_add_r in X1 by lia.
  assert (X2 : 2 ^ (15 * m) * 2 ^ (15 * Z.of_nat n0 + 130 * g) <= 2 ^ (m / 118 + 1) * w * 2 ^ (15 * Z.of_nat n0 + 130 * g)) by (apply Z.mul_le_mono_nonneg_r; [apply Z.pow_nonneg; lia|exact WR]).
  assert (X3 : 2 ^ x * w <= 2 ^ (m / 118 + 1 + (15 * Z.of_nat n0 + 130 * g)) * w) by (rewrite (Z.pow_add_r 2 (m / 118 + 1)) by lia; lia).
  apply Z.mul_le_mono_pos_r in X3; [|exact W2]. apply Z.pow_le_mono_r_iff in X3; [lia|lia|lia].
Qed.
