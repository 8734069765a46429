(** Proofs for C45. *)
From Verif Require Import Prelude ModelAns ModelCdf SpecCdf ProofCdf ModelLit ProofCodecInv SpecWeights.

Lemma i64_id x : - 2 ^ 63 <= x < 2 ^ 63 -> i64 x = x.
Proof. intros. unfold i64. rewrite Z.mod_small by lia. lia. Qed.
Lemma i32_id x : - 2 ^ 31 <= x < 2 ^ 31 -> i32 x = x.
Proof. intros. unfold i32. rewrite Z.mod_small by lia. lia. Qed.
Lemma new_weight_exact p q w : 0 <= p <= 2 ^ 15 -> 1 <= q < 2 ^ 15 -> 0 <= w < 2 ^ 24 ->
  compute_new_weight p q w = weight_step p q w /\ 1 <= weight_step p q w < 2 ^ 31.
Proof.
  intros P Q W. unfold compute_new_weight, weight_step. cbv zeta.
  change (2 ^ 15) with 32768 in *. change (2 ^ 24) with 16777216 in *.
  rewrite (i64_id (32768 - q)) by lia. rewrite (i64_id (32768 * p)) by lia. rewrite (i64_id (q * 32768)) by lia.
  set (g := q * (32768 - q)). assert (G : 1 <= g <= 2 ^ 30) by (unfold g; change (2 ^ 30) with (32768 * 32768); nia).
  rewrite (i64_id g) by lia.
  assert (LZ : leading_zeros64 g = 63 - Z.log2 g).
  { unfold leading_zeros64. destruct (Z.ltb_spec g 0); [lia|]. destruct (Z.eqb_spec g 0); [lia|]. reflexivity. }
  rewrite LZ. replace (64 - (63 - Z.log2 g)) with (Z.log2 g + 1) by lia.
  pose proof (Z.log2_nonneg g) as L0. set (lg := Z.log2 g) in *.
  assert (SP : 2 ^ lg <= g < 2 ^ (lg + 1)) by (unfold lg; replace (Z.log2 g + 1) with (Z.succ (Z.log2 g)) by lia; apply Z.log2_spec; lia).
  replace (32768 * p - q * 32768) with (32768 * (p - q)) by lia.
  set (e := 32768 - q) in *. set (x := e * (32768 * (p - q))).
  assert (E : 1 <= e < 32768) by (unfold e; lia).
  assert (X : - (32768 * g) <= x /\ x <= e * (32768 * 32768)) by (unfold x, g; nia).
  assert (Xr : - 2 ^ 63 <= x < 2 ^ 63).
  { change (2 ^ 63) with 9223372036854775808. change (2 ^ 30) with 1073741824 in G. lia. }
  rewrite (i64_id x) by exact Xr. rewrite Z.shiftr_div_pow2 by lia.
  set (m := 2 ^ (lg + 1)) in *. assert (M : 0 < m) by (apply Z.pow_pos_nonneg; lia).
  assert (B1 : -32768 <= x / m) by (apply Z.div_le_lower_bound; [lia|]; clear - X SP M; nia).
  assert (B2 : x / m < 1073741825).
  { apply Z.div_lt_upper_bound; [lia|]. assert (e <= g) by (unfold g; clear - Q E; nia). clear - X SP M E H. lia. }
  rewrite (i64_id (w + x / m)) by (change (2 ^ 63) with 9223372036854775808; lia).
  rewrite i32_id by (change (2 ^ 31) with 2147483648; lia).
  split; [reflexivity|]. change (2 ^ 31) with 2147483648. lia.
Qed.
Lemma lz32_pos x : 0 < x -> lz32 x = 31 - Z.log2 x.
Proof. intros. unfold lz32, leading_zeros32. destruct (Z.ltb_spec x 0); [lia|]. destruct (Z.eqb_spec x 0); [lia|]. reflexivity. Qed.
Lemma land_high_zero a b : 0 <= a < 2 ^ 31 -> 0 <= b < 2 ^ 31 -> Z.land (Z.lor a b) 2130706432 = 0 -> a < 2 ^ 24 /\ b < 2 ^ 24.
Proof.
  intros A B E.
  assert (N : forall i, 24 <= i < 31 -> Z.testbit a i = false /\ Z.testbit b i = false).
  { intros i I. assert (T : Z.testbit (Z.land (Z.lor a b) 2130706432) i = false) by (rewrite E; apply Z.bits_0).
    rewrite Z.land_spec, Z.lor_spec in T.
    assert (M : Z.testbit 2130706432 i = true).
    { assert (i = 24 \/ i = 25 \/ i = 26 \/ i = 27 \/ i = 28 \/ i = 29 \/ i = 30) by lia. intuition (subst; reflexivity). }
    rewrite M, andb_true_r in T. now apply orb_false_iff in T. }
  assert (G : forall x, 0 <= x < 2 ^ 31 -> (forall i, 24 <= i < 31 -> Z.testbit x i = false) -> x < 2 ^ 24).
  { intros x X Hx. destruct (Z.lt_ge_cases x (2 ^ 24)); [assumption|]. exfalso.
    assert (T : Z.testbit x (Z.log2 x) = true) by (apply Z.bit_log2; lia).
    rewrite Hx in T; [discriminate|]. split; [apply Z.log2_le_pow2; lia|apply Z.log2_lt_pow2; lia]. }
  split; apply G; try assumption; intros i I; apply N, I.
Qed.
Lemma shiftr_lt24 x l : 0 < x -> Z.log2 x + 1 <= l -> 24 <= l -> 0 <= Z.shiftr x (l - 24) < 2 ^ 24.
Proof.
  intros X L1 L2. rewrite Z.shiftr_div_pow2 by lia. split; [apply Z.div_pos; [lia|apply Z.pow_pos_nonneg; lia]|].
  apply Z.div_lt_upper_bound; [apply Z.pow_pos_nonneg; lia|]. rewrite <- Z.pow_add_r by lia. apply Z.log2_lt_pow2; lia.
Qed.
Lemma normalize_range a b : 1 <= a < 2 ^ 31 -> 1 <= b < 2 ^ 31 ->
  0 <= fst (normalize_weights a b) < 2 ^ 24 /\ 0 <= snd (normalize_weights a b) < 2 ^ 24.
Proof.
  intros A B. unfold normalize_weights. destruct (Z.eqb_spec (Z.land (Z.lor a b) 2130706432) 0) as [E|E].
  - apply land_high_zero in E; [|lia|lia]. cbn [fst snd]. lia.
  - rewrite !lz32_pos by lia. set (il := 32 - Z.min (31 - Z.log2 a) (31 - Z.log2 b)).
    destruct (Z.leb_spec 24 il) as [L|L]; cbn [fst snd].
    + split; apply shiftr_lt24; unfold il; lia.
    + assert (H : forall x, 0 < x -> Z.log2 x + 1 <= il -> x < 2 ^ 24) by (intros x X Y; apply Z.log2_lt_pow2; lia).
      pose proof (H a ltac:(lia) ltac:(unfold il; lia)). pose proof (H b ltac:(lia) ltac:(unfold il; lia)). lia.
Qed.

Lemma norm_accurate a b : 1 <= a < 2 ^ 31 -> 1 <= b < 2 ^ 31 ->
  let r := compute_normalized_weight a b mod 2 ^ 16 in
  0 <= r <= 2 ^ 15 /\ Z.abs (2 ^ 15 * a - r * (a + b)) <= 384 * (a + b).
Proof.
  intros A B. cbv zeta. split; [apply norm_ok; assumption|].
  unfold compute_normalized_weight. cbv zeta.
  set (total := a + b). assert (T : 2 <= total < 2 ^ 32) by (unfold total; lia).
  assert (LZ : leading_zeros64 total = 63 - Z.log2 total).
  { unfold leading_zeros64. destruct (Z.ltb_spec total 0); [lia|]. destruct (Z.eqb_spec total 0); [lia|]. reflexivity. }
  rewrite LZ. set (lg := Z.log2 total). assert (LG : 1 <= lg < 32).
  { unfold lg. split; [apply Z.log2_le_pow2; lia|apply Z.log2_lt_pow2; lia]. }
  assert (SP : 2 ^ lg <= total < 2 ^ (lg + 1)).
  { unfold lg. replace (Z.log2 total + 1) with (Z.succ (Z.log2 total)) by lia. apply Z.log2_spec. lia. }
  set (sh := Z.max (56 - (63 - lg)) 0). assert (SH : 0 <= sh /\ (sh = lg - 7 \/ sh = 0 /\ lg <= 7)) by (unfold sh; lia).
  assert (M : 0 < 2 ^ sh) by (apply Z.pow_pos_nonneg; lia).
  assert (T8 : 1 <= Z.shiftr total sh < 256 /\ (128 <= Z.shiftr total sh \/ 2 ^ sh = 1)).
  { rewrite Z.shiftr_div_pow2 by lia. destruct SH as (S0 & [S1|(S1 & S2)]).
    - assert (E1 : 2 ^ lg = 128 * 2 ^ sh) by (change 128 with (2 ^ 7); rewrite <- Z.pow_add_r by lia; f_equal; lia).
      assert (E2 : 2 ^ (lg + 1) = 256 * 2 ^ sh) by (change 256 with (2 ^ 8); rewrite <- Z.pow_add_r by lia; f_equal; lia).
      assert (128 <= total / 2 ^ sh) by (apply Z.div_le_lower_bound; lia).
      split; [|left; assumption]. split; [lia|apply Z.div_lt_upper_bound; lia].
    - rewrite S1. change (2 ^ 0) with 1. rewrite Z.div_1_r.
      assert (2 ^ (lg + 1) <= 2 ^ 8) by (apply Z.pow_le_mono_r; lia). change (2 ^ 8) with 256 in *. split; [lia|right; reflexivity]. }
  destruct T8 as (T8 & T9).
  assert (AT : 0 <= Z.shiftr a sh <= Z.shiftr total sh).
  { rewrite !Z.shiftr_div_pow2 by lia.
    split; [apply Z.div_pos; lia|]. apply Z.div_le_mono; unfold total; lia. }
  assert (Ea : Z.shiftr a sh * 2 ^ sh <= a < Z.shiftr a sh * 2 ^ sh + 2 ^ sh).
  { rewrite Z.shiftr_div_pow2 by lia. pose proof (Z.div_mod a (2 ^ sh) ltac:(lia)). pose proof (Z.mod_pos_bound a (2 ^ sh) M). lia. }
  assert (Et : Z.shiftr total sh * 2 ^ sh <= total < Z.shiftr total sh * 2 ^ sh + 2 ^ sh).
  { rewrite Z.shiftr_div_pow2 by lia. pose proof (Z.div_mod total (2 ^ sh) ltac:(lia)). pose proof (Z.mod_pos_bound total (2 ^ sh) M). lia. }
  set (t8 := Z.shiftr total sh) in *. set (a8 := Z.shiftr a sh) in *.
  assert (U1 : u16 a8 = a8) by (unfold u16; apply Z.mod_small; lia). rewrite U1.
  assert (U2 : u16 (Z.shiftl a8 8) = a8 * 256).
  { rewrite Z.shiftl_mul_pow2 by lia. unfold u16. change (2 ^ 8) with 256. apply Z.mod_small; lia. }
  rewrite U2. rewrite (Z.mod_small t8 256) by lia.
  assert (Q : 0 <= a8 * 256 / t8 <= 256).
  { split; [apply Z.div_pos; lia|]. apply Z.div_le_upper_bound; [lia|]. clear -AT T8. nia. }
  rewrite lookup_divisor8_ok by lia. rewrite fast_divide8_exact by lia.
  rewrite Z.shiftl_mul_pow2 by lia. change (2 ^ 7) with 128.
  pose proof (Z.div_mod (a8 * 256) t8 ltac:(lia)) as DM. pose proof (Z.mod_pos_bound (a8 * 256) t8 ltac:(lia)) as MB.
  set (q := a8 * 256 / t8) in *. set (r := (a8 * 256) mod t8) in *.
  assert (R : i16 (q * 128) mod 2 ^ 16 = q * 128).
  { unfold i16. change (2 ^ 15) with 32768. change (2 ^ 16) with 65536. clear - Q. lia. }
  rewrite R. change (2 ^ 15) with (128 * 256). replace (128 * 256 * a - q * 128 * total) with (128 * (256 * a - q * total)) by ring.
  rewrite Z.abs_mul. change (Z.abs 128) with 128.
  enough (Z.abs (256 * a - q * total) <= 3 * total) by lia.
  set (p := 2 ^ sh) in *. clearbody p. assert (AB : 0 <= a <= total) by (unfold total; lia).
  clearbody t8 a8 q r total. clear - DM MB Ea Et T8 T9 AT AB M Q.
  destruct T9 as [T9| ->].
  - assert (128 * p <= total) by nia.
    (* 256 a8 = q t8 + r *)
    assert (256 * a < 256 * (a8 * p) + 256 * p) by nia.
    assert (256 * (a8 * p) = q * (t8 * p) + r * p) by nia.
    assert (q * (t8 * p) <= q * total) by nia.
    assert (q * total <= q * (t8 * p) + q * p) by nia.
    assert (r * p <= t8 * p) by nia. assert (q * p <= 256 * p) by nia. lia.
  - assert (a8 = a) by lia. assert (t8 = total) by lia. subst. lia.
Qed.

Lemma weights_after_ok hist : wt_ok (weights_after weights_new hist) /\
  mixing_param (weights_after weights_new hist) = mixing_param weights_new.
Proof.
  assert (G : forall w, wt_ok w -> wt_ok (weights_after w hist) /\ mixing_param (weights_after w hist) = mixing_param w).
  { induction hist as [|((p0, p1), q) hist IH]; intros w W; [now split|].
    unfold weights_after in *. cbn [fold_left].
    destruct (IH (weights_update w p0 p1 q) (weights_update_ok w p0 p1 q)) as (H1 & H2). split; [exact H1|]. rewrite H2. apply weights_update_mixing. }
  apply G, wt_new_ok.
Qed.
Lemma weights_rate hist :
  let w := weights_after weights_new hist in
  1 <= w0 w < 2 ^ 31 /\ 1 <= w1 w < 2 ^ 31 /\ 0 <= mixing_rate w <= 2 ^ 15 /\
  Z.abs (2 ^ 15 * w0 w - mixing_rate w * (w0 w + w1 w)) <= 384 * (w0 w + w1 w).
Proof.
  cbv zeta.
  assert (G : forall w, wt_ok w -> Z.abs (2 ^ 15 * w0 w - mixing_rate w * (w0 w + w1 w)) <= 384 * (w0 w + w1 w) ->
    let w := weights_after w hist in Z.abs (2 ^ 15 * w0 w - mixing_rate w * (w0 w + w1 w)) <= 384 * (w0 w + w1 w)).
  { induction hist as [|((p0, p1), q) hist IH]; intros w W H; [exact H|].
    unfold weights_after in *. cbn [fold_left]. apply IH; [apply weights_update_ok|].
    pose proof (weights_update_ok w p0 p1 q) as (H1 & H2 & _). revert H1 H2.
    unfold weights_update, mixing_rate. destruct (normalize_weights (w0 w) (w1 w)) as (a, b). cbn [w0 w1 norm_weight]. intros H1 H2.
    apply norm_accurate; assumption. }
  destruct (weights_after_ok hist) as ((H1 & H2 & H3) & _). repeat (split; [assumption|]).
  apply G; [apply wt_new_ok|]. vm_compute. discriminate.
Qed.
Lemma weights_exact w p0 p1 q : wt_ok w -> 0 <= p0 <= 2 ^ 15 -> 0 <= p1 <= 2 ^ 15 -> 1 <= q < 2 ^ 15 ->
  let w' := weights_update w p0 p1 q in
  let '(a, b) := normalize_weights (w0 w) (w1 w) in
  w0 w' = weight_step p0 q a /\ w1 w' = weight_step p1 q b /\ weight_step p0 q a < 2 ^ 31 /\ weight_step p1 q b < 2 ^ 31.
Proof.
  intros (W0 & W1 & _) P0 P1 Q. cbv zeta. unfold weights_update. pose proof (normalize_range _ _ W0 W1) as (N0 & N1).
  destruct (normalize_weights (w0 w) (w1 w)) as (a, b). cbn [fst snd w0 w1] in *.
  destruct (new_weight_exact p0 q a P0 Q N0) as (-> & ?). destruct (new_weight_exact p1 q b P1 Q N1) as (-> & ?).
  intuition.
Qed.
Lemma weights_history_exact hist p0 p1 q : 0 <= p0 <= 2 ^ 15 -> 0 <= p1 <= 2 ^ 15 -> 1 <= q < 2 ^ 15 ->
  let w := weights_after weights_new hist in
  let w' := weights_update w p0 p1 q in
  let '(a, b) := normalize_weights (w0 w) (w1 w) in
  w0 w' = weight_step p0 q a /\ w1 w' = weight_step p1 q b /\ weight_step p0 q a < 2 ^ 31 /\ weight_step p1 q b < 2 ^ 31.
Proof. intros. apply weights_exact; try assumption. apply weights_after_ok. Qed.
