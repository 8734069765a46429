(** The SIMD distributions are the reference ones. *)
From Verif Require Import Prelude ModelAns SpecAns ModelCdf ModelSimd SpecCdf SpecSimd ProofCdf.

Lemma u16_id x : 0 <= x < 2 ^ 16 -> u16 x = x.
Proof. intros H. unfold u16. apply Z.mod_small. exact H. Qed.

(** ** adaptation *)
Lemma simd_blend_eq c sym inc lim : length c = 16%nat -> Forall (fun x => 0 <= x <= 32767) c -> nibble sym ->
  simd_blend c sym inc lim = blend c sym inc lim.
Proof.
  intros L F N.
  assert (E : add16 c (and16 (splat16 inc) (gt16 one_to_16 (splat16 sym))) = blend_add 0 sym inc c).
  { destruct (len16 c L) as (a0 & a1 & a2 & a3 & a4 & a5 & a6 & a7 & a8 & a9 & a10 & a11 & a12 & a13 & a14 & a15 & ->).
    assert (A : forall x y i, 0 <= x <= 32767 -> y = i + 1 -> i16 (x + Z.land inc (mask (sym <? y))) = if sym <=? i then i16 (x + inc) else x).
    { intros x y i X ->. destruct (Z.leb_spec sym i), (Z.ltb_spec sym (i + 1)); try lia; unfold mask.
      - now rewrite Z.land_m1_r.
      - rewrite Z.land_0_r, Z.add_0_r. apply i16_id. lia. }
    unfold add16, and16, gt16, splat16, one_to_16. cbn [repeat lanes2 blend_add].
    repeat match goal with H : Forall _ (_ :: _) |- _ => apply Forall_cons_iff in H; destruct H end.
    do 16 (apply (f_equal2 cons); [apply A; [assumption|reflexivity]|]). reflexivity. }
  unfold simd_blend, blend. rewrite E. clear E.
  assert (L2 : length (blend_add 0 sym inc c) = 16%nat).
  { rewrite <- L. generalize 0. clear. induction c as [|x c IH]; intros i; cbn [blend_add length]; [reflexivity|]. now rewrite IH. }
  destruct (lim <=? _); [|reflexivity]. revert L2. generalize (blend_add 0 sym inc c). intros d L2.
  destruct (len16 d L2) as (a0 & a1 & a2 & a3 & a4 & a5 & a6 & a7 & a8 & a9 & a10 & a11 & a12 & a13 & a14 & a15 & ->).
  reflexivity.
Qed.
Lemma base_range c : base_ok c -> Forall (fun x => 0 <= x <= 32767) c.
Proof.
  intros (_ & G & M). assert (H : forall c p, 0 <= p -> gaps 3 p c -> lastz p c <= 16384 -> Forall (fun x => 0 <= x <= 32767) c).
  { clear. induction c as [|x c IH]; intros p P G M; [constructor|]. cbn [gaps lastz] in *. destruct G as (G1 & G2).
    pose proof (gaps_last 3 x c ltac:(lia) G2). constructor; [lia|]. apply (IH x); try assumption; lia. }
  apply (H c 0); try assumption; lia.
Qed.
Lemma run_simd_eq h : hist_ok h -> run_simd h = run_ref h.
Proof.
  induction h as [|h IH sym inc lim]; cbn [hist_ok run_simd run_ref]; [reflexivity|].
  intros (H & N & _ & _). rewrite (IH H). pose proof (run_ref_ok h H) as B.
  apply simd_blend_eq; [apply B|now apply base_range|exact N].
Qed.

(** ** mixing *)
Lemma avg8_eq u v sh mix : 0 <= mix <= 2 ^ 15 -> 0 <= sh -> 0 <= u <= 32767 -> 0 <= v <= 32767 -> u * v / 2 ^ sh <= 32767 ->
  forall c o, Forall (fun x => 0 <= x <= u) c -> Forall (fun x => 0 <= x <= v) o -> length c = length o ->
  map i16 (avg8 c o u v sh mix) = avg_loop c o u v sh mix.
Proof.
  intros Hm Hs Hu Hv HM. assert (PS : 0 < 2 ^ sh) by (apply Z.pow_pos_nonneg; lia).
  induction c as [|x c IH]; intros [|y o] Fc Fo L; try discriminate L; [reflexivity|].
  apply Forall_cons_iff in Fc, Fo. destruct Fc as (Hx & Fc), Fo as (Hy & Fo).
  unfold avg8 in *. cbn [lanes2 map avg_loop]. rewrite <- IH by (auto; cbn [length] in L; lia). f_equal. f_equal. f_equal.
  rewrite (i32_id (x * v)) by nia. rewrite (i32_id (y * u)) by nia.
  rewrite !Z.shiftr_div_pow2 by lia.
  pose proof (scaled_bound x u v (2 ^ sh) 32767 Hx ltac:(lia) PS HM) as BX.
  assert (HM2 : v * u / 2 ^ sh <= 32767) by (rewrite Z.mul_comm; exact HM).
  pose proof (scaled_bound y v u (2 ^ sh) 32767 Hy ltac:(lia) PS HM2) as BY.
  generalize dependent (x * v / 2 ^ sh). intros X BX. generalize dependent (y * u / 2 ^ sh). intros Y BY.
  pose proof (mix_bound X Y mix (2 ^ 15) 32767 BX BY Hm) as R. clear - R BX BY Hm.
  assert (0 <= X * mix) by nia. assert (0 <= Y * (2 ^ 15 - mix)) by nia.
  rewrite (i32_id (X * mix)) by lia. rewrite (i32_id (Y * _)) by lia.
  rewrite (i32_id (X * mix + _)) by lia. rewrite i32_id by lia. reflexivity.
Qed.
Lemma max_range c : base_ok c -> 48 <= cdf_max c <= 16384 /\ Forall (fun x => 0 <= x <= cdf_max c) c.
Proof.
  intros (L & G & M). rewrite last_max in M by exact L.
  destruct (len16 c L) as (a0 & a1 & a2 & a3 & a4 & a5 & a6 & a7 & a8 & a9 & a10 & a11 & a12 & a13 & a14 & a15 & ->).
  cbn [gaps] in G. unfold cdf_max in *. cbn [nth] in *. split; [lia|].
  repeat (apply Forall_cons; [lia|]). apply Forall_nil.
Qed.
Lemma avg_loop_app u v sh mix : forall a b c d, length a = length b ->
  avg_loop (a ++ c) (b ++ d) u v sh mix = avg_loop a b u v sh mix ++ avg_loop c d u v sh mix.
Proof. induction a as [|x a IH]; intros [|y b] c d L; try discriminate L; [reflexivity|]. cbn [app avg_loop]. rewrite IH by (cbn [length] in L; lia). reflexivity. Qed.
Lemma simd_average_eq c o mix : base_ok c -> base_ok o -> 0 <= mix <= 2 ^ 15 -> simd_average c o mix = average c o mix.
Proof.
  intros Bc Bo Hm. destruct (max_range c Bc) as (Uc & Fc). destruct (max_range o Bo) as (Uo & Fo).
  unfold simd_average, average. set (u := cdf_max c) in *. set (v := cdf_max o) in *.
  rewrite (i32_id (u * v)) by nia. set (m := u * v). set (sh := 17 - Z.min (leading_zeros32 m) 17).
  assert (Hm2 : 0 < m < 2 ^ 31) by (unfold m; nia).
  pose proof (lz_bits m Hm2) as LZ.
  assert (Hlz : 0 <= leading_zeros32 m <= 31).
  { unfold leading_zeros32. destruct (Z.eqb_spec m 0); [lia|].
    pose proof (Z.log2_nonneg m). assert (Z.log2 m < 31) by (apply Z.log2_lt_pow2; lia). lia. }
  assert (Hsh : 0 <= sh) by (unfold sh; lia).
  assert (Hms : m / 2 ^ sh <= 32767).
  { assert (m < 2 ^ 15 * 2 ^ sh).
    { rewrite <- Z.pow_add_r by lia. apply Z.lt_le_trans with (2 ^ (32 - leading_zeros32 m)); [lia|].
      apply Z.pow_le_mono_r; unfold sh; lia. }
    assert (m / 2 ^ sh < 2 ^ 15) by (apply Z.div_lt_upper_bound; [apply Z.pow_pos_nonneg; lia|lia]). lia. }
  clearbody sh. destruct Bc as (Lc & _), Bo as (Lo & _).
  assert (W : forall l, length l = 16%nat -> Forall (fun x => 0 <= x < 2 ^ 16) l -> widen l = (firstn 8 l, skipn 8 l)).
  { clear. intros l L F. destruct (len16 l L) as (a0 & a1 & a2 & a3 & a4 & a5 & a6 & a7 & a8 & a9 & a10 & a11 & a12 & a13 & a14 & a15 & ->).
    repeat match goal with H : Forall _ (_ :: _) |- _ => apply Forall_cons_iff in H; destruct H end.
    unfold widen. cbn [seq map nth firstn skipn]. rewrite !u16_id by assumption. reflexivity. }
  rewrite (W c Lc), (W o Lo) by (eapply Forall_impl; [|eassumption]; cbn beta; intros ? ?; lia).
  unfold narrow. rewrite map_app.
  assert (FS : forall n P (l : list Z), Forall P l -> Forall P (firstn n l) /\ Forall P (skipn n l)).
  { clear. intros n P l F. rewrite <- (firstn_skipn n l) in F. apply Forall_app in F. exact F. }
  rewrite !(avg8_eq u v sh mix) by (try exact Hms; try lia; try (apply FS; assumption); rewrite ?firstn_length, ?skipn_length; lia).
  rewrite <- avg_loop_app by (rewrite !firstn_length; lia). now rewrite !firstn_skipn.
Qed.
Lemma eval_simd_eq d : dist_ok d -> eval_simd d = eval_ref d.
Proof.
  destruct d as [h|h1 h2 mix]; cbn [dist_ok eval_simd eval_ref]; [apply run_simd_eq|].
  intros (H1 & H2 & M). rewrite !run_simd_eq by assumption. apply simd_average_eq; auto using run_ref_ok.
Qed.

(** ** the division in double precision *)
Lemma round_div_bounds n d : 0 < d -> n / d <= round_div n d <= n / d + 1 /\ (round_div n d = n / d + 1 -> d <= 2 * (n mod d)).
Proof.
  intros D. unfold round_div. pose proof (Z.mod_pos_bound n d D).
  destruct (Z.ltb_spec (2 * (n mod d)) d), (Z.ltb_spec d (2 * (n mod d))), (Z.even (n / d)); lia.
Qed.
Lemma f64_exact a b : 0 <= a < 2 ^ 31 -> 1 <= b < 2 ^ 16 -> f64_trunc (f64_div a b) = a / b.
Proof.
  intros A B. unfold f64_div. destruct (Z.eqb_spec a 0) as [->|NZ].
  { cbn [f64_trunc]. rewrite Z.div_0_l by lia. reflexivity. }
  assert (LA : 0 <= Z.log2 a < 31) by (split; [apply Z.log2_nonneg|apply Z.log2_lt_pow2; lia]).
  assert (LB : 0 <= Z.log2 b) by apply Z.log2_nonneg.
  set (e0 := Z.log2 a - Z.log2 b - 52). cbv zeta.
  set (e := if _ <? _ then e0 - 1 else e0).
  assert (E : e <= -21). { unfold e. destruct (_ <? _); unfold e0; lia. }
  clearbody e. rewrite (Z.max_l 0 e), (Z.max_r 0 (- e)) by lia. change (2 ^ 0) with 1. rewrite Z.mul_1_r.
  unfold f64_trunc. rewrite (Z.max_l 0 e), (Z.max_r 0 (- e)) by lia. change (2 ^ 0) with 1. rewrite Z.mul_1_r.
  assert (PK : 2 ^ 21 <= 2 ^ (- e)) by (apply Z.pow_le_mono_r; lia).
  set (K := 2 ^ (- e)) in *. clearbody K. change (2 ^ 21) with 2097152 in PK.
  destruct (round_div_bounds (a * K) b ltac:(lia)) as ((R1 & R2) & R3).
  set (m := round_div (a * K) b) in *. clearbody m.
  assert (Q0 : a * K / b / K = a / b).
  { rewrite Z.div_div by lia. rewrite (Z.mul_comm b K), (Z.mul_comm a K). apply Z.div_mul_cancel_l; lia. }
  pose proof (Z.div_mod a b ltac:(lia)) as DA. pose proof (Z.mod_pos_bound a b ltac:(lia)) as MA.
  pose proof (Z.div_mod (a * K) b ltac:(lia)) as DN. pose proof (Z.mod_pos_bound (a * K) b ltac:(lia)) as MN.
  set (q := a / b) in *. set (r := a mod b) in *. set (Q := a * K / b) in *. set (S := (a * K) mod b) in *.
  clearbody q r Q S.
  pose proof (Z.div_mod Q K ltac:(lia)) as DQ. pose proof (Z.mod_pos_bound Q K ltac:(lia)) as MQ. rewrite Q0 in DQ.
  assert (UP : m < (q + 1) * K).
  { destruct (Z.eq_dec m (Q + 1)) as [EM|EM]; [|nia]. specialize (R3 EM).
    destruct (Z.eq_dec (Q mod K) (K - 1)) as [EQ|EQ]; [|nia]. exfalso.
    assert (QQ : Q = (q + 1) * K - 1) by nia.
    (* b Q + S = a K <= ((q+1) b - 1) K *)
    assert (a <= (q + 1) * b - 1) by nia.
    assert (a * K <= ((q + 1) * b - 1) * K) by (apply Z.mul_le_mono_nonneg_r; lia).
    assert (b * Q + S = (q + 1) * b * K - b + S) by (rewrite QQ; ring).
    nia. }
  symmetry. apply Z.div_unique with (r := m - K * q); [|ring]. left. nia.
Qed.

(** ** intervals *)
Lemma simd_interval_eq c s : codable c -> nibble s -> simd_interval c s = ref_interval c s.
Proof.
  intros C N. pose proof C as (L & T & H). unfold ref_interval.
  rewrite (interval_eq _ c s C (divides_ref c ltac:(lia)) N).
  pose proof (bnd_facts c s C N) as (B1 & B2 & B3).
  pose proof (cumul_prev_nonneg c s C N) as P0. pose proof (cumul_le_total c s C N) as P1.
  pose proof (codable_share c s C N) as P2. unfold share in P2.
  unfold simd_interval. rewrite cdf_max_total.
  assert (SC : forall x, 0 <= x <= 32767 -> f64_trunc (f64_div (i32 (Z.shiftl x 15)) (total c)) = x * 2 ^ 15 / total c).
  { intros x X. rewrite Z.shiftl_mul_pow2 by lia. rewrite i32_id by lia. apply f64_exact; lia. }
  assert (EP : (if negb (s =? 0) then cdf_at c (s - 1) else 0) = cumul c (s - 1)).
  { destruct (Z.eqb_spec s 0) as [->|E]; cbn [negb]; [now rewrite cumul_neg by lia|].
    apply cdf_at_cumul. unfold nibble in *. lia. }
  rewrite EP, (cdf_at_cumul c s N), !SC by lia.
  change (cumul c s * 2 ^ 15 / total c) with (bnd c s). change (cumul c (s - 1) * 2 ^ 15 / total c) with (bnd c (s - 1)).
  assert (F : bnd c s - bnd c (s - 1) < 2 ^ 15).
  { destruct (Z.eq_dec s 0) as [->|E0].
    - pose proof (bnd_facts c 15 C ltac:(unfold nibble; lia)) as (X1 & X2 & X3).
      pose proof (bnd_mono c 0 (15 - 1) C ltac:(unfold nibble; lia) ltac:(unfold nibble; lia) ltac:(lia)). lia.
    - pose proof (bnd_facts c (s - 1) C ltac:(unfold nibble in *; lia)) as (X1 & X2 & X3). lia. }
  rewrite !i16_id by lia. f_equal. lia.
Qed.

(** ** lookup *)
Definition first_n (n : nat) : list Z := repeat (-1) n ++ repeat 0 (16 - n).
Lemma sym_of_mask n : (n < 16)%nat ->
  sym_portable (first_n n) = Z.of_nat n /\ sym_avx2 (first_n n) = Z.of_nat n /\ sym_sse (first_n n) = Z.of_nat n.
Proof.
  intros H. do 16 (destruct n as [|n]; [vm_compute; repeat split; reflexivity|]). lia.
Qed.
Lemma ge_mask off : forall c p i, gaps 1 p c -> off < lastz p c -> c <> [] ->
  exists n, find_sym i c off = i + Z.of_nat n /\ (n < length c)%nat /\
    lanes2 (fun x y => mask (y <=? x)) (repeat off (length c)) c = repeat (-1) n ++ repeat 0 (length c - n).
Proof.
  assert (Z0 : forall c x, gaps 1 x c -> off < x -> lanes2 (fun x y => mask (y <=? x)) (repeat off (length c)) c = repeat 0 (length c)).
  { induction c as [|y c IH]; intros x G H; cbn [length repeat lanes2]; [reflexivity|]. cbn [gaps] in G. destruct G as (G1 & G2).
    rewrite (IH y) by (auto; lia). destruct (Z.leb_spec y off); [lia|]. reflexivity. }
  induction c as [|x c IH]; intros p i G LT NE; [congruence|].
  cbn [gaps lastz] in *. destruct G as (G1 & G2). cbn [length repeat lanes2].
  destruct c as [|y c].
  - exists 0%nat. cbn [find_sym length repeat lanes2 app Nat.sub] in *. split; [lia|]. split; [lia|].
    cbn [lastz] in LT. destruct (Z.leb_spec x off); [lia|]. reflexivity.
  - change (find_sym i (x :: y :: c) off) with (if off <? x then i else find_sym (i + 1) (y :: c) off). destruct (Z.ltb_spec off x) as [HL|HL].
    + exists 0%nat. split; [lia|]. split; [lia|]. rewrite (Z0 (y :: c) x G2 HL).
      destruct (Z.leb_spec x off); [lia|]. reflexivity.
    + destruct (IH x (i + 1) G2 LT ltac:(discriminate)) as (n & E1 & E2 & E3).
      exists (S n). split; [rewrite E1; lia|]. split; [lia|]. rewrite E3.
      destruct (Z.leb_spec x off); [|lia]. reflexivity.
Qed.
Lemma nth_gaps lo : forall c prev, (forall i, (i < length c)%nat -> prev + lo <= nth 0 c prev \/ (0 < i)%nat) ->
  (forall i, (S i < length c)%nat -> nth i c 0 + lo <= nth (S i) c 0) -> gaps lo prev c.
Proof.
  induction c as [|x c IH]; intros prev H0 H; cbn [gaps]; [exact I|]. split.
  - destruct (H0 0%nat ltac:(cbn [length]; lia)); [assumption|lia].
  - apply IH.
    + intros i Hi. left. destruct c as [|y c]; [cbn [length] in Hi; lia|]. apply (H 0%nat). cbn [length]. lia.
    + intros i Hi. apply (H (S i)). cbn [length]. lia.
Qed.
Lemma codable_gaps c : codable c -> gaps 1 0 c /\ lastz 0 c = cdf_max c.
Proof.
  intros C. pose proof C as (L & T & H). split; [|now apply last_max].
  assert (S : forall s, nibble s -> 1 <= share c s) by (intros; now apply codable_share).
  apply nth_gaps; rewrite L.
  - intros i _. left. specialize (S 0 ltac:(unfold nibble; lia)). unfold share, cumul in S.
    change (0 <? 0) with false in S. change (0 - 1 <? 0) with true in S. cbn iota in S. change (Z.to_nat 0) with 0%nat in S.
    destruct c; [discriminate L|]. cbn [nth] in *. lia.
  - intros i Hi. specialize (S (Z.of_nat i + 1) ltac:(unfold nibble; lia)). unfold share, cumul in S.
    destruct (Z.ltb_spec (Z.of_nat i + 1) 0); [lia|]. destruct (Z.ltb_spec (Z.of_nat i + 1 - 1) 0); [lia|].
    replace (Z.to_nat (Z.of_nat i + 1)) with (Datatypes.S i) in S by lia.
    replace (Z.to_nat (Z.of_nat i + 1 - 1)) with i in S by lia. lia.
Qed.
Lemma simd_lookup_eq sym_of c off : (forall n, (n < 16)%nat -> sym_of (first_n n) = Z.of_nat n) ->
  codable c -> 0 <= off < 2 ^ 15 -> simd_lookup sym_of c off = ref_lookup c off.
Proof.
  intros SO C O. pose proof C as (L & T & H). unfold simd_lookup, ref_lookup, offset_to_sym. rewrite cdf_max_total.
  assert (PR : 0 <= off * total c < 2 ^ 15 * total c) by nia.
  rewrite (i32_id (off * total c)) by nia. rewrite Z.shiftr_div_pow2 by lia.
  set (r := off * total c / 2 ^ 15).
  assert (R0 : 0 <= r < total c).
  { unfold r. split; [apply Z.div_pos; lia|]. apply Z.div_lt_upper_bound; lia. }
  rewrite i16_id by lia. destruct (codable_gaps c C) as (G & LM). rewrite cdf_max_total in LM.
  destruct (ge_mask r c 0 0 G ltac:(lia)) as (n & E1 & E2 & E3); [intros ->; discriminate L|].
  rewrite L in E2, E3. unfold ge16, splat16. rewrite E3. fold (first_n n). rewrite SO by lia. rewrite E1, Z.add_0_l.
  rewrite simd_interval_eq by (auto; unfold nibble; lia). reflexivity.
Qed.
