(** Proofs about the nibble distributions. *)
From Verif Require Import Prelude ModelAns SpecAns ModelCdf SpecCdf ProofAns ProofAnsRt.
From Verif Require Import ModelDivLut0 ModelDivLut1 ModelDivLut2 ModelDivLut3.

Lemma nibble_cases s : nibble s ->
  s = 0 \/ s = 1 \/ s = 2 \/ s = 3 \/ s = 4 \/ s = 5 \/ s = 6 \/ s = 7 \/
  s = 8 \/ s = 9 \/ s = 10 \/ s = 11 \/ s = 12 \/ s = 13 \/ s = 14 \/ s = 15.
Proof. unfold nibble. lia. Qed.

Lemma land15 s : nibble s -> Z.land s 15 = s.
Proof.
  intros H. change 15 with (2 ^ 4 - 1). rewrite land_mask by lia.
  apply Z.mod_small. unfold nibble in H. lia.
Qed.

Lemma cdf_at_cumul c s : nibble s -> cdf_at c s = cumul c s.
Proof.
  intros H. unfold cdf_at, cumul. rewrite land15 by auto.
  destruct (Z.ltb_spec s 0); auto. unfold nibble in H. lia.
Qed.

Lemma cdf_max_total c : cdf_max c = total c.
Proof. reflexivity. Qed.

Lemma i16_id x : - 2 ^ 15 <= x < 2 ^ 15 -> i16 x = x.
Proof. unfold i16. intros. rewrite Z.mod_small; lia. Qed.
Lemma i32_id x : - 2 ^ 31 <= x < 2 ^ 31 -> i32 x = x.
Proof. unfold i32. intros. rewrite Z.mod_small; lia. Qed.

Lemma codable_share c s : codable c -> nibble s -> 1 <= share c s.
Proof. intros (L & T & H) N. specialize (H s N). lia. Qed.

Lemma cumul_mono c s t : codable c -> nibble s -> nibble t -> s <= t -> cumul c s <= cumul c t.
Proof.
  intros C Hs Ht Hst.
  assert (G : forall n, Z.of_nat n <= 15 - s -> cumul c s <= cumul c (s + Z.of_nat n)).
  { induction n as [|n IH]; intros Hn.
    - rewrite Z.add_0_r. lia.
    - specialize (IH ltac:(lia)).
      pose proof (codable_share c (s + Z.of_nat (S n)) C) as P.
      unfold share in P. unfold nibble in *. specialize (P ltac:(lia)).
      replace (s + Z.of_nat (S n) - 1) with (s + Z.of_nat n) in P by lia. lia. }
  specialize (G (Z.to_nat (t - s)) ltac:(unfold nibble in *; lia)).
  replace (s + Z.of_nat (Z.to_nat (t - s))) with t in G by lia. exact G.
Qed.

Lemma cumul_neg c s : s < 0 -> cumul c s = 0.
Proof. intros. unfold cumul. destruct (Z.ltb_spec s 0); lia. Qed.

(** the boundaries of the intervals *)
Definition bnd (c : list Z) (s : Z) : Z := cumul c s * 2 ^ 15 / total c.

Lemma cumul_prev_nonneg c s : codable c -> nibble s -> 0 <= cumul c (s - 1).
Proof.
  intros C N. pose proof C as (L & T & H).
  destruct (Z.eq_dec s 0) as [->|E].
  - rewrite cumul_neg; lia.
  - pose proof (codable_share c 0 C ltac:(unfold nibble; lia)) as P. unfold share in P.
    rewrite (cumul_neg c (0 - 1)) in P by lia.
    pose proof (cumul_mono c 0 (s - 1) C) as M. unfold nibble in *.
    specialize (M ltac:(lia) ltac:(lia) ltac:(lia)). lia.
Qed.

Lemma cumul_le_total c s : codable c -> nibble s -> cumul c s <= total c.
Proof. intros. unfold total. apply cumul_mono; auto; unfold nibble in *; lia. Qed.

Lemma bnd_facts c s : codable c -> nibble s ->
  0 <= bnd c (s - 1) /\ bnd c (s - 1) + 2 <= bnd c s /\ bnd c s <= 2 ^ 15.
Proof.
  intros C N. pose proof C as (L & T & H).
  pose proof (cumul_prev_nonneg c s C N) as P0. pose proof (cumul_le_total c s C N) as P1.
  specialize (H s N). unfold share in H. unfold bnd.
  set (p := cumul c (s - 1)) in *. set (x := cumul c s) in *. set (m := total c) in *.
  split; [apply Z.div_pos; lia|]. split.
  - apply Z.div_le_lower_bound; [lia|].
    pose proof (Z.mul_div_le (p * 2 ^ 15) m ltac:(lia)). lia.
  - apply Z.div_le_upper_bound; lia.
Qed.

Lemma bnd_last c : codable c -> bnd c 15 = 2 ^ 15.
Proof. intros (L & T & _). unfold bnd. fold (total c). rewrite Z.mul_comm. apply Z.div_mul. lia. Qed.

Lemma bnd_mono c s t : codable c -> nibble s -> nibble t -> s <= t -> bnd c s <= bnd c t.
Proof.
  intros C Hs Ht Hst. unfold bnd. pose proof C as (L & T & _). apply Z.div_le_mono; [lia|].
  pose proof (cumul_mono c s t C Hs Ht Hst). lia.
Qed.

(** [div] divides correctly by the total on the values the coder uses *)
Definition divides (div : Z -> Z) (c : list Z) : Prop :=
  forall v, 0 <= v <= 32767 * 2 ^ 15 -> div v = v / total c.

Lemma divides_ref c : 0 < total c -> divides (div_by_max_ref c) c.
Proof.
  intros T v V. unfold div_by_max_ref. rewrite cdf_max_total. apply Z.quot_div_nonneg; lia.
Qed.

(** every symbol but one leaves at least two units, so no interval is too long *)
Lemma interval_eq div c s : codable c -> divides div c -> nibble s ->
  sym_to_start_and_freq div c s = (bnd c (s - 1) + 1, bnd c s - bnd c (s - 1) - 1).
Proof.
  intros C D N. pose proof C as (L & T & H).
  pose proof (bnd_facts c s C N) as (B1 & B2 & B3).
  pose proof (cumul_prev_nonneg c s C N) as P0. pose proof (cumul_le_total c s C N) as P1.
  pose proof (codable_share c s C N) as P2. unfold share in P2.
  unfold sym_to_start_and_freq.
  rewrite !Z.shiftl_mul_pow2 by lia. rewrite (cdf_at_cumul c s N).
  rewrite (D (cumul c s * 2 ^ 15)) by lia. change (cumul c s * 2 ^ 15 / total c) with (bnd c s).
  assert (E : (if negb (s =? 0) then div (cdf_at c (s - 1) * 2 ^ 15) else 0) = bnd c (s - 1)).
  { destruct (Z.eqb_spec s 0) as [->|E]; cbn [negb].
    - unfold bnd. rewrite cumul_neg by lia. symmetry. apply Z.div_0_l. lia.
    - rewrite cdf_at_cumul by (unfold nibble in *; lia). rewrite D by lia. reflexivity. }
  rewrite E.
  (* not the whole scale: another symbol has room *)
  assert (F : bnd c s - bnd c (s - 1) < 2 ^ 15).
  { destruct (Z.eq_dec s 15) as [->|E15].
    - pose proof (bnd_facts c 14 C ltac:(unfold nibble; lia)) as (X1 & X2 & X3).
      change (15 - 1) with 14. lia.
    - pose proof (bnd_facts c 15 C ltac:(unfold nibble; lia)) as (X1 & X2 & X3).
      pose proof (bnd_mono c s (15 - 1) C N) as M. unfold nibble in *.
      specialize (M ltac:(lia) ltac:(lia)). lia. }
  assert (G : bnd c (s - 1) < 2 ^ 15) by lia.
  rewrite !i16_id by lia. reflexivity.
Qed.

Lemma find_sym_spec div_off : forall c i s,
  (Z.to_nat s < length c)%nat -> 0 <= s ->
  (forall j, 0 <= j < s -> nth (Z.to_nat j) c 0 <= div_off) ->
  (div_off < nth (Z.to_nat s) c 0 \/ S (Z.to_nat s) = length c) ->
  find_sym i c div_off = i + s.
Proof.
  induction c as [|x c IH]; intros i s Hl Hs Hlo Hhi; cbn [length] in *; [lia|].
  cbn [find_sym]. destruct c as [|y c].
  - cbn [length] in *. lia.
  - destruct (Z.eq_dec s 0) as [->|E].
    + cbn [nth Z.to_nat] in Hhi. change (Z.to_nat 0) with 0%nat in Hhi. cbn [nth length] in Hhi.
      destruct (Z.ltb_spec div_off x); lia.
    + pose proof (Hlo 0 ltac:(lia)) as H0. change (Z.to_nat 0) with 0%nat in H0. cbn [nth] in H0.
      destruct (Z.ltb_spec div_off x); [lia|].
      replace (Z.to_nat s) with (S (Z.to_nat (s - 1))) in * by lia.
      rewrite (IH (i + 1) (s - 1)); try lia.
      * intros j Hj. specialize (Hlo (j + 1) ltac:(lia)).
        replace (Z.to_nat (j + 1)) with (S (Z.to_nat j)) in Hlo by lia. exact Hlo.
      * destruct Hhi as [Hhi|Hhi]; [left; exact Hhi|right]. cbn [length] in *. lia.
Qed.

Lemma lookup_ok div c s off : codable c -> divides div c -> nibble s ->
  bnd c (s - 1) + 1 <= off < bnd c s ->
  offset_to_sym div c off = (s, bnd c (s - 1) + 1, bnd c s - bnd c (s - 1) - 1).
Proof.
  intros C D N O. pose proof C as (L & T & H).
  pose proof (bnd_facts c s C N) as (B1 & B2 & B3).
  unfold offset_to_sym. rewrite cdf_max_total.
  rewrite Z.shiftr_div_pow2 by lia.
  set (m := total c) in *. set (r := off * m / 2 ^ 15).
  assert (R0 : 0 <= r < m).
  { unfold r. split; [apply Z.div_pos; nia|]. apply Z.div_lt_upper_bound; [lia|]. nia. }
  assert (R1 : cumul c (s - 1) <= r).
  { unfold r. apply Z.div_le_lower_bound; [lia|].
    unfold bnd in O. fold m in O.
    pose proof (Z.mod_pos_bound (cumul c (s - 1) * 2 ^ 15) m ltac:(lia)).
    pose proof (Z.div_mod (cumul c (s - 1) * 2 ^ 15) m ltac:(lia)). nia. }
  assert (R2 : r < cumul c s).
  { unfold r. apply Z.div_lt_upper_bound; [lia|].
    unfold bnd in O. fold m in O.
    pose proof (Z.mul_div_le (cumul c s * 2 ^ 15) m ltac:(lia)). nia. }
  rewrite i16_id by lia.
  rewrite (find_sym_spec r c 0 s).
  - rewrite Z.add_0_l, interval_eq by auto. reflexivity.
  - rewrite L. unfold nibble in N. lia.
  - unfold nibble in N. lia.
  - intros j Hj. apply Z.le_trans with (cumul c (s - 1)); [|exact R1].
    replace (nth (Z.to_nat j) c 0) with (cumul c j).
    + apply cumul_mono; auto; unfold nibble in *; lia.
    + unfold cumul. destruct (Z.ltb_spec j 0); lia.
  - left. unfold cumul in R2. destruct (Z.ltb_spec s 0); auto. unfold nibble in N. lia.
Qed.

Lemma codable_codes div c s : codable c -> divides div c -> nibble s ->
  codes (offset_to_sym div c) s (sym_to_start_and_freq div c s).
Proof.
  intros C D N. rewrite interval_eq by auto.
  pose proof (bnd_facts c s C N) as (B1 & B2 & B3).
  split; cbn [fst snd].
  - unfold legal. split; [lia|]. split; [|lia]. split; [lia|].
    pose proof C as (L & T & H).
    destruct (Z.eq_dec s 15) as [->|E15].
    + pose proof (bnd_facts c 14 C ltac:(unfold nibble; lia)) as (X1 & X2 & X3).
      change (15 - 1) with 14. lia.
    + pose proof (bnd_facts c 15 C ltac:(unfold nibble; lia)) as (X1 & X2 & X3).
      pose proof (bnd_mono c s (15 - 1) C N) as M. unfold nibble in *.
      specialize (M ltac:(lia) ltac:(lia)). lia.
  - intros off O. apply lookup_ok; auto. lia.
Qed.

Lemma intervals_ordered div c s t : codable c -> divides div c -> nibble s -> nibble t -> s < t ->
  fst (sym_to_start_and_freq div c s) + snd (sym_to_start_and_freq div c s) <
  fst (sym_to_start_and_freq div c t).
Proof.
  intros C D Ns Nt H. rewrite !interval_eq by auto. cbn [fst snd].
  pose proof (bnd_mono c s (t - 1) C Ns) as M. unfold nibble in *.
  specialize (M ltac:(lia) ltac:(lia)). lia.
Qed.

(** ** Adaptation *)
(** consecutive entries differ by at least [lo] *)
Fixpoint gaps (lo prev : Z) (c : list Z) : Prop :=
  match c with
  | [] => True
  | x :: c => prev + lo <= x /\ gaps lo x c
  end.
Fixpoint lastz (prev : Z) (c : list Z) : Z :=
  match c with [] => prev | x :: c => lastz x c end.

Lemma gaps_last lo prev c : 0 <= lo -> gaps lo prev c -> prev <= lastz prev c.
Proof.
  revert prev; induction c as [|x c IH]; cbn [gaps lastz]; intros prev Hl G; [lia|].
  destruct G as (G1 & G2). specialize (IH x Hl G2). lia.
Qed.

Definition base_ok (c : list Z) : Prop :=
  length c = 16%nat /\ gaps 3 0 c /\ lastz 0 c <= 16384.

Lemma len16 (c : list Z) : length c = 16%nat ->
  exists a0 a1 a2 a3 a4 a5 a6 a7 a8 a9 a10 a11 a12 a13 a14 a15,
  c = [a0; a1; a2; a3; a4; a5; a6; a7; a8; a9; a10; a11; a12; a13; a14; a15].
Proof.
  intros L. do 16 (destruct c as [|? c]; [discriminate|]). destruct c; [|discriminate].
  repeat eexists.
Qed.

Lemma last_max c : length c = 16%nat -> lastz 0 c = cdf_max c.
Proof.
  intros L. destruct (len16 c L) as (a0 & a1 & a2 & a3 & a4 & a5 & a6 & a7 & a8 & a9 & a10 & a11 & a12 & a13 & a14 & a15 & ->).
  reflexivity.
Qed.

Lemma gaps_nth lo c : forall prev i, gaps lo prev c -> (i < length c)%nat ->
  lo <= nth i c 0 - nth i (prev :: c) 0.
Proof.
  induction c as [|x c IH]; intros prev i G H; cbn [length gaps] in *; [lia|].
  destruct G as (G1 & G2). destruct i as [|i]; [cbn [nth]; lia|].
  cbn [nth]. apply IH; auto. lia.
Qed.

Lemma gaps_shares lo c : length c = 16%nat -> gaps lo 0 c ->
  forall s, nibble s -> lo <= share c s.
Proof.
  intros L G s N. unfold nibble in N.
  pose proof (gaps_nth lo c 0 (Z.to_nat s) G ltac:(lia)) as P.
  unfold share, cumul. destruct (Z.ltb_spec s 0); [lia|].
  destruct (Z.ltb_spec (s - 1) 0).
  - replace (Z.to_nat s) with 0%nat in * by lia. exact P.
  - replace (Z.to_nat s) with (S (Z.to_nat (s - 1))) in * by lia. exact P.
Qed.

Lemma gaps_codable lo c : 2 <= lo -> length c = 16%nat -> gaps lo 0 c -> lastz 0 c <= 32767 -> codable c.
Proof.
  intros Hlo L G M.
  assert (T : total c = lastz 0 c) by (rewrite last_max; auto).
  assert (P : 0 < total c).
  { pose proof (gaps_shares lo c L G) as S. rewrite T.
    destruct c as [|x c]; [discriminate|]. cbn [gaps lastz] in *. destruct G as (G1 & G2).
    apply gaps_last in G2; lia. }
  split; [exact L|]. split; [lia|]. intros s N.
  pose proof (gaps_shares lo c L G s N). lia.
Qed.

Lemma base_codable c : base_ok c -> codable c.
Proof. intros (L & G & M). apply (gaps_codable 3); auto; lia. Qed.

Lemma blend_add_ok sym inc : 0 <= inc <= 5444 -> forall c i prev prev',
  gaps 3 prev c -> 0 <= prev -> lastz prev c <= 16384 ->
  (prev' = prev /\ (i <= sym \/ True) \/ prev' = prev + inc /\ sym < i) ->
  (sym < i -> prev' = prev + inc) -> (i <= sym -> prev' = prev) ->
  gaps 3 prev' (blend_add i sym inc c) /\ 
  lastz prev' (blend_add i sym inc c) <= lastz prev c + inc /\
  length (blend_add i sym inc c) = length c.
Proof.
  intros Hinc. induction c as [|x c IH]; intros i prev prev' G P M _ H1 H2; cbn [gaps lastz blend_add length] in *.
  - split; auto. split; auto. destruct (Z_lt_le_dec sym i); [rewrite H1 by auto; lia|rewrite H2 by auto; lia].
  - destruct G as (G1 & G2). pose proof (gaps_last 3 x c ltac:(lia) G2).
    destruct (Z.leb_spec sym i).
    + rewrite i16_id by lia.
      destruct (IH (i + 1) x (x + inc)) as (A & B & C0); auto; try lia.
      split; [split; [|exact A]|].
      * destruct (Z_lt_le_dec sym i); [rewrite H1 by auto; lia|rewrite H2 by auto; lia].
      * split; auto.
    + destruct (IH (i + 1) x x) as (A & B & C0); auto; try lia.
      split; [split; [|exact A]|].
      * rewrite H2 by lia. lia.
      * split; auto.
Qed.

Lemma bias_step x i : 0 <= x <= 32767 - 17 -> 0 <= i <= 15 ->
  i16 (i16 (x + (i + 1)) - Z.shiftr (i16 (x + (i + 1))) 2) = x + i + 1 - (x + i + 1) / 4.
Proof.
  intros. rewrite (i16_id (x + (i + 1))) by lia. rewrite Z.shiftr_div_pow2 by lia. change (2 ^ 2) with 4.
  rewrite i16_id by lia. replace (x + (i + 1)) with (x + i + 1) by lia. reflexivity.
Qed.

Lemma blend_bias_ok : forall c i prev,
  gaps 3 prev c -> 0 <= prev -> lastz prev c <= 32767 - 17 -> 0 <= i -> i + Z.of_nat (length c) = 16 ->
  gaps 3 (prev + i - (prev + i) / 4) (blend_bias i c) /\
  lastz (prev + i - (prev + i) / 4) (blend_bias i c) = lastz prev c + 16 - (lastz prev c + 16) / 4 /\
  length (blend_bias i c) = length c.
Proof.
  induction c as [|x c IH]; intros i prev G P M I L; cbn [gaps lastz blend_bias length] in *.
  - replace i with 16 by lia. auto.
  - destruct G as (G1 & G2). pose proof (gaps_last 3 x c ltac:(lia) G2).
    rewrite bias_step by lia.
    destruct (IH (i + 1) x G2 ltac:(lia) M ltac:(lia) ltac:(lia)) as (A & B & C0).
    replace (x + (i + 1)) with (x + i + 1) in * by lia.
    split; [split; [lia|exact A]|]. split; [exact B|]. now rewrite C0.
Qed.

Lemma blend_base_ok c sym inc lim : base_ok c -> nibble sym -> 0 <= inc <= 5444 -> lim <= 16384 ->
  base_ok (blend c sym inc lim).
Proof.
  intros (L & G & M) N I Lm. unfold blend. unfold nibble in N.
  destruct (blend_add_ok sym inc I c 0 0 0 G) as (A & B & C0); auto; try lia.
  set (c' := blend_add 0 sym inc c) in *. rewrite L in C0.
  rewrite <- last_max by auto.
  destruct (Z.leb_spec lim (lastz 0 c')).
  - destruct (blend_bias_ok c' 0 0 A ltac:(lia) ltac:(lia) ltac:(lia) ltac:(lia)) as (A' & B' & C').
    change (0 + 0 - (0 + 0) / 4) with 0 in *.
    split; [lia|]. split; [exact A'|]. lia.
  - split; [auto|]. split; [exact A|]. lia.
Qed.

Lemma run_ref_ok h : hist_ok h -> base_ok (run_ref h).
Proof.
  induction h as [|h IH sym inc lim]; cbn [hist_ok run_ref].
  - intros _. split; [reflexivity|]. split; cbn; lia.
  - intros (H1 & H2 & H3 & H4). apply blend_base_ok; auto.
Qed.

(** ** Mixing *)
Lemma lz_bits m : 0 < m < 2 ^ 31 -> 2 ^ (31 - leading_zeros32 m) <= m < 2 ^ (32 - leading_zeros32 m).
Proof.
  intros H. unfold leading_zeros32. destruct (Z.eqb_spec m 0); [lia|].
  replace (31 - (31 - Z.log2 m)) with (Z.log2 m) by lia.
  replace (32 - (31 - Z.log2 m)) with (Z.succ (Z.log2 m)) by lia.
  apply Z.log2_spec. lia.
Qed.

Lemma div_gap a b k : 0 < k -> a + 3 * k <= b -> a / k + 3 <= b / k.
Proof.
  intros. apply Z.div_le_lower_bound; [lia|]. pose proof (Z.mul_div_le a k ltac:(lia)). lia.
Qed.

Lemma mix_bound X Y k N M : 0 <= X <= M -> 0 <= Y <= M -> 0 <= k <= N ->
  0 <= X * k + Y * (N - k) <= M * N.
Proof.
  intros. assert (0 <= X * k <= M * k) by nia.
  assert (0 <= Y * (N - k) <= M * (N - k)) by nia. lia.
Qed.
Lemma mix_gap X Y PX PY k N : PX + 3 <= X -> PY + 3 <= Y -> 0 <= k <= N ->
  PX * k + PY * (N - k) + 3 * N <= X * k + Y * (N - k).
Proof.
  intros. assert ((PX + 3) * k <= X * k) by nia.
  assert ((PY + 3) * (N - k) <= Y * (N - k)) by nia. lia.
Qed.
Lemma scaled_bound x u v k M : 0 <= x <= u -> 0 <= v -> 0 < k -> u * v / k <= M -> 0 <= x * v / k <= M.
Proof.
  intros. split; [apply Z.div_pos; nia|]. etransitivity; [|eassumption]. apply Z.div_le_mono; nia.
Qed.
Lemma scaled_gap p x v k : p + 3 <= x -> 0 < k <= v -> p * v / k + 3 <= x * v / k.
Proof. intros. apply div_gap; [lia|]. assert ((p + 3) * v <= x * v) by nia. nia. Qed.

Lemma avg_loop_ok ourmax othermax shift mix :
  0 <= mix <= 2 ^ 15 -> 0 <= shift -> 
  2 ^ shift <= othermax -> 2 ^ shift <= ourmax -> ourmax * othermax / 2 ^ shift <= 32767 ->
  forall c o pc po, length c = length o ->
  gaps 3 pc c -> gaps 3 po o -> 0 <= pc -> 0 <= po ->
  lastz pc c <= ourmax -> lastz po o <= othermax ->
  let f x y := ((x * othermax) / 2 ^ shift * mix + (y * ourmax) / 2 ^ shift * (2 ^ 15 - mix) + 1) / 2 ^ 15 in
  gaps 3 (f pc po) (avg_loop c o ourmax othermax shift mix) /\
  lastz (f pc po) (avg_loop c o ourmax othermax shift mix) = f (lastz pc c) (lastz po o) /\
  length (avg_loop c o ourmax othermax shift mix) = length c.
Proof.
  intros Hmix Hsh Ho Hc HM.
  assert (PS : 0 < 2 ^ shift) by (apply Z.pow_pos_nonneg; lia).
  induction c as [|x c IH]; intros [|y o] pc po Len Gc Go Pc Po Lc Lo; cbn [length] in Len; try lia;
    cbn [avg_loop gaps lastz length] in *; cbn zeta.
  - auto.
  - destruct Gc as (G1 & G2), Go as (G3 & G4).
    pose proof (gaps_last 3 x c ltac:(lia) G2) as Lx.
    pose proof (gaps_last 3 y o ltac:(lia) G4) as Ly.
    destruct (IH o x y ltac:(lia) G2 G4 ltac:(lia) ltac:(lia) Lc Lo) as (A & B & C0). cbn zeta in A, B.
    rewrite !Z.shiftr_div_pow2 by lia.
    pose proof (scaled_bound x ourmax othermax (2 ^ shift) 32767 ltac:(lia) ltac:(lia) PS HM) as Bx.
    rewrite Z.mul_comm in HM.
    pose proof (scaled_bound y othermax ourmax (2 ^ shift) 32767 ltac:(lia) ltac:(lia) PS HM) as By.
    pose proof (scaled_gap pc x othermax (2 ^ shift) ltac:(lia) ltac:(lia)) as DX.
    pose proof (scaled_gap po y ourmax (2 ^ shift) ltac:(lia) ltac:(lia)) as DY.
    set (X := x * othermax / 2 ^ shift) in *. set (Y := y * ourmax / 2 ^ shift) in *.
    set (PX := pc * othermax / 2 ^ shift) in *. set (PY := po * ourmax / 2 ^ shift) in *.
    pose proof (mix_bound X Y mix (2 ^ 15) 32767 Bx By Hmix) as R0.
    pose proof (mix_gap X Y PX PY mix (2 ^ 15) DX DY Hmix) as R1.
    set (V := X * mix + Y * (2 ^ 15 - mix)) in *.
    set (PV := PX * mix + PY * (2 ^ 15 - mix)) in *.
    clearbody V PV. clear - R0 R1 A B C0.
    assert (R : 0 <= (V + 1) / 2 ^ 15 <= 32767) by lia.
    rewrite i16_id by lia.
    split; [split; [|exact A]|].
    + lia.
    + split; [exact B|]. now rewrite C0.
Qed.

Lemma average_ok c o mix : base_ok c -> base_ok o -> 0 <= mix <= 2 ^ 15 ->
  length (average c o mix) = 16%nat /\ gaps 3 0 (average c o mix) /\
  lastz 0 (average c o mix) <= 32767.
Proof.
  intros Bc Bo Hm. pose proof Bc as (Lc & Gc & Mc). pose proof Bo as (Lo & Go & Mo).
  pose proof (gaps_shares 3 c Lc Gc) as Sc. pose proof (gaps_shares 3 o Lo Go) as So.
  rewrite last_max in Mc, Mo by auto.
  assert (Pc : 48 <= cdf_max c).
  { clear - Lc Gc. destruct (len16 c Lc) as (a0 & a1 & a2 & a3 & a4 & a5 & a6 & a7 & a8 & a9 & a10 & a11 & a12 & a13 & a14 & a15 & ->).
    cbn [gaps] in Gc. unfold cdf_max; cbn [nth]. lia. }
  assert (Po : 48 <= cdf_max o).
  { clear - Lo Go. destruct (len16 o Lo) as (a0 & a1 & a2 & a3 & a4 & a5 & a6 & a7 & a8 & a9 & a10 & a11 & a12 & a13 & a14 & a15 & ->).
    cbn [gaps] in Go. unfold cdf_max; cbn [nth]. lia. }
  unfold average.
  set (m := cdf_max c * cdf_max o).
  set (u := cdf_max c) in *. set (v := cdf_max o) in *.
  assert (Hm2 : 0 < m < 2 ^ 31) by (unfold m; nia).
  pose proof (lz_bits m Hm2) as LZ.
  assert (Hlz : 0 <= leading_zeros32 m <= 31).
  { unfold leading_zeros32. destruct (Z.eqb_spec m 0); [lia|].
    pose proof (Z.log2_nonneg m). assert (Z.log2 m < 31) by (apply Z.log2_lt_pow2; lia). lia. }
  set (sh := 17 - Z.min (leading_zeros32 m) 17).
  assert (Hsh : 0 <= sh) by (unfold sh; lia).
  assert (Hms : m / 2 ^ sh <= 32767).
  { assert (m < 2 ^ 15 * 2 ^ sh).
    { rewrite <- Z.pow_add_r by lia. apply Z.lt_le_trans with (2 ^ (32 - leading_zeros32 m)); [lia|].
      apply Z.pow_le_mono_r; unfold sh; lia. }
    assert (m / 2 ^ sh < 2 ^ 15) by (apply Z.div_lt_upper_bound; [apply Z.pow_pos_nonneg; lia|lia]). lia. }
  assert (Hk : 2 ^ sh <= v /\ 2 ^ sh <= u).
  { destruct (Z_le_gt_dec 17 (leading_zeros32 m)).
    - replace sh with 0 by (unfold sh; lia). change (2 ^ 0) with 1. lia.
    - assert (Q : 2 ^ 14 * 2 ^ sh <= m).
      { rewrite <- Z.pow_add_r by lia. replace (14 + sh) with (31 - leading_zeros32 m) by (unfold sh; lia). lia. }
      unfold m in Q. split; nia. }
  destruct Hk as (Hkv & Hku).
  assert (LL : length c = length o) by congruence.
  assert (Lu : lastz 0 c <= u) by (unfold u; rewrite last_max by auto; lia).
  assert (Lv : lastz 0 o <= v) by (unfold v; rewrite last_max by auto; lia).
  destruct (avg_loop_ok u v sh mix Hm Hsh Hkv Hku Hms c o 0 0 LL Gc Go ltac:(lia) ltac:(lia) Lu Lv)
    as (A & B & C0). cbn zeta in A, B.
  assert (PS : 0 < 2 ^ sh) by (apply Z.pow_pos_nonneg; lia).
  assert (E0 : forall w, 0 * w / 2 ^ sh = 0) by (intros w; apply Z.div_0_l; lia).
  replace ((0 * v / 2 ^ sh * mix + 0 * u / 2 ^ sh * (2 ^ 15 - mix) + 1) / 2 ^ 15) with 0 in A, B.
  2:{ rewrite !E0, !Z.mul_0_l. reflexivity. }
  split; [congruence|]. split; [exact A|]. rewrite B.
  rewrite !last_max by auto. fold u v.
  replace (v * u) with m by (unfold m; lia). fold m.
  assert (0 <= m / 2 ^ sh) by (apply Z.div_pos; lia).
  pose proof (mix_bound (m / 2 ^ sh) (m / 2 ^ sh) mix (2 ^ 15) 32767 ltac:(lia) ltac:(lia) Hm) as R0.
  set (V := m / 2 ^ sh * mix + m / 2 ^ sh * (2 ^ 15 - mix)) in *.
  clearbody V. clear - R0. lia.
Qed.

Lemma dist_codable d : dist_ok d -> codable (eval_ref d).
Proof.
  destruct d as [h|h1 h2 mix]; cbn [dist_ok eval_ref].
  - intros H. apply base_codable, run_ref_ok, H.
  - intros (H1 & H2 & H3).
    destruct (average_ok _ _ mix (run_ref_ok h1 H1) (run_ref_ok h2 H2) H3) as (A & B & C0).
    apply (gaps_codable 3); auto; lia.
Qed.

(** ** Reciprocal division *)
Lemma recip_exact n d K m : 0 <= n -> 0 < d -> 0 < K -> K <= m * d -> (m * d - K) * n < K ->
  m * n / K = n / d.
Proof.
  intros Hn Hd HK Hm He.
  symmetry. apply Z.div_unique_pos with (r := m * n - K * (n / d)); [|lia].
  pose proof (Z.mod_pos_bound n d Hd) as R. pose proof (Z.div_mod n d ltac:(lia)) as D.
  set (q := n / d) in *. set (r := n mod d) in *. clearbody q r.
  assert (Q : d * (m * n - K * q) = K * r + (m * d - K) * n).
  { replace n with (d * q + r) by lia. ring. }
  set (e := m * d - K) in *. assert (E0 : 0 <= e) by (unfold e; lia). clearbody e.
  set (X := m * n - K * q) in *. clearbody X.
  assert (0 <= e * n) by (apply Z.mul_nonneg_nonneg; lia).
  assert (0 <= K * r) by (apply Z.mul_nonneg_nonneg; lia).
  assert (K * r <= K * (d - 1)) by (apply Z.mul_le_mono_nonneg_l; lia).
  split.
  - apply Z.mul_le_mono_pos_l with d; lia.
  - apply Z.mul_lt_mono_pos_l with d; lia.
Qed.

Lemma fast_divide_exact n d : 0 <= n < 2 ^ 31 -> 1 <= d < 2 ^ 16 ->
  fast_divide_30bit_by_16bit n (compute_divisor d) = n / d.
Proof.
  intros Hn Hd. unfold fast_divide_30bit_by_16bit, compute_divisor, k16bit_length, LOG_MAX_NUMERATOR.
  destruct (Z.eqb_spec d 0); [lia|]. cbn [fst snd].
  pose proof (Z.log2_spec d ltac:(lia)) as LS. pose proof (Z.log2_nonneg d) as L0.
  assert (L16 : Z.log2 d < 16) by (apply Z.log2_lt_pow2; lia).
  set (L := Z.log2 d) in *.
  rewrite !Z.shiftl_mul_pow2 by lia. rewrite Z.mul_1_l.
  replace (L + 1 - 1) with L by lia. rewrite (Z.mod_small L 256) by lia.
  replace (2 ^ (L + 1)) with (2 * 2 ^ L) by (rewrite Z.pow_add_r by lia; lia).
  rewrite Z.pow_succ_r in LS by lia.
  set (P := 2 ^ L) in *.
  rewrite Z.quot_div_nonneg by nia.
  set (inv := (2 * P - d) * 2 ^ 31 / d + 1).
  assert (I1 : (2 * P - d) * 2 ^ 31 < inv * d <= (2 * P - d) * 2 ^ 31 + d).
  { unfold inv. pose proof (Z.mod_pos_bound ((2 * P - d) * 2 ^ 31) d ltac:(lia)).
    pose proof (Z.div_mod ((2 * P - d) * 2 ^ 31) d ltac:(lia)). nia. }
  assert (I2 : 0 < inv <= 2 ^ 31 + 1) by (split; nia).
  rewrite !Z.shiftr_div_pow2 by lia. change (2 ^ 1) with 2. fold P.
  set (t := inv * n / 2 ^ 31).
  assert (T1 : 0 <= t <= n).
  { unfold t. split; [apply Z.div_pos; nia|].
    assert (inv * n / 2 ^ 31 < n + 1); [|lia]. apply Z.div_lt_upper_bound; [lia|]. nia. }
  rewrite (i32_id t), (i32_id (n - t)) by lia.
  rewrite i32_id by lia.
  replace (t + (n - t) / 2) with ((n + t) / 2) by lia.
  rewrite Z.div_div by lia.
  assert (E : n + t = (inv + 2 ^ 31) * n / 2 ^ 31).
  { unfold t. replace ((inv + 2 ^ 31) * n) with (inv * n + n * 2 ^ 31) by lia.
    rewrite Z.div_add by lia. lia. }
  rewrite E, Z.div_div by lia.
  clear E t T1.
  assert (He : (inv + 2 ^ 31) * d - 2 ^ 31 * (2 * P) <= d) by lia.
  apply recip_exact; try lia.
  assert (0 < (inv + 2 ^ 31) * d - 2 ^ 31 * (2 * P)) by lia.
  set (e := (inv + 2 ^ 31) * d - 2 ^ 31 * (2 * P)) in *. clearbody e.
  apply Z.le_lt_trans with (d * n); [apply Z.mul_le_mono_nonneg_r; lia|].
  apply Z.lt_le_trans with (d * 2 ^ 31); [apply Z.mul_lt_mono_pos_l; lia|]. lia.
Qed.

(** a cheap way to check an entry: multiply instead of dividing *)
Definition entry_check (p : Z * Z) (i : Z) : bool :=
  let q := Z.shiftl 1 (snd p) in
  let m := (fst p - 1) * i in
  let x := Z.shiftl (q + q - i) 31 in
  (0 <=? snd p) && (snd p <? 16) && (q <=? i) && (i <? q + q) && (m <=? x) && (x <? m + i).
Lemma entry_check_ok p i : entry_check p i = true -> p = compute_divisor i.
Proof.
  destruct p as [a l]. unfold entry_check. cbn [fst snd]. intros H.
  repeat (apply andb_prop in H; destruct H as (H & ?)).
  rewrite Z.leb_le in *. rewrite Z.ltb_lt in *.
  rewrite (Z.shiftl_mul_pow2 1 l), Z.mul_1_l in * by lia.
  rewrite (Z.shiftl_mul_pow2 _ 31) in * by lia.
  pose proof (Z.pow_pos_nonneg 2 l ltac:(lia) ltac:(lia)) as P.
  pose proof (Z.pow_succ_r 2 l ltac:(lia)) as Q. unfold Z.succ in Q.
  unfold compute_divisor, k16bit_length, LOG_MAX_NUMERATOR.
  destruct (Z.eqb_spec i 0); [lia|].
  rewrite (Z.log2_unique i l) by (unfold Z.succ; lia).
  rewrite (Z.shiftl_mul_pow2 1 (l + 1)), Z.mul_1_l, Q by lia.
  rewrite (Z.shiftl_mul_pow2 (2 * 2 ^ l - i)) by lia.
  replace (2 * 2 ^ l - i) with (2 ^ l + 2 ^ l - i) by lia.
  rewrite Z.add_simpl_r, (Z.mod_small l 256) by lia.
  set (x := (2 ^ l + 2 ^ l - i) * 2 ^ 31) in *.
  assert (X : 0 <= x) by (unfold x; apply Z.mul_nonneg_nonneg; lia).
  rewrite Z.quot_div_nonneg by lia.
  rewrite <- (Z.div_unique x i (a - 1) (x - (a - 1) * i)) by lia.
  f_equal. lia.
Qed.
Fixpoint chunk_check (i : Z) (l : list (Z * Z)) : bool :=
  match l with
  | [] => true
  | p :: l => entry_check p i && chunk_check (i + 1) l
  end.
Fixpoint table_check (i : Z) (t : list (list (Z * Z))) : bool :=
  match t with
  | [] => true
  | l :: t => (Z.of_nat (length l) =? 2048) && chunk_check i l && table_check (i + 2048) t
  end.
(** entry 0 is the placeholder (0,0); every other entry is the reciprocal *)
Definition table_test (t : list (list (Z * Z))) : bool :=
  match t with
  | (p :: r0) :: rest =>
      (Z.of_nat (length r0) =? 2047) && chunk_check 1 r0 && table_check 2048 rest &&
      (Z.of_nat (length rest) =? 31)
  | _ => false
  end.
Lemma table_ok : table_test RECIPROCAL = true.
Proof. vm_compute. reflexivity. Qed.

Lemma chunk_check_nth l : forall i k, chunk_check i l = true -> 0 <= k < Z.of_nat (length l) ->
  nth (Z.to_nat k) l (0, 0) = compute_divisor (i + k).
Proof.
  induction l as [|p l IH]; intros i k H K; cbn [chunk_check length] in *; [lia|].
  apply andb_prop in H. destruct H as (H1 & H2). 
  destruct (Z.eq_dec k 0) as [->|E].
  - change (Z.to_nat 0) with 0%nat. cbn [nth]. rewrite Z.add_0_r.
    exact (entry_check_ok p i H1).
  - replace (Z.to_nat k) with (S (Z.to_nat (k - 1))) by lia. cbn [nth].
    rewrite (IH (i + 1)) by (auto; lia). f_equal. lia.
Qed.

Lemma table_check_nth t : forall i j k, table_check i t = true ->
  0 <= j < Z.of_nat (length t) -> 0 <= k < 2048 ->
  nth (Z.to_nat k) (nth (Z.to_nat j) t []) (0, 0) = compute_divisor (i + 2048 * j + k).
Proof.
  induction t as [|l t IH]; intros i j k H J K; cbn [table_check length] in *; [lia|].
  apply andb_prop in H. destruct H as (H & H3). apply andb_prop in H. destruct H as (H1 & H2).
  apply Z.eqb_eq in H1.
  destruct (Z.eq_dec j 0) as [->|E].
  - change (Z.to_nat 0) with 0%nat. cbn [nth]. rewrite (chunk_check_nth l i) by (auto; lia). f_equal. lia.
  - replace (Z.to_nat j) with (S (Z.to_nat (j - 1))) by lia. cbn [nth].
    rewrite (IH (i + 2048)) by (auto; lia). f_equal. lia.
Qed.

Lemma table_test_nth t d : table_test t = true -> 1 <= d < 65536 ->
  nth (Z.to_nat (d mod 2048)) (nth (Z.to_nat (d / 2048)) t []) (0, 0) = compute_divisor d.
Proof.
  intros T H. destruct t as [|[|p r0] rest]; try discriminate. cbn [table_test] in T.
  apply andb_prop in T. destruct T as (T & T4). apply andb_prop in T. destruct T as (T & T3).
  apply andb_prop in T. destruct T as (T1 & T2). apply Z.eqb_eq in T1, T4.
  destruct (Z.eq_dec (d / 2048) 0) as [E|E].
  - rewrite E. change (Z.to_nat 0) with 0%nat. cbn [nth].
    replace (d mod 2048) with d by (clear - E H; lia).
    replace (Z.to_nat d) with (S (Z.to_nat (d - 1))) by (clear - H; lia).
    cbn [nth]. rewrite (chunk_check_nth r0 1 (d - 1) T2) by (clear - T1 E H; lia). f_equal. lia.
  - assert (1 <= d / 2048 < 32) by (clear - E H; lia).
    replace (Z.to_nat (d / 2048)) with (S (Z.to_nat (d / 2048 - 1))) by (clear - H0; lia). cbn [nth].
    rewrite (table_check_nth rest 2048 (d / 2048 - 1) (d mod 2048) T3)
      by (clear - T4 H0; lia). f_equal. clear - H. lia.
Qed.

Lemma lookup_divisor_ok d : 1 <= d < 2 ^ 16 -> lookup_divisor d = compute_divisor d.
Proof.
  intros H. unfold lookup_divisor. replace (u16 d) with d by (unfold u16; rewrite Z.mod_small; lia).
  exact (table_test_nth RECIPROCAL d table_ok H).
Qed.

Lemma divides_opt c : codable c -> divides (div_by_max_opt (opt_new c)) c.
Proof.
  intros (L & T & _) v V. unfold div_by_max_opt, opt_new; cbn [o_inv].
  rewrite cdf_max_total, lookup_divisor_ok by lia. apply fast_divide_exact; lia.
Qed.

Lemma run_opt_ref h : run_opt h = opt_new (run_ref h).
Proof. induction h as [|h IH sym inc lim]; cbn [run_opt run_ref]; auto. rewrite IH. reflexivity. Qed.
Lemma eval_opt_ref d : eval_opt d = opt_new (eval_ref d).
Proof. destruct d; cbn [eval_opt eval_ref]; rewrite ?run_opt_ref; auto. Qed.

Lemma divides_ext d1 d2 c s : divides d1 c -> divides d2 c -> codable c -> nibble s ->
  sym_to_start_and_freq d1 c s = sym_to_start_and_freq d2 c s.
Proof. intros. rewrite !interval_eq by auto. reflexivity. Qed.

Lemma find_sym_range c off : forall i, 0 <= i -> i <= find_sym i c off <= i + Z.of_nat (length c) - 1 \/ c = [].
Proof.
  induction c as [|x c IH]; intros i Hi; [right; auto|left]. cbn [find_sym length].
  destruct c as [|y c].
  - cbn [length]. lia.
  - destruct (off <? x).
    + cbn [length]. lia.
    + destruct (IH (i + 1) ltac:(lia)) as [H|H]; [|discriminate]. cbn [length] in *. lia.
Qed.

Lemma opt_eq_ref d : dist_ok d ->
  (forall s, nibble s -> opt_interval (eval_opt d) s = ref_interval (eval_ref d) s) /\
  (forall off, opt_lookup (eval_opt d) off = ref_lookup (eval_ref d) off).
Proof.
  intros H. pose proof (dist_codable d H) as C. rewrite eval_opt_ref.
  pose proof (divides_opt _ C) as D1.
  assert (D2 : divides (div_by_max_ref (eval_ref d)) (eval_ref d)) by (apply divides_ref, C).
  split.
  - intros s N. unfold opt_interval, ref_interval. now apply divides_ext.
  - intros off. unfold opt_lookup, ref_lookup, offset_to_sym. cbn [opt_new o_cdf].
    rewrite (divides_ext _ _ _ (find_sym 0 (eval_ref d) (i16 (Z.shiftr (off * cdf_max (eval_ref d)) 15))) D1 D2 C).
    { reflexivity. }
    destruct (find_sym_range (eval_ref d) (i16 (Z.shiftr (off * cdf_max (eval_ref d)) 15)) 0 ltac:(lia)) as [R|R].
    + destruct C as (L & _). rewrite L in R. unfold nibble. lia.
    + destruct C as (L & _). rewrite R in L. discriminate.
Qed.

(** ** 8 bit reciprocals *)
Lemma fast_divide8_exact n d : 0 <= n < 2 ^ 16 -> 1 <= d < 256 -> n / d < 2 ^ 15 ->
  fast_divide_16bit_by_8bit n (compute_divisor8 d) = n / d.
Proof.
  intros Hn Hd Hq. unfold fast_divide_16bit_by_8bit, compute_divisor8.
  change (Z.shiftl 1 24) with (2 ^ 24). rewrite Z.quot_div_nonneg by lia.
  rewrite Z.shiftr_div_pow2 by lia.
  set (k := 2 ^ 24 / d).
  assert (K : 2 ^ 24 - d < k * d <= 2 ^ 24).
  { unfold k. pose proof (Z.mod_pos_bound (2 ^ 24) d ltac:(lia)).
    pose proof (Z.div_mod (2 ^ 24) d ltac:(lia)). lia. }
  assert (E : (1 + k) * n / 2 ^ 24 = n / d).
  { apply recip_exact; try lia. clearbody k.
    assert (0 < (1 + k) * d - 2 ^ 24 <= d) by lia.
    set (e := (1 + k) * d - 2 ^ 24) in *. clearbody e.
    apply Z.le_lt_trans with (d * n); [apply Z.mul_le_mono_nonneg_r; lia|].
    apply Z.le_lt_trans with (255 * n); [apply Z.mul_le_mono_nonneg_r; lia|lia]. }
  rewrite E. apply i16_id. assert (0 <= n / d) by (apply Z.div_pos; lia). lia.
Qed.

Lemma table8_ok : forallb (fun d => nth d RECIPROCAL8 0 =? compute_divisor8 (Z.of_nat d)) (seq 1 255) = true.
Proof. vm_compute. reflexivity. Qed.
Lemma lookup_divisor8_ok d : 1 <= d < 256 -> lookup_divisor8 d = compute_divisor8 d.
Proof.
  intros H. pose proof table8_ok as T. rewrite forallb_forall in T.
  specialize (T (Z.to_nat d)). rewrite Z2Nat.id in T by lia. unfold lookup_divisor8.
  apply Z.eqb_eq, T, in_seq. lia.
Qed.

(** ** Speed serialisation (finite domain, checked completely) *)
Definition zrange (n : nat) : list Z := map Z.of_nat (seq 0 n).
Lemma in_zrange n z : 0 <= z < Z.of_nat n -> In z (zrange n).
Proof.
  intros H. unfold zrange. apply in_map_iff. exists (Z.to_nat z). split; [lia|]. apply in_seq. lia.
Qed.
(** the byte written for 2^k <= v < 2^(k+1) and its reading *)
Definition speed_code_check (kc : Z * Z) : bool :=
  let k := fst kc in let c := snd kc in
  (Z.lor ((Z.shiftl (k + 1) 3) mod 256) c =? 8 * (k + 1) + c) &&
  (negb (8 * 2 ^ k + c * 2 ^ k <? 8 * 12288) && negb (8 * 2 ^ k + c * 2 ^ k =? 8 * 16384) ||
   match u8_to_speed (8 * (k + 1) + c) with Some w => w =? 2 ^ k + (c * 2 ^ k) / 8 | None => false end).
Lemma speed_code_ok : forallb speed_code_check (list_prod (zrange 15) (zrange 8)) = true.
Proof. vm_compute. reflexivity. Qed.
Lemma speed_to_u8_eq k v : 0 <= k < 15 -> 2 ^ k <= v < 2 ^ (k + 1) -> v < 12288 \/ v = 16384 ->
  exists c, 0 <= c < 8 /\ c = (8 * (v - 2 ^ k)) / 2 ^ k /\ speed_to_u8 v = Z.lor ((Z.shiftl (k + 1) 3) mod 256) c.
Proof.
  intros K V H. exists ((8 * (v - 2 ^ k)) / 2 ^ k).
  pose proof (Z.pow_pos_nonneg 2 k ltac:(lia) ltac:(lia)) as P.
  pose proof (Z.pow_succ_r 2 k ltac:(lia)) as Q. unfold Z.succ in Q.
  assert (B : 0 <= (8 * (v - 2 ^ k)) / 2 ^ k < 8).
  { split; [apply Z.div_pos; lia|]. apply Z.div_lt_upper_bound; lia. }
  split; [exact B|]. split; [reflexivity|].
  unfold speed_to_u8, k16bit_length. destruct (Z.ltb_spec v 0); [lia|]. destruct (Z.eqb_spec v 0); [lia|].
  rewrite (Z.log2_unique v k) by (unfold Z.succ; lia).
  rewrite Z.add_simpl_r, (Z.shiftl_mul_pow2 1), Z.mul_1_l by lia.
  rewrite (Z.shiftl_mul_pow2 (v - 2 ^ k)), Z.shiftr_div_pow2 by lia. change (2 ^ 3) with 8.
  assert (R : v - 2 ^ k < 4096).
  { destruct H as [H| ->].
    - assert (k = 13 \/ k <= 12) as [->|K2] by (assert (~ 14 <= k); [intros K2; assert (2 ^ 14 <= 2 ^ k) by (apply Z.pow_le_mono_r; lia); lia|lia]); [lia|].
      assert (2 ^ k <= 2 ^ 12) by (apply Z.pow_le_mono_r; lia). lia.
    - assert (k = 14) as ->; [|lia]. assert (~ k <= 13); [|lia]. intros K2.
      assert (2 ^ (k + 1) <= 2 ^ 14) by (apply Z.pow_le_mono_r; lia). lia. }
  assert (I : i16 ((v - 2 ^ k) * 8) = (v - 2 ^ k) * 8) by (apply i16_id; lia).
  rewrite I. rewrite (Z.mul_comm (v - 2 ^ k) 8). f_equal. apply Z.mod_small. lia.
Qed.
Lemma speed_roundtrip_approx v : 0 <= v < 12288 \/ v = 16384 ->
  exists w, u8_to_speed (speed_to_u8 v) = Some w /\ w <= v /\ 8 * (v - w) <= v.
Proof.
  intros H. destruct (Z.eq_dec v 0) as [->|Ev]; [exists 0; vm_compute; intuition discriminate|].
  pose proof (Z.log2_spec v ltac:(lia)) as V. pose proof (Z.log2_nonneg v) as K0. set (k := Z.log2 v) in *. unfold Z.succ in V.
  assert (K : 0 <= k < 15).
  { split; [exact K0|]. assert (~ 15 <= k); [|lia]. intros K. assert (2 ^ 15 <= 2 ^ k) by (apply Z.pow_le_mono_r; lia). lia. }
  destruct (speed_to_u8_eq k v K V ltac:(lia)) as (c & C & Ec & E).
  pose proof speed_code_ok as S. rewrite forallb_forall in S. specialize (S (k, c)).
  rewrite in_prod_iff in S.
  specialize (S (conj (in_zrange 15 k K) (in_zrange 8 c C))). unfold speed_code_check in S. cbn [fst snd] in S.
  apply andb_prop in S. destruct S as (S1 & S2). apply Z.eqb_eq in S1. rewrite <- E in S1. rewrite S1.
  clearbody k. pose proof (Z.pow_pos_nonneg 2 k ltac:(lia) ltac:(lia)) as P.
  pose proof (Z.mul_div_le (8 * (v - 2 ^ k)) (2 ^ k) P) as D1.
  pose proof (Z.mul_succ_div_gt (8 * (v - 2 ^ k)) (2 ^ k) P) as D2. rewrite <- Ec in D1, D2.
  rewrite Z.pow_add_r in V by lia. change (2 ^ 1) with 2 in V.
  assert (W : 8 * 2 ^ k + c * 2 ^ k <= 8 * v /\ 8 * v < 8 * 2 ^ k + c * 2 ^ k + 2 ^ k) by (clear - D1 D2; lia).
  apply orb_prop in S2. destruct S2 as [S2|S2].
  - destruct H as [H| ->]; [clear - S2 W H; exfalso; lia|]. exfalso.
    assert (k = 14) as ->.
    { assert (~ k <= 13); [|lia]. intros X. assert (2 ^ k <= 2 ^ 13) by (apply Z.pow_le_mono_r; lia). lia. }
    rewrite Ec in S2. vm_compute in S2. discriminate.
  - destruct (u8_to_speed (8 * (k + 1) + c)) as [w|]; [|discriminate]. apply Z.eqb_eq in S2.
    exists w. split; [reflexivity|]. clear - W S2 P V K C.
    assert (Y : 8 * w <= 8 * 2 ^ k + c * 2 ^ k < 8 * w + 8) by lia.
    assert (E8 : 3 <= k \/ k <= 2) by lia. destruct E8 as [E8|E8].
    + replace k with (3 + (k - 3)) in * by lia. rewrite Z.pow_add_r in * by lia. change (2 ^ 3) with 8 in *.
      set (q := 2 ^ (k - 3)) in *. clearbody q.
      replace (c * (8 * q) / 8) with (c * q) in S2 by (replace (c * (8 * q)) with ((c * q) * 8) by lia; symmetry; apply Z.div_mul; lia).
      lia.
    + assert (E3 : k = 0 \/ k = 1 \/ k = 2) by lia. destruct E3 as [->|[->| ->]];
        [change (2 ^ 0) with 1 in *|change (2 ^ 1) with 2 in *|change (2 ^ 2) with 4 in *]; lia.
Qed.

Definition repr_check (mk : Z * Z) : bool :=
  let v := fst mk * 2 ^ snd mk in
  if (v <? 12288) || (v =? 16384) then
    match u8_to_speed (speed_to_u8 v) with Some w => w =? v | None => false end
  else true.
Lemma repr_check_ok : forallb repr_check (list_prod (zrange 16) (zrange 15)) = true.
Proof. vm_compute. reflexivity. Qed.
Lemma speed_roundtrip_exact m k : 0 <= m < 16 -> 0 <= k -> m * 2 ^ k < 12288 \/ m * 2 ^ k = 16384 ->
  u8_to_speed (speed_to_u8 (m * 2 ^ k)) = Some (m * 2 ^ k).
Proof.
  intros Hm Hk H.
  destruct (Z.eq_dec m 0) as [->|Em]; [rewrite Z.mul_0_l; reflexivity|].
  assert (K : k < 15).
  { assert (~ 15 <= k); [|lia]. intros K. assert (2 ^ 15 <= 2 ^ k) by (apply Z.pow_le_mono_r; lia).
    assert (1 * 2 ^ k <= m * 2 ^ k) by (apply Z.mul_le_mono_nonneg_r; lia). lia. }
  pose proof repr_check_ok as R. rewrite forallb_forall in R.
  specialize (R (m, k)). rewrite in_prod_iff in R.
  specialize (R (conj (in_zrange 16 m ltac:(lia)) (in_zrange 15 k ltac:(lia)))).
  unfold repr_check in R. cbn [fst snd] in R.
  replace ((m * 2 ^ k <? 12288) || (m * 2 ^ k =? 16384)) with true in R.
  2:{ destruct H; [destruct (Z.ltb_spec (m * 2 ^ k) 12288); [reflexivity|lia]|].
      rewrite H. reflexivity. }
  destruct (u8_to_speed (speed_to_u8 (m * 2 ^ k))); [|discriminate]. f_equal. lia.
Qed.

(** ** Bits *)
Definition c2_ok (c : cdf2) : Prop := 1 <= c2_f c <= 255 /\ 1 <= c2_t c <= 255 /\ 0 <= c2_prob c <= 255.
Lemma cdf2_blend_ok c b : c2_ok c -> exists c', cdf2_blend c b = Some c' /\ c2_ok c'.
Proof.
  destruct c as [f t p]. unfold c2_ok; cbn [c2_f c2_t c2_prob]. intros (Hf & Ht & Hp).
  unfold cdf2_blend, assert; cbn [c2_f c2_t c2_prob].
  destruct (Z.eqb_spec f 0); [lia|]. destruct (Z.eqb_spec t 0); [lia|]. cbn [negb].
  assert (M : forall x, 0 <= x mod 256 <= 255) by (intros; lia).
  destruct b.
  - destruct (Z.eqb_spec t 255).
    + destruct (Z.eqb_spec f 1); eexists; split; [reflexivity| |reflexivity|]; cbn [c2_f c2_t c2_prob].
      * lia.
      * rewrite Z.shiftr_div_pow2 by lia. change (2 ^ 1) with 2. split; [lia|]. split; [lia|]. apply M.
    + eexists; split; [reflexivity|]; cbn [c2_f c2_t c2_prob].
      split; [lia|]. split; [|apply M]. lia.
  - destruct (Z.eqb_spec f 255).
    + destruct (Z.eqb_spec t 1); eexists; split; [reflexivity| |reflexivity|]; cbn [c2_f c2_t c2_prob].
      * lia.
      * rewrite Z.shiftr_div_pow2 by lia. change (2 ^ 1) with 2. split; [lia|]. split; [lia|]. apply M.
    + eexists; split; [reflexivity|]; cbn [c2_f c2_t c2_prob].
      split; [|split; [lia|apply M]]. lia.
Qed.
Fixpoint cdf2_run (c : cdf2) (l : list bool) : option cdf2 :=
  match l with [] => Some c | b :: l => let? c := cdf2_blend c b in cdf2_run c l end.
Lemma cdf2_run_ok l : forall c, c2_ok c -> exists c', cdf2_run c l = Some c' /\ c2_ok c'.
Proof.
  induction l as [|b l IH]; intros c H; cbn [cdf2_run]; eauto.
  destruct (cdf2_blend_ok c b H) as (c1 & E & H1). rewrite E. cbn [bind]. auto.
Qed.

Lemma bit_codes p b : 0 <= p <= 255 -> codes (bit_query p) b (bit_start_freq b p).
Proof.
  intros H. unfold codes, bit_query, bit_start_freq, LOG2_SCALE.
  set (q := if p =? 0 then 1 else p). assert (Q : 1 <= q <= 255) by (unfold q; destruct (Z.eqb_spec p 0); lia).
  rewrite !Z.shiftl_mul_pow2 by lia. change (2 ^ (15 - 8)) with 128.
  destruct b; cbn [fst snd]; (split; [unfold legal; lia|]); intros off O.
  - destruct (Z.leb_spec (q * 128) off); [reflexivity|lia].
  - destruct (Z.leb_spec (q * 128) off); [lia|reflexivity].
Qed.
