(** The invariant of the command coder and its preservation by every nibble. *)
From Verif Require Import Prelude ModelAns ModelCdf ProofCdf ModelMux ProofZlist ModelCmd ModelPriors ModelContextLut ModelCodec ModelLit ModelPm ModelTop ThmPriors.

Definition oc_ok {S} (Q : S -> Prop) (o : outcome S) : Prop := match o with Next s => Q s | Err _ => True | Panic => False end.
Definition bpair (p : Z * Z) : Prop := byte (fst p) /\ byte (snd p).

Lemma Forall_firstn {A} (Q : A -> Prop) n l : Forall Q l -> Forall Q (firstn n l).
Proof. intros F. revert n. induction F; intros [|n]; cbn; constructor; auto. Qed.
Lemma Forall_skipn {A} (Q : A -> Prop) n l : Forall Q l -> Forall Q (skipn n l).
Proof. intros F. revert n. induction F; intros [|n]; cbn; try constructor; auto. Qed.
Lemma Forall_upd {A} (Q : A -> Prop) i v l : Q v -> Forall Q l -> Forall Q (upd i v l).
Proof.
  intros V F. unfold upd. apply Forall_app. split; [apply Forall_firstn; exact F|].
  constructor; [exact V|]. apply Forall_skipn. exact F.
Qed.
Lemma upd_length {A} i (v : A) l : 0 <= i < zlen l -> zlen (upd i v l) = zlen l.
Proof. intros H. unfold upd, zlen in *. rewrite app_length, firstn_length. cbn [length]. rewrite skipn_length. lia. Qed.
Lemma Forall_nth_d {A} (Q : A -> Prop) l d n : Forall Q l -> Q d -> Q (nth n l d).
Proof. intros F D. revert n. induction F; intros [|n]; cbn; auto. Qed.
Lemma Forall_znth (Q : Z -> Prop) l i : Forall Q l -> Q 0 -> Q (znth l i).
Proof. intros F D. exact (Forall_nth_d Q l 0 _ F D). Qed.
Lemma Forall_nth_pair (Q : Z * Z -> Prop) l i : Forall Q l -> Q (0, 0) -> Q (nth_pair l i).
Proof. intros F D. exact (Forall_nth_d Q l (0, 0) _ F D). Qed.
Lemma zget_some l i : 0 <= i < zlen l -> zget l i = Some (znth l i).
Proof. intros H. unfold zget. destruct (Z.leb_spec 0 i); [|lia]. destruct (Z.ltb_spec i (zlen l)); [|lia]. reflexivity. Qed.
Lemma byte0 : byte 0. Proof. unfold byte. lia. Qed.
Lemma nibble0 : nibble 0. Proof. unfold nibble. lia. Qed.

(** ** bit ranges *)
Lemma land_range x k : 0 <= k -> 0 <= Z.land x (2 ^ k - 1) < 2 ^ k.
Proof. intros. rewrite land_mask by lia. apply Z.mod_pos_bound. lia. Qed.
Lemma land3 x : 0 <= Z.land x 3 < 4. Proof. exact (land_range x 2 ltac:(lia)). Qed.
Lemma land7 x : 0 <= Z.land x 7 < 8. Proof. exact (land_range x 3 ltac:(lia)). Qed.
Lemma land15 x : 0 <= Z.land x 15 < 16. Proof. exact (land_range x 4 ltac:(lia)). Qed.
Lemma land63 x : 0 <= Z.land x 63 < 64. Proof. exact (land_range x 6 ltac:(lia)). Qed.
Lemma land127 x : 0 <= Z.land x 127 < 128. Proof. exact (land_range x 7 ltac:(lia)). Qed.
Lemma land255 x : 0 <= Z.land x 255 < 256. Proof. exact (land_range x 8 ltac:(lia)). Qed.
Lemma bits_hi a n k : 0 <= a < 2 ^ k -> k <= n -> Z.testbit a n = false.
Proof.
  intros A H. destruct (Z.eq_dec a 0) as [->|NZ]; [apply Z.bits_0|].
  apply Z.bits_above_log2; [lia|]. assert (Z.log2 a < k) by (apply Z.log2_lt_pow2; lia). lia.
Qed.
Lemma lor_range a b k : 0 <= k -> 0 <= a < 2 ^ k -> 0 <= b < 2 ^ k -> 0 <= Z.lor a b < 2 ^ k.
Proof.
  intros K A B. destruct (Z.eq_dec k 0) as [->|NK].
  { change (2 ^ 0) with 1 in *. assert (a = 0) by lia. assert (b = 0) by lia. subst a b. change (Z.lor 0 0) with 0. lia. }
  assert (N : 0 <= Z.lor a b) by (apply Z.lor_nonneg; lia). split; [exact N|].
  destruct (Z.eq_dec (Z.lor a b) 0) as [E|NZ]; [rewrite E; lia|].
  apply Z.log2_lt_pow2; [lia|]. rewrite Z.log2_lor by lia.
  assert (H : forall x, 0 <= x < 2 ^ k -> Z.log2 x < k).
  { intros x X. destruct (Z.eq_dec x 0) as [->|]; [rewrite Z.log2_nonpos by lia; lia|]. apply Z.log2_lt_pow2; lia. }
  pose proof (H a A). pose proof (H b B). lia.
Qed.
Lemma shiftr_range x k n : 0 <= n -> 0 <= x < 2 ^ k -> n <= k -> 0 <= Z.shiftr x n < 2 ^ (k - n).
Proof.
  intros N X K. rewrite Z.shiftr_div_pow2 by lia. assert (2 ^ k = 2 ^ (k - n) * 2 ^ n) by (rewrite <- Z.pow_add_r by lia; f_equal; lia).
  assert (0 < 2 ^ n) by (apply Z.pow_pos_nonneg; lia). split; [apply Z.div_pos; lia|]. apply Z.div_lt_upper_bound; lia.
Qed.
Lemma shiftl_range x k n : 0 <= n -> 0 <= x < 2 ^ k -> 0 <= k -> 0 <= Z.shiftl x n < 2 ^ (k + n).
Proof.
  intros N X K. rewrite Z.shiftl_mul_pow2 by lia. rewrite Z.pow_add_r by lia.
  assert (0 < 2 ^ n) by (apply Z.pow_pos_nonneg; lia). nia.
Qed.
Lemma nib_join h v : nibble h -> nibble v -> byte (Z.lor (Z.shiftl h 4) v).
Proof.
  intros H V. unfold nibble, byte in *. apply (lor_range _ _ 8); [lia| |lia].
  apply (shiftl_range h 4 4); lia.
Qed.
Lemma bitlen_range x k : 0 <= k -> 0 <= x < 2 ^ k -> 0 <= bitlen x <= k.
Proof.
  intros K X. unfold bitlen. destruct (Z.eqb_spec x 0); [lia|].
  pose proof (Z.log2_nonneg x). assert (Z.log2 x < k) by (apply Z.log2_lt_pow2; lia). lia.
Qed.

(** ** prior lookups *)
Ltac fits_tac := unfold fits; repeat (apply Forall2_cons || apply Forall2_nil).
Lemma lookup_some c b dims ix : In (b, dims) (layout c) -> fits ix dims -> exists i, prior_index c b ix = Some i.
Proof. intros I F. destruct (C31_lookup_in_table _ _ _ _ I F) as (k & E & _). exists k. exact E. Qed.

(** ** weights (C45) *)
Definition wt_ok (w : weights) : Prop := 1 <= w0 w < 2 ^ 31 /\ 1 <= w1 w < 2 ^ 31 /\ 0 <= norm_weight w mod 2 ^ 16 <= 2 ^ 15.
Lemma wt_new_ok : wt_ok weights_new. Proof. unfold wt_ok, weights_new; cbn [w0 w1 norm_weight]. vm_compute. intuition discriminate. Qed.
Lemma compute_new_weight_range p q w : 1 <= compute_new_weight p q w < 2 ^ 31.
Proof. unfold compute_new_weight. cbv zeta. unfold i32. split; [lia|]. apply Z.max_lub_lt; [lia|]. pose proof (Z.mod_pos_bound (i64 (w + Z.shiftr (i64 (i64 (2 ^ 15 - q) * (i64 (2 ^ 15 * p) - i64 (q * 2 ^ 15)))) (64 - leading_zeros64 (i64 (q * i64 (2 ^ 15 - q))))) + 2 ^ 31) (2 ^ 32) ltac:(lia)). lia. Qed.
Lemma norm_range a b : 1 <= a < 2 ^ 31 -> 1 <= b < 2 ^ 31 ->
  exists q, 0 <= q <= 256 /\ compute_normalized_weight a b = i16 (128 * q).
Proof.
  intros A B. unfold compute_normalized_weight. cbv zeta.
  set (total := a + b). assert (T : 2 <= total < 2 ^ 32) by (unfold total; lia).
  assert (LZ : leading_zeros64 total = 63 - Z.log2 total).
  { unfold leading_zeros64. destruct (Z.ltb_spec total 0); [lia|]. destruct (Z.eqb_spec total 0); [lia|]. reflexivity. }
  rewrite LZ. set (lg := Z.log2 total). assert (LG : 1 <= lg < 32).
  { unfold lg. split; [apply Z.log2_le_pow2; lia|apply Z.log2_lt_pow2; lia]. }
  assert (SP : 2 ^ lg <= total < 2 ^ (lg + 1)).
  { unfold lg. replace (Z.log2 total + 1) with (Z.succ (Z.log2 total)) by lia. apply Z.log2_spec. lia. }
  set (sh := Z.max (56 - (63 - lg)) 0). assert (SH : 0 <= sh /\ (sh = lg - 7 \/ sh = 0 /\ lg <= 7)) by (unfold sh; lia).
  assert (T8 : 1 <= Z.shiftr total sh < 256).
  { rewrite Z.shiftr_div_pow2 by lia. destruct SH as (S0 & [S1|(S1 & S2)]).
    - assert (0 < 2 ^ sh) by (apply Z.pow_pos_nonneg; lia).
      assert (E1 : 2 ^ lg = 128 * 2 ^ sh) by (change 128 with (2 ^ 7); rewrite <- Z.pow_add_r by lia; f_equal; lia).
      assert (E2 : 2 ^ (lg + 1) = 256 * 2 ^ sh) by (change 256 with (2 ^ 8); rewrite <- Z.pow_add_r by lia; f_equal; lia).
      split; [apply Z.div_le_lower_bound; lia|apply Z.div_lt_upper_bound; lia].
    - rewrite S1. change (2 ^ 0) with 1. rewrite Z.div_1_r.
      assert (2 ^ (lg + 1) <= 2 ^ 8) by (apply Z.pow_le_mono_r; lia). change (2 ^ 8) with 256 in *. lia. }
  assert (AT : 0 <= Z.shiftr a sh <= Z.shiftr total sh).
  { rewrite !Z.shiftr_div_pow2 by lia. assert (0 < 2 ^ sh) by (apply Z.pow_pos_nonneg; lia).
    split; [apply Z.div_pos; lia|]. apply Z.div_le_mono; unfold total; lia. }
  set (t8 := Z.shiftr total sh) in *. set (a8 := Z.shiftr a sh) in *.
  assert (U1 : u16 a8 = a8) by (unfold u16; apply Z.mod_small; lia). rewrite U1.
  assert (U2 : u16 (Z.shiftl a8 8) = a8 * 256).
  { rewrite Z.shiftl_mul_pow2 by lia. unfold u16. change (2 ^ 8) with 256. apply Z.mod_small; lia. }
  rewrite U2. rewrite (Z.mod_small t8 256) by lia.
  assert (Q : 0 <= a8 * 256 / t8 <= 256).
  { split; [apply Z.div_pos; lia|]. apply Z.div_le_upper_bound; [lia|]. clear -AT T8. nia. }
  exists (a8 * 256 / t8). split; [exact Q|].
  rewrite lookup_divisor8_ok by lia. rewrite fast_divide8_exact by lia.
  rewrite Z.shiftl_mul_pow2 by lia. change (2 ^ 7) with 128. f_equal. lia.
Qed.
Lemma norm_ok a b : 1 <= a < 2 ^ 31 -> 1 <= b < 2 ^ 31 -> 0 <= compute_normalized_weight a b mod 2 ^ 16 <= 2 ^ 15.
Proof.
  intros A B. destruct (norm_range a b A B) as (q & Q & ->). unfold i16.
  change (2 ^ 15) with 32768. change (2 ^ 16) with 65536. lia.
Qed.
Lemma weights_update_ok w p0 p1 q : wt_ok (weights_update w p0 p1 q).
Proof.
  unfold weights_update. destruct (normalize_weights (w0 w) (w1 w)) as (a, b).
  pose proof (compute_new_weight_range p0 q a). pose proof (compute_new_weight_range p1 q b).
  unfold wt_ok. cbn [w0 w1 norm_weight]. split; [assumption|]. split; [assumption|]. apply norm_ok; assumption.
Qed.
Lemma weights_update_mixing w p0 p1 q : mixing_param (weights_update w p0 p1 q) = mixing_param w.
Proof. unfold weights_update. destruct (normalize_weights (w0 w) (w1 w)). reflexivity. Qed.

Lemma round_up_spec v : 1 <= v -> v <= round_up_mod_4 v < v + 4 /\ round_up_mod_4 v mod 4 = 0.
Proof.
  intros V. unfold round_up_mod_4.
  assert (E : Z.lor (v - 1) 3 = (v - 1) / 4 * 4 + 3).
  { replace (v - 1) with ((v - 1) / 4 * 4 + (v - 1) mod 4) at 1 by lia.
    set (q := (v - 1) / 4). set (r := (v - 1) mod 4). assert (R : 0 <= r < 4) by (unfold r; lia).
    assert (Q : 0 <= q) by (unfold q; lia). rewrite Z.add_comm. change 4 with (2 ^ 2) at 1. rewrite <- lor_shift_add by (change (2 ^ 2) with 4; lia).
    rewrite <- Z.lor_assoc, (Z.lor_comm (Z.shiftl q 2) 3), Z.lor_assoc.
    replace (Z.lor r 3) with 3 by (assert (r = 0 \/ r = 1 \/ r = 2 \/ r = 3) as [->|[->|[->| ->]]] by lia; reflexivity).
    rewrite lor_shift_add by (change (2 ^ 2) with 4; lia). change (2 ^ 2) with 4. lia. }
  rewrite E. split; lia.
Qed.
Lemma shiftl1_range v : 0 <= v < 32 -> 0 <= Z.shiftl 1 v < 2 ^ 32.
Proof. intros V. rewrite Z.shiftl_1_l. split; [apply Z.pow_nonneg; lia|]. apply Z.pow_lt_mono_r; lia. Qed.
Lemma mant_range dsf v nlr : 0 <= dsf < 2 ^ 32 -> nibble v -> 0 <= nlr <= 28 -> 0 <= Z.lor dsf (Z.shiftl v nlr) < 2 ^ 32.
Proof.
  intros D V N. apply lor_range; [lia|exact D|]. unfold nibble in V.
  pose proof (shiftl_range v 4 nlr ltac:(lia) ltac:(change (2 ^ 4) with 16; lia) ltac:(lia)) as S.
  split; [lia|]. assert (2 ^ (4 + nlr) <= 2 ^ 32) by (apply Z.pow_le_mono_r; lia). lia.
Qed.
Lemma mantissa_lr lr : 0 < lr <= 32 -> 0 <= Z.shiftl (Z.shiftr (lr + 3) 2 - 1) 2 <= 28 /\ Z.shiftl (Z.shiftr (lr + 3) 2 - 1) 2 < lr.
Proof. intros H. rewrite Z.shiftl_mul_pow2, Z.shiftr_div_pow2 by lia. change (2 ^ 2) with 4. lia. Qed.
Lemma st4_shift x m : 0 <= x < 256 -> 0 <= m < 256 -> 0 <= Z.lor (Z.shiftr x 2) m < 256.
Proof. intros X M. apply (lor_range _ _ 8); [lia| |exact M]. pose proof (shiftr_range x 8 2 ltac:(lia) X ltac:(lia)). change (2 ^ (8 - 2)) with 64 in *. change (2 ^ 8) with 256. lia. Qed.
Lemma dict_bits_range ws : 4 <= ws <= 24 -> 5 <= znth DICT_BITS ws <= 11.
Proof.
  intros H. assert (E : forallb (fun w => (5 <=? znth DICT_BITS w) && (znth DICT_BITS w <=? 11)) (map Z.of_nat (seq 4 21)) = true) by reflexivity.
  rewrite forallb_forall in E. specialize (E ws). rewrite andb_true_iff in E. rewrite !Z.leb_le in E. apply E.
  apply in_map_iff. exists (Z.to_nat ws). split; [lia|]. apply in_seq. lia.
Qed.
Lemma lut_tables : forallb (fun x => (0 <=? x) && (x <? 64)) UTF8_CONTEXT_LOOKUP = true /\
  forallb (fun x => (0 <=? x) && (x <? 8)) SIGNED_3_BIT_CONTEXT_LOOKUP = true.
Proof. split; vm_compute; reflexivity. Qed.
Lemma utf8_range i : 0 <= znth UTF8_CONTEXT_LOOKUP i < 64.
Proof.
  apply (Forall_znth (fun x => 0 <= x < 64)); [|lia]. apply Forall_forall. intros x Hx.
  pose proof (proj1 (forallb_forall _ _) (proj1 lut_tables) x Hx) as H. cbv beta in H. apply andb_true_iff in H. lia.
Qed.
Lemma signed_range i : 0 <= znth SIGNED_3_BIT_CONTEXT_LOOKUP i < 8.
Proof.
  apply (Forall_znth (fun x => 0 <= x < 8)); [|lia]. apply Forall_forall. intros x Hx.
  pose proof (proj1 (forallb_forall _ _) (proj2 lut_tables) x Hx) as H. cbv beta in H. apply andb_true_iff in H. lia.
Qed.
Lemma lut0_range m x : byte x -> 0 <= lut0 m x < 64.
Proof.
  intros X. unfold lut0. destruct (m =? 0); [apply land63|]. destruct (m =? 1).
  { exact (shiftr_range x 8 2 ltac:(lia) X ltac:(lia)). }
  destruct (m =? 2); [apply utf8_range|]. exact (shiftl_range _ 3 3 ltac:(lia) (signed_range x) ltac:(lia)).
Qed.
Lemma lut1_range m x : 0 <= lut1 m x < 64.
Proof.
  unfold lut1. destruct (m =? 0); [lia|]. destruct (m =? 1); [lia|]. destruct (m =? 2); [apply utf8_range|].
  pose proof (signed_range x). lia.
Qed.
Lemma land_byte a b : 0 <= a < 256 -> 0 <= Z.land a b < 256.
Proof.
  intros A. assert (E : a = Z.land a 255).
  { change 255 with (2 ^ 8 - 1). rewrite land_mask by lia. change (2 ^ 8) with 256. symmetry. apply Z.mod_small. exact A. }
  rewrite E, <- Z.land_assoc, (Z.land_comm 255), Z.land_assoc. apply land255.
Qed.

(** move to front *)
Definition mtf (d : Z) (l : list Z) : list Z := firstn 4 (d :: filter (fun x => negb (x =? d)) l).
Lemma obs_distance_mtf b d : zlen (distance_lru b) = 4 -> NoDup (distance_lru b) ->
  distance_lru (obs_distance b d) = mtf d (distance_lru b) /\ zlen (distance_lru (obs_distance b d)) = 4 /\ NoDup (distance_lru (obs_distance b d)).
Proof.
  intros L N. assert (E : exists l0 l1 l2 l3, distance_lru b = [l0; l1; l2; l3]).
  { destruct (distance_lru b) as [|l0 [|l1 [|l2 [|l3 [|? ?]]]]]; unfold zlen in L; cbn [length] in L; try lia. eauto. }
  destruct E as (l0 & l1 & l2 & l3 & E). unfold obs_distance. cbv zeta. rewrite E in *. unfold znth.
  change (Z.to_nat 0) with 0%nat. change (Z.to_nat 1) with 1%nat. change (Z.to_nat 2) with 2%nat. change (Z.to_nat 3) with 3%nat. cbn [nth].
  inversion N as [|? ? N0 N']; subst. inversion N' as [|? ? N1 N'']; subst. inversion N'' as [|? ? N2 N3]; subst. cbn [In] in *.
  assert (MK : forall a b c e : Z, a <> b -> a <> c -> a <> e -> b <> c -> b <> e -> c <> e -> NoDup [a; b; c; e])
    by (intros; repeat (constructor; [cbn [In]; intuition congruence|]); constructor).
  unfold mtf. cbn [filter]. rewrite !(Z.eqb_sym _ d).
  destruct (Z.eqb_spec d l1) as [->|]; [|destruct (Z.eqb_spec d l2) as [->|]; [|destruct (Z.eqb_spec d l0) as [->|]]]; cbn [negb set_distance_lru distance_lru];
    rewrite ?E; repeat match goal with |- context[?x =? ?y] => destruct (Z.eqb_spec x y) end; cbn [negb firstn]; try (exfalso; intuition congruence);
    rewrite ?E; (split; [reflexivity|]); (split; [reflexivity|]); try exact N; apply MK; intuition congruence.
Qed.


Section Inv.
(** [P]: what is known of every stored distribution; [SP]: of every adaptation speed *)
Variable P : list Z -> Prop.
Variable SP : Z * Z -> Prop.
Hypothesis P0 : P cdf_default.
Hypothesis Pblend : forall c v sp, P c -> nibble v -> SP sp -> P (blend c v (fst sp) (snd sp)).
Hypothesis SPpos : forall inc, 0 <= inc <= 384 -> forall lim, 0 <= lim <= 16384 -> SP (inc, lim).

Record inv_bk (b : bk) : Prop := {
  ib_priors : forall c i, P (priors b c i);
  ib_llen : 1 <= last_llen b;
  ib_dlru : zlen (distance_lru b) = 4 /\ NoDup (distance_lru b);
  ib_st : 0 <= last_4_states b < 256;
  ib_lru : Forall byte (cmap_lru b) /\ zlen (cmap_lru b) = 13;
  ib_bt : Forall bpair (btype_lru b) /\ zlen (btype_lru b) = 3;
  ib_max : Forall byte (btype_max_seen b) /\ zlen (btype_max_seen b) = 3;
  ib_dcm : Forall byte (distance_context_map b) /\ zlen (distance_context_map b) = 1024 }.
Record inv_lbk (l : lbk) : Prop := {
  il_priors : forall c i, P (lpriors l c i);
  il_cmap : Forall byte (lit_cmap l) /\ 16384 <= zlen (lit_cmap l);
  il_bt : byte (btype_last l);
  il_mode : 0 <= lit_mode l < 4;
  il_adapt : Forall SP (lit_adapt l) /\ zlen (lit_adapt l) = 4;
  il_mask : Forall nibble (mixing_mask l) /\ 8192 <= zlen (mixing_mask l);
  il_w : wt_ok (wt_low l) /\ wt_ok (wt_high l) }.
Definition src_ok (d : list Z) : Prop :=
  P d \/ exists c1 c2 m, P c1 /\ P c2 /\ 0 <= m <= 2 ^ 15 /\ d = average c1 c2 m.
Definition node_ok {S} (Q : S -> Prop) (n : node S) : Prop :=
  match n with
  | Code st d k => src_ok d /\ forall v, nibble v -> oc_ok Q (k v)
  | Silent o => oc_ok Q o
  | Done => True
  end.

Lemma inv_bk_new : inv_bk bk_new.
Proof.
  split; cbn [bk_new priors last_llen last_4_states cmap_lru btype_lru btype_max_seen distance_context_map].
  - intros. exact P0.
  - lia.
  - split; [reflexivity|]. cbn [distance_lru]. repeat (constructor; [cbn; intuition discriminate|]). constructor.
  - lia.
  - split; [|reflexivity]. apply Forall_forall. intros x Hx. apply repeat_spec in Hx. subst x. exact byte0.
  - split; [|reflexivity]. repeat constructor; unfold byte; cbn; lia.
  - split; [|reflexivity]. repeat constructor; unfold byte; cbn; lia.
  - split; [|reflexivity]. apply Forall_forall. intros x Hx. apply repeat_spec in Hx. subst x. exact byte0.
Qed.
Lemma inv_lbk_new : inv_lbk lbk_new.
Proof.
  split; unfold lbk_new; cbn [lpriors lit_cmap btype_last lit_mode lit_adapt mixing_mask wt_low wt_high].
  - intros. exact P0.
  - split; [apply Forall_forall; intros x Hx; apply repeat_spec in Hx; subst x; exact byte0|]. unfold zlen. rewrite repeat_length. lia.
  - exact byte0.
  - lia.
  - split; [|reflexivity]. repeat constructor; apply SPpos; lia.
  - split; [apply Forall_forall; intros x Hx; apply repeat_spec in Hx; subst x; exact nibble0|]. unfold zlen. rewrite repeat_length. lia.
  - split; exact wt_new_ok.
Qed.

Lemma pupd_P p c i v : (forall c i, P (p c i)) -> P v -> forall c' i', P (pupd p c i v c' i').
Proof. intros H V c' i'. unfold pupd. destruct (coll_beq c c' && (i =? i')); auto. Qed.
Lemma inv_set_priors b c i v sp : inv_bk b -> nibble v -> SP sp ->
  inv_bk (set_priors b (pupd (priors b) c i (blend (priors b c i) v (fst sp) (snd sp)))).
Proof.
  intros [? ? ? ? ? ? ? ?] V S. split; cbn [set_priors priors last_llen last_4_states cmap_lru btype_lru btype_max_seen distance_context_map]; try assumption.
  apply pupd_P; [assumption|]. apply Pblend; auto.
Qed.
(** the workhorse: a [code] node is fine if its prior exists and the continuation is *)
Lemma code_ok {S} (Q : S -> Prop) b c bl ix sp k : inv_bk b -> SP sp -> (exists i, prior_index c bl ix = Some i) ->
  (forall b' v, inv_bk b' -> nibble v -> oc_ok Q (k b' v)) -> node_ok Q (code b c bl ix sp k).
Proof.
  intros I Sp (i & E) K. unfold code. rewrite E. cbn [node_ok]. split; [left; apply (ib_priors _ I)|].
  intros v V. apply K; [apply inv_set_priors; assumption|assumption].
Qed.

(** setters *)
Lemma inv_dlen b x : inv_bk b -> inv_bk (set_last_dlen b x).
Proof. intros [? ? ? ? ? ? ? ?]. split; assumption. Qed.
Lemma inv_clen b x : inv_bk b -> inv_bk (set_last_clen b x).
Proof. intros [? ? ? ? ? ? ? ?]. split; assumption. Qed.
Lemma inv_llen b x : inv_bk b -> 1 <= x -> inv_bk (set_last_llen b x).
Proof. intros [? ? ? ? ? ? ? ?] X. split; assumption. Qed.
Lemma inv_st4 b x : inv_bk b -> 0 <= x < 256 -> inv_bk (set_last_4_states b x).
Proof. intros [? ? ? ? ? ? ? ?] X. split; assumption. Qed.
Lemma inv_dlru b x : inv_bk b -> zlen x = 4 /\ NoDup x -> inv_bk (set_distance_lru b x).
Proof. intros [? ? ? ? ? ? ? ?] X. split; assumption. Qed.
Lemma inv_clru b x : inv_bk b -> Forall byte x -> zlen x = 13 -> inv_bk (set_cmap_lru b x).
Proof. intros [? ? ? ? ? ? ? ?] X Y. split; try assumption. split; assumption. Qed.
Lemma inv_dcm_set b x : inv_bk b -> Forall byte x -> zlen x = 1024 -> inv_bk (set_dcm b x).
Proof. intros [? ? ? ? ? ? ? ?] X Y. split; try assumption. split; assumption. Qed.
Lemma inv_obs_distance b d : inv_bk b -> inv_bk (obs_distance b d).
Proof.
  intros I. destruct (ib_dlru _ I) as (L & N). destruct (obs_distance_mtf b d L N) as (_ & H). revert H.
  unfold obs_distance. cbv zeta. repeat (destruct (_ =? _); cbn [negb]); intros H; try apply inv_dlru; try exact H; exact I.
Qed.
Lemma inv_next_state b : inv_bk b -> inv_bk (next_state b).
Proof. intros I. apply inv_st4; [exact I|]. pose proof (ib_st _ I). pose proof (shiftr_range (last_4_states b) 8 2 ltac:(lia) H ltac:(lia)). change (2 ^ (8 - 2)) with 64 in *. lia. Qed.
Lemma inv_obs_copy b : inv_bk b -> inv_bk (obs_copy_state b).
Proof. intros I. apply inv_st4; [apply inv_next_state; exact I|]. apply (st4_shift _ 64 (ib_st _ I)). lia. Qed.
Lemma inv_obs_dict b : inv_bk b -> inv_bk (obs_dict_state b).
Proof. intros I. apply inv_st4; [apply inv_next_state; exact I|]. apply (st4_shift _ 192 (ib_st _ I)). lia. Qed.
Lemma inv_obs_literal b : inv_bk b -> inv_bk (obs_literal_state b).
Proof. intros I. apply inv_st4; [apply inv_next_state; exact I|]. apply (st4_shift _ 128 (ib_st _ I)). lia. Qed.
Lemma inv_obs_btype b i t : inv_bk b -> 0 <= i < 3 -> byte t -> inv_bk (obs_btype b i t).
Proof.
  intros I H T. pose proof (inv_next_state b I) as J. unfold obs_btype. cbv zeta. destruct J as [? ? ? ? (?&?) (B1&B2) (M1&M2) ?].
  set (b' := next_state b) in *. split; cbn [set_btypes priors last_llen last_4_states cmap_lru btype_lru btype_max_seen distance_context_map]; try assumption; try (split; assumption).
  - split; [|rewrite upd_length; [assumption|lia]]. apply Forall_upd; [|assumption]. split; cbn [fst snd]; [exact T|].
    apply (proj1 (Forall_nth_pair bpair _ i B1 (conj byte0 byte0))).
  - split; [|rewrite upd_length; [assumption|lia]]. apply Forall_upd; [|assumption].
    pose proof (Forall_znth byte _ i M1 byte0). unfold byte in *. lia.
Qed.

(** context ranges *)
Lemma ctype_range b : inv_bk b -> 0 <= command_block_type b < 256.
Proof. intros I. exact (proj1 (Forall_nth_pair bpair _ 1 (proj1 (ib_bt _ I)) (conj byte0 byte0))). Qed.
Lemma dprior_range b n : inv_bk b -> 0 <= distance_prior b n < 256.
Proof.
  intros I. unfold distance_prior.
  pose proof (proj1 (Forall_nth_pair bpair _ 2 (proj1 (ib_bt _ I)) (conj byte0 byte0))) as D.
  fold (distance_block_type b) in D. unfold byte in D. destruct (ib_dcm _ I) as (F & L).
  rewrite zget_some by lia. exact (Forall_znth byte _ _ F byte0).
Qed.

(** ** copy *)
Definition inv_copy (s : copy_st) : Prop :=
  0 <= cc_num_bytes s < 2 ^ 32 /\
  match c_sub s with
  | CCountMant _ lr dsf => 0 < lr <= 32 /\ lr mod 4 = 0 /\ 0 <= dsf < 2 ^ 32
  | CDistMant _ lr dsf => 0 < lr <= 32 /\ 0 <= dsf < 2 ^ 32
  | _ => True
  end.
Definition Qcopy (p : bk * copy_st) : Prop := inv_bk (fst p) /\ inv_copy (snd p).
Lemma inv_copy_begin : inv_copy copy_begin.
Proof. split; cbn; [lia|exact Logic.I]. Qed.
Ltac fit := match goal with |- 0 <= _ < _ => idtac end; try lia.
Lemma dist_speed ld dl : SP (Z.shiftl 4 (Z.shiftl (Z.land (if ld =? 0 then Z.land dl 3 + 1 else 0) 6) (Z.shiftr (Z.land (if ld =? 0 then Z.land dl 3 + 1 else 0) 2) 1)), 16384).
Proof.
  destruct (ld =? 0).
  - pose proof (land3 dl). assert (Z.land dl 3 = 0 \/ Z.land dl 3 = 1 \/ Z.land dl 3 = 2 \/ Z.land dl 3 = 3) as [->|[->|[->| ->]]] by lia; apply SPpos; vm_compute; intuition discriminate.
  - apply SPpos; vm_compute; intuition discriminate.
Qed.
Lemma copy_node_ok b s : inv_bk b -> inv_copy s -> c_sub s <> CCountGreater18 -> node_ok Qcopy (copy_node b s).
Proof.
  intros I (N & J) NG. pose proof (ctype_range b I) as CT. pose proof (dprior_range b (cc_num_bytes s) I) as DP.
  unfold copy_node. cbv zeta. destruct (c_sub s) as [| | | |ld lr dsf| | | | |ld lr dsf|] eqn:E; try congruence.
  - cbn. split; [exact I|]. split; cbn; [exact N|exact Logic.I].
  - apply code_ok; [exact I|apply SPpos; lia| |].
    + eapply lookup_some; [cbn; right; right; right; right; left; reflexivity|]. fits_tac; [lia|].
      pose proof (land3 (Z.shiftr (last_4_states b) 4)). pose proof (ib_llen _ I). lia.
    + intros b' v I' V. unfold nibble in V. destruct (Z.eqb_spec v 15); cbn; (split; [|split]); cbn [fst snd cset set_num c_sub cc_num_bytes]; try exact I'; try exact N; try exact Logic.I; try (apply inv_clen; exact I'); lia.
  - apply code_ok; [exact I|apply SPpos; lia| |].
    + eapply lookup_some; [cbn; do 5 right; left; reflexivity|]. fits_tac; lia.
    + intros b' v I' V. unfold nibble in V. destruct (Z.eqb_spec v 15); cbn; (split; [|split]); cbn [fst snd cset set_num c_sub cc_num_bytes]; try exact I'; try exact N; try exact Logic.I; try (apply inv_clen; exact I').
      pose proof (round_up_spec (v + 3) ltac:(lia)). pose proof (shiftl1_range (v + 3) ltac:(lia)). split; [lia|]. split; [tauto|assumption].
  - apply code_ok; [exact I|apply SPpos; lia| |].
    + eapply lookup_some; [cbn; do 7 right; left; reflexivity|]. fits_tac; [lia|].
      destruct (ld =? 0); [|lia]. pose proof (Z.mod_pos_bound (last_clen b) 4 ltac:(lia)). lia.
    + intros b' v I' V. destruct J as (J1 & J2 & J3). pose proof (mant_range dsf v (lr - 4) J3 V ltac:(lia)) as M.
      destruct (Z.eqb_spec (lr - 4) 0); cbn; (split; [|split]); cbn [fst snd cset set_num c_sub cc_num_bytes]; try exact I'; try exact N; try exact Logic.I; try exact M.
      split; [lia|]. split; [lia|exact M].
  - cbn. split; [exact I|]. split; cbn; [exact N|exact Logic.I].
  - apply code_ok; [exact I|apply SPpos; lia| |].
    + eapply lookup_some; [cbn; do 1 right; left; reflexivity|]. fits_tac; [lia|]. destruct (last_llen b <? 8); lia.
    + intros b' v I' V. destruct (Z.eqb_spec v 15); [cbn; (split; [|split]); cbn [fst snd cset c_sub cc_num_bytes]; [exact I'|exact N|exact Logic.I]|].
      destruct (distance_from_code (distance_lru b') v) as (d, ok). destruct ok; [|exact Logic.I].
      cbn; (split; [|split]); cbn [fst snd set_dist c_sub cc_num_bytes]; [apply inv_dlen; exact I'|exact N|exact Logic.I].
  - apply code_ok; [exact I|apply SPpos; lia| |].
    + eapply lookup_some; [cbn; left; reflexivity|]. fits_tac; [lia|].
      pose proof (bitlen_range (cc_num_bytes s) 32 ltac:(lia) N). rewrite Z.shiftr_div_pow2 by lia. change (2 ^ 2) with 4. lia.
    + intros b' v I' V. unfold nibble in V. destruct (Z.eqb_spec v 14); [|destruct (Z.eqb_spec v 15); [|destruct (Z.eqb_spec v 0)]]; cbn; (split; [|split]); cbn [fst snd cset set_dist c_sub cc_num_bytes]; try exact I'; try exact N; try exact Logic.I; try (apply inv_dlen; exact I').
      pose proof (round_up_spec v ltac:(lia)). pose proof (shiftl1_range v ltac:(lia)). split; [lia|assumption].
  - apply code_ok; [exact I|apply SPpos; lia| |].
    + eapply lookup_some; [cbn; do 2 right; left; reflexivity|]. fits_tac; lia.
    + intros b' v I' V. unfold nibble in V. cbn; (split; [|split]); cbn [fst snd cset set_dist c_sub cc_num_bytes]; try exact N; try (apply inv_dlen; exact I').
      pose proof (round_up_spec (v + 14) ltac:(lia)). pose proof (shiftl1_range (v + 14) ltac:(lia)). split; [lia|assumption].
  - destruct J as (J1 & J3). pose proof (mantissa_lr lr J1) as ML.
    apply code_ok; [exact I|apply dist_speed| |].
    + eapply lookup_some; [cbn; do 3 right; left; reflexivity|]. fits_tac; [lia|].
      destruct (ld =? 0); [|lia]. pose proof (land3 (last_dlen b)). lia.
    + intros b' v I' V. pose proof (mant_range dsf v _ J3 V (proj1 ML)) as M. set (nlr := Z.shiftl (Z.shiftr (lr + 3) 2 - 1) 2) in *.
      destruct (Z.eqb_spec nlr 0); cbn; (split; [|split]); cbn [fst snd cset set_dist c_sub cc_num_bytes]; try exact I'; try exact N; try exact Logic.I.
      split; [lia|exact M].
  - exact Logic.I.
Qed.
(** the one place where a hostile nibble makes the code panic *)
Lemma copy_greater18_ok b s : inv_bk b -> inv_copy s -> c_sub s = CCountGreater18 ->
  exists d k, copy_node b s = Code CMD d k /\ P d /\ forall v, nibble v -> (v < 14 -> exists q, k v = Next q /\ Qcopy q) /\ (14 <= v -> k v = Panic).
Proof.
  intros I (N & J) E. pose proof (ctype_range b I) as CT. unfold copy_node. cbv zeta. rewrite E.
  unfold code. destruct (lookup_some CopyP CountLastNib [256; 64] [command_block_type b; 0]) as (i & Ei).
  { cbn; do 6 right; left; reflexivity. } { fits_tac; lia. }
  rewrite Ei. eexists _, _. split; [reflexivity|]. split; [apply (ib_priors _ I)|]. intros v V.
  pose proof (inv_set_priors b CopyP i v FAST I V ltac:(apply SPpos; lia)) as I'. unfold nibble in V. split; intros H.
  - destruct (Z.ltb_spec (v + 18) 32); [|lia]. eexists. split; [reflexivity|]. split; [apply inv_clen; exact I'|]. split; cbn [fst snd cset c_sub cc_num_bytes]; [exact N|].
    pose proof (round_up_spec (v + 18) ltac:(lia)). pose proof (shiftl1_range (v + 18) ltac:(lia)). split; [lia|]. split; [tauto|assumption].
  - destruct (Z.ltb_spec (v + 18) 32); [lia|]. reflexivity.
Qed.

(** ** dictionary *)
Definition inv_dict (s : dict_st) : Prop :=
  match d_sub s with
  | DIndex _ lr _ => 4 <= dc_word_size s <= 24 /\ 0 < lr /\ lr mod 4 = 0
  | DTransformHigh => 4 <= dc_word_size s <= 24
  | DTransformLow => 0 <= dc_transform s < 256
  | _ => True
  end.
Definition Qdict (p : bk * dict_st) : Prop := inv_bk (fst p) /\ inv_dict (snd p).
Lemma dict_node_ok wl b s : inv_bk b -> inv_dict s -> node_ok Qdict (dict_node wl b s).
Proof.
  intros I J. pose proof (ctype_range b I) as CT. pose proof (dprior_range b (dc_word_size s) I) as DP.
  unfold dict_node, inv_dict in *. cbv zeta.
  assert (SZ : forall b' ws, inv_bk b' -> 4 <= ws <= 24 -> Qdict (b', DS ws (dc_word_id s) (dc_transform s) (dc_final_size s) (DIndex 0 (round_up_mod_4 (znth DICT_BITS ws)) 0))).
  { intros b' ws I' W. split; [exact I'|]. unfold inv_dict. cbn [snd d_sub dc_word_size]. pose proof (dict_bits_range ws W).
    pose proof (round_up_spec (znth DICT_BITS ws) ltac:(lia)). split; [lia|]. split; [lia|tauto]. }
  destruct (d_sub s) as [| | |ld lr dsf| | |] eqn:E.
  - cbn. split; [exact I|exact Logic.I].
  - apply code_ok; [exact I|apply SPpos; lia| |].
    + eapply lookup_some; [cbn; left; reflexivity|]. fits_tac; lia.
    + intros b' v I' V. unfold nibble in V. destruct (Z.eqb_spec v 15); cbn [oc_ok]; [split; [exact I'|exact Logic.I]|apply SZ; [exact I'|lia]].
  - apply code_ok; [exact I|apply SPpos; lia| |].
    + eapply lookup_some; [cbn; right; left; reflexivity|]. fits_tac; lia.
    + intros b' v I' V. unfold nibble in V. destruct (Z.ltb_spec 24 (v + 19)); cbn [oc_ok]; [exact Logic.I|apply SZ; [exact I'|lia]].
  - apply code_ok; [exact I|apply SPpos; lia| |].
    + eapply lookup_some; [cbn; do 2 right; left; reflexivity|]. fits_tac; [lia|]. destruct (ld =? 0); [|lia].
      pose proof (Z.mod_pos_bound (znth DICT_BITS (dc_word_size s)) 4 ltac:(lia)). lia.
    + intros b' v I' V. destruct (Z.eqb_spec (lr - 4) 0); cbn [oc_ok]; (split; [exact I'|]); unfold inv_dict; cbn [snd dset d_sub dc_word_size]; [tauto|]. lia.
  - apply code_ok; [exact I|apply SPpos; lia| |].
    + eapply lookup_some; [cbn; do 3 right; left; reflexivity|]. fits_tac; [lia|]. rewrite Z.shiftr_div_pow2 by lia. change (2 ^ 1) with 2. lia.
    + intros b' v I' V. cbn [oc_ok]. split; [exact I'|]. unfold inv_dict; cbn [snd d_sub dc_transform].
      unfold nibble in V. exact (shiftl_range v 4 4 ltac:(lia) V ltac:(lia)).
  - apply code_ok; [exact I|apply SPpos; lia| |].
    + eapply lookup_some; [cbn; do 3 right; left; reflexivity|]. fits_tac; [lia|]. rewrite Z.shiftr_div_pow2 by lia. change (2 ^ 4) with 16. lia.
    + intros b' v I' V. destruct (121 <=? Z.lor (dc_transform s) v); cbn [oc_ok]; [exact Logic.I|]. split; [exact I'|exact Logic.I].
  - exact Logic.I.
Qed.

(** ** block types *)
Definition inv_bt (s : btype_st) : Prop := match s with BtFinal f => nibble f | BtFully t => byte t | _ => True end.
Definition Qbt (p : bk * btype_st) : Prop := inv_bk (fst p) /\ inv_bt (snd p).
Lemma btype_node_ok i b s : 0 <= i < 3 -> inv_bk b -> inv_bt s -> node_ok Qbt (btype_node i b s).
Proof.
  intros H I J. destruct s as [| |f|t]; cbn [btype_node].
  - apply code_ok; [exact I|apply SPpos; lia| |].
    + eapply lookup_some; [cbn; left; reflexivity|]. fits_tac; lia.
    + intros b' v I' V. unfold nibble in V. destruct (Z.eqb_spec v 0); [|destruct (Z.eqb_spec v 1); [|destruct (Z.eqb_spec v 15)]]; cbn [oc_ok]; (split; [exact I'|]); cbn [snd inv_bt].
      * exact (proj2 (Forall_nth_pair bpair _ i (proj1 (ib_bt _ I')) (conj byte0 byte0))).
      * unfold byte. apply Z.mod_pos_bound. lia.
      * exact Logic.I.
      * unfold byte. lia.
  - apply code_ok; [exact I|apply SPpos; lia| |].
    + eapply lookup_some; [cbn; right; left; reflexivity|]. fits_tac; lia.
    + intros b' v I' V. split; [exact I'|exact V].
  - apply code_ok; [exact I|apply SPpos; lia| |].
    + eapply lookup_some; [cbn; right; right; left; reflexivity|]. fits_tac; lia.
    + intros b' v I' V. split; [exact I'|]. cbn [snd inv_bt]. apply nib_join; assumption.
  - exact Logic.I.
Qed.
Definition inv_lbt (s : lbtype_st) : Prop := match s with LbInter u => inv_bt u | LbStride t => byte t | LbFully t st => byte t /\ nibble st | _ => True end.
Definition Qlbt (p : bk * lbtype_st) : Prop := inv_bk (fst p) /\ inv_lbt (snd p).
Lemma map_node_ok {A B} (f : A -> B) (QA : A -> Prop) (QB : B -> Prop) d n :
  (forall a, QA a -> QB (f a)) -> n <> Done \/ oc_ok QB d -> node_ok QA n -> node_ok QB (map_node f d n).
Proof.
  intros F D N. destruct n as [st c k|o|]; cbn in *.
  - split; [tauto|]. intros v V. destruct N as (_ & N). specialize (N v V). destruct (k v); cbn in *; auto.
  - destruct o; cbn in *; auto.
  - destruct D; [congruence|assumption].
Qed.
Lemma code_not_done {S} b c bl ix sp (k : bk -> Z -> outcome S) : code b c bl ix sp k <> Done.
Proof. unfold code. destruct (prior_index c bl ix); discriminate. Qed.
Lemma btype_not_done i b s : (forall t, s <> BtFully t) -> btype_node i b s <> Done.
Proof. intros H. destruct s; cbn [btype_node]; try apply code_not_done. exfalso. exact (H _ eq_refl). Qed.
Lemma lbtype_node_ok b s : inv_bk b -> inv_lbt s -> node_ok Qlbt (lbtype_node b s).
Proof.
  intros I J. destruct s as [|u|t|t st]; cbn [lbtype_node].
  - split; [exact I|exact Logic.I].
  - assert (K : (forall t, u <> BtFully t) -> node_ok Qlbt (map_node (fun p => (fst p, LbInter (snd p))) Panic (btype_node 0 b u))).
    { intros NF. apply (map_node_ok _ Qbt); [intros a (X & Y); split; [exact X|exact Y]|left; apply btype_not_done; exact NF|]. apply btype_node_ok; [lia|exact I|exact J]. }
    destruct u; try (apply K; discriminate). split; [exact I|exact J].
  - apply code_ok; [exact I|apply SPpos; lia| |].
    + eapply lookup_some; [cbn; do 3 right; left; reflexivity|]. fits_tac; lia.
    + intros b' v I' V. split; [exact I'|]. split; [exact J|exact V].
  - exact Logic.I.
Qed.

(** ** literals *)
Lemma context_range l : inv_lbk l -> 0 <= actual_context l < 256.
Proof.
  intros I. unfold actual_context. cbv zeta. destruct (il_cmap _ I) as (F & L).
  pose proof (lut0_range (lit_mode l) (prev_byte l) (land255 _)) as A.
  pose proof (lut1_range (lit_mode l) (Z.land (Z.shiftr (last_8 l) 48) 255)) as B.
  pose proof (lor_range _ _ 6 ltac:(lia) A B) as C. change (2 ^ 6) with 64 in C.
  pose proof (il_bt _ I) as T. unfold byte in T. rewrite zget_some; [exact (Forall_znth byte _ _ F byte0)|].
  rewrite (Z.shiftl_mul_pow2 (btype_last l)) by lia. change (2 ^ 6) with 64. lia.
Qed.
Lemma mm_opts_some l high h : inv_lbk l -> exists m, mm_opts_of l high h = Some m /\ nibble m.
Proof.
  intros I. unfold mm_opts_of. cbv zeta. destruct (il_mask _ I) as (F & L). pose proof (context_range l I) as C.
  assert (K : forall i, 0 <= i < 8192 -> exists m, zget (mixing_mask l) i = Some m /\ nibble m).
  { intros i Hi. rewrite zget_some by lia. eexists. split; [reflexivity|]. exact (Forall_znth nibble _ _ F nibble0). }
  apply K. destruct high.
  - assert (0 <= Z.lor (actual_context l) (Z.shiftl (Z.shiftr (prev_byte l) 4) 8) < 2 ^ 12); [|change (2 ^ 12) with 4096 in *; lia].
    apply lor_range; [lia|change (2 ^ 12) with 4096; lia|].
    pose proof (shiftr_range (prev_byte l) 8 4 ltac:(lia) (land255 _) ltac:(lia)) as S1.
    exact (shiftl_range _ 4 8 ltac:(lia) S1 ltac:(lia)).
  - change 8192 with (2 ^ 13). apply lor_range; [lia| |vm_compute; intuition discriminate].
    apply lor_range; [lia|change (2 ^ 13) with 8192; lia|].
    pose proof (shiftl_range _ 4 8 ltac:(lia) (land15 h) ltac:(lia)). change (2 ^ (4 + 8)) with 4096 in *. change (2 ^ 13) with 8192. lia.
Qed.
Lemma nibble_index_fits l high h m : inv_lbk l -> nibble h -> nibble m -> fits (nibble_index l high h m) [3; 256; 256].
Proof.
  intros I H M. pose proof (context_range l I) as C. unfold nibble_index. cbv zeta. unfold nibble in *.
  set (ctx := actual_context l) in *.
  set (sel := Z.shiftr (last_8 l) (56 - (if m <? 4 then 0 else Z.shiftl (Z.min 7 (Z.lxor m 4)) 3)) mod 256).
  assert (SEL : 0 <= sel < 256) by (apply Z.mod_pos_bound; lia).
  set (mm := if (m =? 0) || (m =? 3) then 0 else 255). set (opt1 := if m =? 1 then 15 else 0). set (fast := if m =? 3 then 0 else 255).
  assert (MM : 0 <= mm < 256) by (unfold mm; destruct ((m =? 0) || (m =? 3)); lia).
  assert (O1 : 0 <= opt1 < 16) by (unfold opt1; destruct (m =? 1); lia).
  fits_tac.
  - unfold mm, opt1. destruct (Z.eqb_spec m 1) as [->|]; [vm_compute; intuition discriminate|].
    destruct ((m =? 0) || (m =? 3)); vm_compute; intuition discriminate.
  - destruct high; [apply land_byte, land_byte; exact SEL|].
    apply (lor_range _ _ 8); [lia| |]; [rewrite Z.land_comm; apply land_byte; exact SEL|rewrite Z.land_comm; apply land_byte; exact C].
  - destruct high; [exact C|]. apply (lor_range _ _ 8); [lia|apply land_byte; lia|].
    rewrite (Z.land_comm ctx). assert (0 <= Z.land opt1 ctx < 16).
    { unfold opt1. destruct (m =? 1); [rewrite Z.land_comm; apply land15|rewrite Z.land_0_l; lia]. }
    exact (shiftl_range _ 4 4 ltac:(lia) H0 ltac:(lia)).
Qed.
Definition inv_mix (mix : bool) (l : lbk) : Prop := should_mix (wt_low l) = mix /\ should_mix (wt_high l) = mix.
Lemma inv_lpriors l c i v sp : inv_lbk l -> nibble v -> SP sp ->
  inv_lbk (set_lpriors l (pupd (lpriors l) c i (blend (lpriors l c i) v (fst sp) (snd sp)))).
Proof.
  intros [? ? ? ? ? ? ?] V S. split; cbn [set_lpriors lpriors lit_cmap btype_last lit_mode lit_adapt mixing_mask wt_low wt_high]; try assumption.
  apply pupd_P; [assumption|]. apply Pblend; auto.
Qed.
Lemma adapt_SP l i : inv_lbk l -> SP (nth_pair (lit_adapt l) i).
Proof. intros I. apply Forall_nth_pair; [apply (il_adapt _ I)|]. apply SPpos; lia. Qed.
Lemma inv_set_weights l high w : inv_lbk l -> wt_ok w -> inv_lbk (set_weights l high w).
Proof.
  intros [? ? ? ? ? ? (?&?)] W. split; cbn [set_weights lpriors lit_cmap btype_last lit_mode lit_adapt mixing_mask wt_low wt_high]; try assumption.
  destruct high; split; assumption.
Qed.
Lemma code_nibble_ok {S} (Q : S -> Prop) mix l high h k : inv_lbk l -> inv_mix mix l -> nibble h ->
  (forall l' v, inv_lbk l' -> inv_mix mix l' -> nibble v -> oc_ok Q (k l' v)) -> node_ok Q (code_nibble mix l high h k).
Proof.
  intros I X H K. unfold code_nibble. cbv zeta. destruct (mm_opts_some l high h I) as (m & Em & M). rewrite Em.
  set (tbl := if high then LitHighP else LitLowP).
  destruct (lookup_some tbl CombinedNibble [3; 256; 256] (nibble_index l high h m)) as (i & Ei).
  { unfold tbl. destruct high; cbn; left; reflexivity. } { apply nibble_index_fits; assumption. }
  rewrite Ei.
  assert (BL : forall l', inv_lbk l' -> inv_mix mix l' -> lpriors l' tbl i = lpriors l tbl i -> forall v, nibble v ->
    let l'' := if m =? 2 then l' else let '(inc, lim) := nth_pair (lit_adapt l') 0 in set_lpriors l' (pupd (lpriors l') tbl i (blend (lpriors l tbl i) v inc lim)) in
    inv_lbk l'' /\ inv_mix mix l'').
  { intros l' I' X' EQ v V. cbv zeta. destruct (m =? 2); [split; assumption|].
    destruct (nth_pair (lit_adapt l') 0) as (inc, lim) eqn:E. pose proof (adapt_SP l' 0 I') as SS. rewrite E in SS. rewrite <- EQ.
    split; [exact (inv_lpriors l' tbl i v (inc, lim) I' V SS)|exact X']. }
  destruct mix; cbn [negb].
  - assert (exists j, (if high then prior_index LitCmP CmFirstNibble [0; actual_context l] else prior_index LitCmP CmSecondNibble [0; h; actual_context l]) = Some j) as (j & Ej).
    { pose proof (context_range l I) as C. destruct high; [apply (lookup_some LitCmP CmFirstNibble [1; 256])|apply (lookup_some LitCmP CmSecondNibble [1; 16; 256])]; try (cbn; tauto); fits_tac; unfold nibble in *; lia. }
    rewrite Ej. set (w := if high then wt_high l else wt_low l).
    assert (W : wt_ok w) by (unfold w; destruct high; apply (il_w _ I)).
    cbn [node_ok]. split.
    + right. exists (lpriors l LitCmP j), (lpriors l tbl i), (norm_weight w mod 2 ^ 16). split; [apply (il_priors _ I)|]. split; [apply (il_priors _ I)|]. split; [apply W|reflexivity].
    + intros v V. assert (SM : should_mix w = true) by (unfold w; destruct high; apply X). rewrite SM. cbn [negb].
      set (w' := weights_update w _ _ _). assert (W' : wt_ok w') by apply weights_update_ok.
      assert (SM' : should_mix w' = true) by (unfold should_mix, w'; rewrite weights_update_mixing; exact SM).
      pose proof (inv_set_weights l high w' I W') as I'. set (l' := set_weights l high w') in *.
      assert (X' : inv_mix true l').
      { unfold l', inv_mix. cbn [set_weights wt_low wt_high]. destruct high; split; try exact SM'; apply X. }
      destruct (nth_pair (lit_adapt l') (if high then 3 else 2)) as (inc, lim) eqn:E.
      pose proof (adapt_SP l' (if high then 3 else 2) I') as SS. rewrite E in SS.
      pose proof (inv_lpriors l' LitCmP j v (inc, lim) I' V SS) as I2. cbn [fst snd] in I2.
      change (lpriors l' LitCmP j) with (lpriors l LitCmP j) in I2.
      set (l2 := set_lpriors l' _) in *.
      match goal with |- oc_ok Q (k ?l3 v) => assert (Z3 : inv_lbk l3 /\ inv_mix true l3) end.
      { apply (BL l2 I2 X'); [|exact V]. unfold l2. cbn [set_lpriors lpriors]. unfold pupd. unfold tbl. destruct high; reflexivity. }
      apply K; [apply Z3|apply Z3|exact V].
  - cbn [node_ok]. split.
    + left. destruct (m =? 2); [exact P0|apply (il_priors _ I)].
    + intros v V. destruct (BL l I X eq_refl v V) as (I2 & X2). apply K; assumption.
Qed.
Definition inv_lit (s : lit_st) : Prop :=
  match l_sub s with
  | LCountMant lr dsf => 0 < lr /\ lr mod 4 = 0 /\ 0 <= dsf
  | LLower _ h => nibble h
  | _ => True
  end.
Definition Qlit (mix : bool) (p : bk * lbk * lit_st) : Prop := inv_bk (fst (fst p)) /\ inv_lbk (snd (fst p)) /\ inv_mix mix (snd (fst p)) /\ inv_lit (snd p).
Lemma inv_push l x : inv_lbk l -> inv_lbk (push_literal_byte l x).
Proof. intros [? ? ? ? ? ? ?]. split; assumption. Qed.
Lemma lit_node_ok mix b l s : inv_bk b -> inv_lbk l -> inv_mix mix l -> inv_lit s -> node_ok (Qlit mix) (lit_node mix b l s).
Proof.
  intros I L X J. pose proof (ctype_range b I) as CT. unfold lit_node, inv_lit in *. cbv zeta.
  destruct (l_sub s) as [|f| | |lr dsf|i|i h|] eqn:E.
  - cbn [node_ok oc_ok]. repeat split; try assumption; try apply I; try apply L; apply X.
  - apply code_ok; [exact I|apply SPpos; lia| |].
    + eapply lookup_some; [cbn; left; reflexivity|]. fits_tac; lia.
    + intros b' v I' V. unfold nibble in V. destruct (Z.eqb_spec v 14); [|destruct (Z.eqb_spec v 15)]; cbn [oc_ok]; (split; [|split; [exact L|split; [exact X|exact Logic.I]]]); cbn [fst snd]; try exact I'. apply inv_llen; [exact I'|lia].
  - apply code_ok; [exact I|apply SPpos; lia| |].
    + eapply lookup_some; [cbn; right; left; reflexivity|]. fits_tac; lia.
    + intros b' v I' V. unfold nibble in V. destruct (Z.eqb_spec v 15); [|destruct (Z.leb_spec v 1)]; cbn [oc_ok]; (split; [exact I'|split; [exact L|split; [exact X|]]]); unfold inv_lit; cbn [snd lset lsized l_sub]; try exact Logic.I.
      pose proof (round_up_spec (v - 1) ltac:(lia)). pose proof (shiftl1_range (v - 1) ltac:(lia)). split; [lia|]. split; [tauto|lia].
  - apply code_ok; [exact I|apply SPpos; lia| |].
    + eapply lookup_some; [cbn; right; right; left; reflexivity|]. fits_tac; lia.
    + intros b' v I' V. unfold nibble in V. cbn [oc_ok]; (split; [exact I'|split; [exact L|split; [exact X|]]]); unfold inv_lit; cbn [snd lset lsized l_sub].
      pose proof (round_up_spec (v + 14) ltac:(lia)). pose proof (shiftl1_range (v + 14) ltac:(lia)). split; [lia|]. split; [tauto|lia].
  - apply code_ok; [exact I|apply SPpos; lia| |].
    + eapply lookup_some; [cbn; right; right; right; left; reflexivity|]. fits_tac; lia.
    + intros b' v I' V. unfold nibble in V. assert (M : 0 <= Z.lor dsf (Z.shiftl v (lr - 4))).
      { apply Z.lor_nonneg. split; [lia|]. apply Z.shiftl_nonneg. lia. }
      destruct (Z.eqb_spec (lr - 4) 0); cbn [oc_ok]; (split; [|split; [exact L|split; [exact X|]]]); unfold inv_lit; cbn [fst snd lset lsized l_sub]; try exact Logic.I; try exact I'.
      * apply inv_llen; [exact I'|lia].
      * split; [lia|]. split; [lia|exact M].
  - apply code_nibble_ok; [exact L|exact X|exact nibble0|]. intros l' v L' X' V. split; [exact I|split; [exact L'|split; [exact X'|exact V]]].
  - apply code_nibble_ok; [exact L|exact X|exact J|]. intros l' v L' X' V.
    split; [exact I|split; [apply inv_push; exact L'|split; [exact X'|]]]. unfold inv_lit. cbn [snd l_sub]. destruct (i + 1 =? l_len s); exact Logic.I.
  - exact Logic.I.
Qed.
End Inv.
