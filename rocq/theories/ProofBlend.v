(** Proofs about the blending distribution. *)
From Verif Require Import Prelude ModelAns SpecAns ModelCdf ModelBlend SpecBlend SpecCdf ProofCdf.


Lemma nth_map_seq (f : nat -> Z) n i : (i < n)%nat -> nth i (map f (seq 0 n)) 0 = f i.
Proof.
  intros H. rewrite (nth_indep _ 0 (f 0%nat)) by (now rewrite map_length, seq_length).
  rewrite map_nth, seq_nth by exact H. reflexivity.
Qed.

(** ** Shape: sixteen increasing entries, the last one [x] *)
Definition shape (c : list Z) (x : Z) : Prop :=
  length c = 16%nat /\ nth 15 c 0 = x /\
  forall i j, (i <= j < 16)%nat -> 0 <= nth i c 0 <= nth j c 0.

Lemma shape_le c x i : shape c x -> (i < 16)%nat -> 0 <= nth i c 0 <= x.
Proof. intros (L & X & M) Hi. specialize (M i 15%nat ltac:(lia)). lia. Qed.

(** ** Values and intervals *)
Lemma values_nth b i : (i < 16)%nat ->
  nth i (bvalues b) 0 = if (i =? 15)%nat then CDF_MAX
    else i16 (nth i (b_cdf b) 0 + i16 (Z.shiftr (i16 (CDF_MAX - nth 15 (b_cdf b) 0) * (Z.of_nat i + 1)) 4)).
Proof.
  intros Hi. unfold bvalues. now rewrite nth_map_seq.
Qed.
Lemma values_length b : length (bvalues b) = 16%nat.
Proof. unfold bvalues. now rewrite map_length, seq_length. Qed.

Definition val (b : bcdf) (x : Z) (i : nat) : Z := nth i (b_cdf b) 0 + (32767 - x) * (Z.of_nat i + 1) / 16.
Lemma values_eq b x i : shape (b_cdf b) x -> x <= 32751 -> (i < 16)%nat ->
  nth i (bvalues b) 0 = val b x i.
Proof.
  intros S X Hi. rewrite values_nth by exact Hi. pose proof (shape_le _ _ i S Hi) as R.
  destruct S as (L & E & M). rewrite E. unfold val. change CDF_MAX with 32767.
  destruct (Nat.eqb_spec i 15) as [->|N].
  - rewrite E. change (Z.of_nat 15 + 1) with 16. rewrite Z.div_mul by lia. lia.
  - rewrite Z.shiftr_div_pow2 by lia. change (2 ^ 4) with 16. rewrite (i16_id (32767 - x)) by lia.
    assert (0 <= (32767 - x) * (Z.of_nat i + 1) / 16 <= 32767 - x).
    { split; [apply Z.div_pos; nia|]. apply Z.div_le_upper_bound; nia. }
    rewrite i16_id; rewrite i16_id; first [reflexivity | lia].
Qed.
Lemma val_gap b x g i j : shape (b_cdf b) x -> x + 16 * g <= 32767 -> 1 <= g -> (i < j < 16)%nat ->
  val b x i + g <= val b x j.
Proof.
  intros (L & E & M) X G H. unfold val. specialize (M i j ltac:(lia)).
  assert ((32767 - x) * (Z.of_nat i + 1) / 16 + g <= (32767 - x) * (Z.of_nat j + 1) / 16); [|lia].
  rewrite <- Z.div_add by lia. apply Z.div_le_mono; [lia|]. nia.
Qed.
Lemma val_first b x g : shape (b_cdf b) x -> x + 16 * g <= 32767 -> 1 <= g -> g <= val b x 0.
Proof.
  intros S X G. pose proof (shape_le _ _ 0%nat S ltac:(lia)). unfold val.
  assert (g <= (32767 - x) * (Z.of_nat 0 + 1) / 16); [|lia]. apply Z.div_le_lower_bound; lia.
Qed.
Lemma val_last b x : shape (b_cdf b) x -> val b x 15 = 32767.
Proof. intros (L & E & M). unfold val. rewrite E. change (Z.of_nat 15 + 1) with 16. rewrite Z.div_mul by lia. lia. Qed.

(** the value below symbol [s] *)
Definition below (b : bcdf) (x s : Z) : Z := if s =? 0 then 0 else val b x (Z.to_nat (s - 1)).
Definition upto (b : bcdf) (x s : Z) : Z := val b x (Z.to_nat s).
Lemma gap_facts b x g s : shape (b_cdf b) x -> x + 16 * g <= 32767 -> 1 <= g -> nibble s ->
  0 <= below b x s /\ below b x s + g <= upto b x s <= 32767 /\
  upto b x s - below b x s + g <= 32767.
Proof.
  intros S X G N. unfold nibble in N. pose proof (val_last _ _ S) as V15. pose proof (val_first _ _ g S X G) as V0.
  assert (A : forall i j, (i < j < 16)%nat -> val b x i + g <= val b x j) by (intros; now apply val_gap).
  assert (B : forall i, (i < 16)%nat -> g <= val b x i <= 32767).
  { intros i Hi. split.
    - destruct (Nat.eq_dec i 0) as [->|]; [exact V0|]. specialize (A 0%nat i ltac:(lia)). lia.
    - destruct (Nat.eq_dec i 15) as [->|]; [lia|]. specialize (A i 15%nat ltac:(lia)). lia. }
  unfold below, upto. destruct (Z.eqb_spec s 0) as [->|E].
  - specialize (A 0%nat 15%nat ltac:(lia)). change (Z.to_nat 0) with 0%nat. lia.
  - pose proof (B (Z.to_nat (s - 1)) ltac:(lia)). pose proof (B (Z.to_nat s) ltac:(lia)).
    specialize (A (Z.to_nat (s - 1)) (Z.to_nat s) ltac:(lia)). lia.
Qed.
Lemma binterval_eq b x s : shape (b_cdf b) x -> x <= 32751 -> nibble s ->
  binterval b s = (below b x s + 1, upto b x s - below b x s - 1).
Proof.
  intros S X N. pose proof (gap_facts b x 1 s S ltac:(lia) ltac:(lia) N) as (F0 & F1 & F2).
  assert (Vd : forall v, 0 <= v -> Z.shiftr (Z.shiftl v 15) 15 = v).
  { intros v Hv. rewrite Z.shiftr_div_pow2, Z.shiftl_mul_pow2 by lia. apply Z.div_mul. lia. }
  unfold binterval, sym_to_start_and_freq. rewrite (cdf_at_cumul (bvalues b) s N).
  unfold nibble in N. unfold cumul. destruct (Z.ltb_spec s 0); [lia|].
  rewrite (values_eq b x _ S X) by lia. fold (upto b x s). rewrite (Vd (upto b x s)) by lia.
  assert (P : (if negb (s =? 0) then Z.shiftr (Z.shiftl (cdf_at (bvalues b) (s - 1)) 15) 15 else 0) = below b x s).
  { unfold below in *. destruct (Z.eqb_spec s 0) as [->|E]; cbn [negb]; [reflexivity|].
    rewrite cdf_at_cumul by (unfold nibble; lia). unfold cumul. destruct (Z.ltb_spec (s - 1) 0); [lia|].
    rewrite (values_eq b x _ S X) by lia. apply Vd. lia. }
  rewrite P. rewrite !i16_id by lia. reflexivity.
Qed.
Lemma codes_ok b x s : shape (b_cdf b) x -> x <= 32735 -> nibble s -> codes (blookup b) s (binterval b s).
Proof.
  intros S X N. rewrite (binterval_eq b x s S ltac:(lia) N).
  pose proof (gap_facts b x 2 s S ltac:(lia) ltac:(lia) N) as (F0 & F1 & F2).
  split; cbn [fst snd]; [unfold legal; lia|].
  intros off O. unfold blookup, offset_to_sym.
  assert (MX : cdf_max (bvalues b) = 32767).
  { unfold cdf_max. rewrite (values_eq b x _ S) by lia. now apply val_last. }
  rewrite MX, Z.shiftr_div_pow2 by lia.
  assert (E : off * 32767 / 2 ^ 15 = off - 1).
  { symmetry. apply Z.div_unique with (2 ^ 15 - off); lia. }
  rewrite E, i16_id by lia.
  assert (Fs : find_sym 0 (bvalues b) (off - 1) = s).
  { unfold nibble in N. rewrite (find_sym_spec (off - 1) (bvalues b) 0 s); [lia| | | |].
    - rewrite values_length. lia.
    - lia.
    - intros j Hj. rewrite (values_eq b x _ S) by lia. unfold below in O. destruct (Z.eqb_spec s 0); [lia|].
      destruct (Z.eq_dec j (s - 1)) as [->|]; [lia|].
      pose proof (val_gap b x 2 (Z.to_nat j) (Z.to_nat (s - 1)) S ltac:(lia) ltac:(lia) ltac:(lia)). lia.
    - left. rewrite (values_eq b x _ S) by lia. fold (upto b x s). lia. }
  rewrite Fs. fold (binterval b s). rewrite (binterval_eq b x s S ltac:(lia) N). reflexivity.
Qed.
Lemma ordered_ok b x s t : shape (b_cdf b) x -> x <= 32751 -> nibble s -> nibble t -> s < t ->
  fst (binterval b s) + snd (binterval b s) < fst (binterval b t).
Proof.
  intros S X Ns Nt H. rewrite !(binterval_eq b x _ S X) by assumption. cbn [fst snd].
  assert (upto b x s <= below b x t); [|lia]. unfold upto, below, nibble in *.
  destruct (Z.eqb_spec t 0); [lia|]. destruct (Z.eq_dec s (t - 1)) as [->|]; [lia|].
  pose proof (val_gap b x 1 (Z.to_nat s) (Z.to_nat (t - 1)) S ltac:(lia) ltac:(lia) ltac:(lia)). lia.
Qed.
Lemma width_ok b x s : shape (b_cdf b) x -> x <= 32751 -> nibble s -> 0 <= snd (binterval b s).
Proof.
  intros S X N. rewrite (binterval_eq b x s S X N). cbn [snd].
  pose proof (gap_facts b x 1 s S ltac:(lia) ltac:(lia) N). lia.
Qed.

(** ** One step *)
Definition mixed (x t rate bias : Z) : Z := (t * rate + x * (2 ^ 15 - rate) + bias) / 2 ^ 15.
Lemma mixed_range x t r k : 0 <= x <= 32751 -> 0 <= t <= 32751 -> 0 <= r <= 2 ^ 15 -> 0 <= k < 2 ^ 15 ->
  0 <= mixed x t r k <= 32751.
Proof.
  intros. unfold mixed. split; [apply Z.div_pos; nia|].
  assert ((t * r + x * (2 ^ 15 - r) + k) / 2 ^ 15 < 32752); [|lia]. apply Z.div_lt_upper_bound; nia.
Qed.
Lemma mul_blend_nth r k : 0 <= r <= 2 ^ 15 -> 0 <= k < 2 ^ 15 -> forall c t i,
  length c = length t -> (i < length c)%nat ->
  (forall j, (j < length c)%nat -> 0 <= nth j c 0 <= 32751 /\ 0 <= nth j t 0 <= 32751) ->
  nth i (mul_blend c t r k) 0 = mixed (nth i c 0) (nth i t 0) r k.
Proof.
  intros R K. induction c as [|x c IH]; intros [|y t] i L Hi H; cbn [length] in *; try lia.
  cbn [mul_blend]. destruct i as [|i]; cbn [nth].
  - pose proof (H 0%nat ltac:(lia)) as H0. cbn [nth] in H0. destruct H0 as [Hx Hy].
    pose proof (mixed_range x y r k Hx Hy R K) as M.
    change (Z.shiftl 1 15) with (2 ^ 15). rewrite Z.shiftr_div_pow2 by lia.
    assert (0 <= y * r <= 32751 * 2 ^ 15) by nia. assert (0 <= x * (2 ^ 15 - r) <= 32751 * 2 ^ 15) by nia.
    assert (y * r + x * (2 ^ 15 - r) <= 32751 * 2 ^ 15) by nia.
    rewrite (i32_id (y * r)), (i32_id (x * (2 ^ 15 - r))), (i32_id (_ + k)), i32_id by lia.
    rewrite Z.add_assoc. fold (mixed x y r k). rewrite i16_id by lia. reflexivity.
  - apply IH; [lia|lia|]. intros j Hj. exact (H (S j) ltac:(lia)).
Qed.
Lemma mul_blend_length r k : forall c t, length c = length t -> length (mul_blend c t r k) = length c.
Proof. induction c as [|x c IH]; intros [|y t] L; cbn [mul_blend length] in *; try lia. rewrite IH; lia. Qed.

Definition boost (x : Z) : Z := if x <? DEL - Z.shiftr x 1 then x + Z.shiftr x 1 else x.
Lemma half x : Z.shiftr x 1 = x / 2.
Proof. rewrite Z.shiftr_div_pow2 by lia. reflexivity. Qed.
Lemma boost_range x : 0 <= x <= 32751 -> x <= boost x <= 32751.
Proof. intros H. unfold boost. rewrite half. change DEL with 32751. destruct (Z.ltb_spec x (32751 - x / 2)); lia. Qed.

Lemma blend_internal_ok b t r x y : shape (b_cdf b) x -> shape t y -> x <= 32751 -> y <= 32751 -> 0 <= r <= 2 ^ 15 ->
  let z := boost (mixed x y r (Z.shiftl (Z.land (b_count b) 15) 11)) in
  exists c, blend_internal b t r = Some (BC c (b_rate b) (b_count b)) /\ shape c z /\ z <= 32751.
Proof.
  intros Sx Sy X Y R z.
  assert (K : 0 <= Z.shiftl (Z.land (b_count b) 15) 11 < 2 ^ 15).
  { rewrite Z.shiftl_mul_pow2 by lia. change 15 with (Z.ones 4) at 1 2. rewrite Z.land_ones by lia.
    pose proof (Z.mod_pos_bound (b_count b) (2 ^ 4) ltac:(lia)). lia. }
  set (k := Z.shiftl (Z.land (b_count b) 15) 11) in *.
  pose proof (fun i => shape_le _ _ i Sx) as Bx. pose proof (fun i => shape_le _ _ i Sy) as By.
  destruct Sx as (Lx & Ex & Mx), Sy as (Ly & Ey & My).
  set (m := mul_blend (b_cdf b) t r k).
  assert (N : forall i, (i < 16)%nat -> nth i m 0 = mixed (nth i (b_cdf b) 0) (nth i t 0) r k).
  { intros i Hi. apply mul_blend_nth; auto; try lia. intros j Hj. specialize (Bx j). specialize (By j). lia. }
  assert (Lm : length m = 16%nat) by (unfold m; rewrite mul_blend_length; lia).
  assert (Rg : forall i, (i < 16)%nat -> 0 <= nth i m 0 <= 32751).
  { intros i Hi. rewrite N by exact Hi. apply mixed_range; auto; [specialize (Bx i)|specialize (By i)]; lia. }
  assert (Mm : forall i j, (i <= j < 16)%nat -> nth i m 0 <= nth j m 0).
  { intros i j H. rewrite !N by lia. unfold mixed. apply Z.div_le_mono; [lia|].
    pose proof (proj2 (Mx i j H)). pose proof (proj2 (My i j H)). nia. }
  pose proof (N 15%nat ltac:(lia)) as N15. rewrite Ex, Ey in N15.
  pose proof (boost_range _ (Rg 15%nat ltac:(lia))) as BR. rewrite N15 in BR. fold z in BR.
  unfold blend_internal. fold k. fold m. cbv zeta. rewrite N15.
  assert (Zz : z = boost (mixed x y r k)) by reflexivity. unfold boost in Zz.
  destruct (Z.ltb_spec (mixed x y r k) (DEL - Z.shiftr (mixed x y r k) 1)) as [Lt|Ge].
  - assert (Nb : forall i, (i < 16)%nat -> nth i (map (fun x0 => i16 (x0 + Z.shiftr x0 1)) m) 0 = nth i m 0 + nth i m 0 / 2).
    { intros i Hi. change 0 with ((fun x0 => i16 (x0 + Z.shiftr x0 1)) 0) at 1. rewrite map_nth, half.
      pose proof (Rg i Hi). pose proof (Mm i 15%nat ltac:(lia)). rewrite N15 in *. rewrite half in *. change DEL with 32751 in *.
      apply i16_id. lia. }
    assert (E15 : nth 15 (map (fun x0 => i16 (x0 + Z.shiftr x0 1)) m) 0 = z).
    { rewrite Nb, N15, Zz, half by lia. reflexivity. }
    rewrite E15. unfold assert. destruct (Z.leb_spec z DEL) as [_|B]; [|change DEL with 32751 in B; lia].
    eexists. split; [reflexivity|]. split; [|lia]. split; [rewrite map_length; exact Lm|]. split; [exact E15|].
    intros i j H. rewrite !Nb by lia. pose proof (Rg i ltac:(lia)). pose proof (Mm i j H). lia.
  - rewrite N15. unfold assert. rewrite Zz in BR. destruct (Z.leb_spec (mixed x y r k) DEL) as [_|B]; [|change DEL with 32751 in B; lia].
    eexists. split; [reflexivity|]. split; [|lia]. split; [exact Lm|]. split; [congruence|].
    intros i j H. pose proof (Rg i ltac:(lia)). pose proof (Mm i j H). lia.
Qed.

Lemma to_blend_shape s : nibble s -> shape (to_blend s) DEL.
Proof.
  intros N. unfold nibble in N.
  assert (E : forall i, (i < 16)%nat -> nth i (to_blend s) 0 = if s <=? Z.of_nat i then DEL else 0).
  { intros i Hi. unfold to_blend. now rewrite nth_map_seq. }
  split; [unfold to_blend; now rewrite map_length, seq_length|]. change DEL with 32751 in *. split.
  - rewrite E by lia. destruct (Z.leb_spec s (Z.of_nat 15)); lia.
  - intros i j H. rewrite !E by lia. destruct (Z.leb_spec s (Z.of_nat i)), (Z.leb_spec s (Z.of_nat j)); lia.
Qed.

(** ** The top entry depends only on the number of symbols seen *)
Definition top_step (p : Z * Z * Z) : Z * Z * Z :=
  let '(x, r, k) := p in
  let k := i32 (k + 1) in
  (boost (mixed x DEL r (Z.shiftl (Z.land k 15) 11)), r - Z.shiftr r 7, k).
Definition fine (p : Z * Z * Z) : bool := let '(x, r, _) := p in (x <=? 32735) && (0 <=? r) && (r <=? 2 ^ 15).
Definition still (p : Z * Z * Z) : bool := let '(x, r, _) := p in (x =? 32735) && (r =? 127).
Fixpoint walk (n : nat) (p : Z * Z * Z) : bool :=
  fine p && (still p || match n with O => false | S n => walk n (top_step p) end).

Lemma still_step p : still p = true -> fine (top_step p) = true /\ still (top_step p) = true.
Proof.
  destruct p as ((x, r), k). cbn [still]. intros H. apply andb_prop in H as [H1 H2].
  apply Z.eqb_eq in H1, H2. subst x r. cbn [top_step fine still].
  assert (K : 0 <= Z.shiftl (Z.land (i32 (k + 1)) 15) 11 <= 30720).
  { rewrite Z.shiftl_mul_pow2 by lia. change 15 with (Z.ones 4). rewrite Z.land_ones by lia.
    pose proof (Z.mod_pos_bound (i32 (k + 1)) (2 ^ 4) ltac:(lia)). lia. }
  generalize dependent (Z.shiftl (Z.land (i32 (k + 1)) 15) 11). intros z Kz.
  assert (E : mixed 32735 DEL 127 z = 32735).
  { unfold mixed. change DEL with 32751. symmetry. apply Z.div_unique with (2032 + z); lia. }
  rewrite E. split; reflexivity.
Qed.
Lemma walk_fine n p : walk n p = true -> fine p = true.
Proof. destruct n; cbn [walk]; intros H; apply andb_prop in H; apply H. Qed.
Lemma walk_step n p : walk n p = true -> exists m, walk m (top_step p) = true.
Proof.
  intros H. destruct (still p) eqn:E.
  - destruct (still_step p E) as [F S]. exists O. cbn [walk]. rewrite F, S. reflexivity.
  - destruct n as [|n]; cbn [walk] in H; rewrite E in H; apply andb_prop in H as [_ H]; [discriminate|].
    exists n. exact H.
Qed.
Lemma walk_start : walk 400 (0, 1536, 0) = true.
Proof. vm_compute. reflexivity. Qed.

Definition binv (b : bcdf) : Prop := exists x n, shape (b_cdf b) x /\ walk n (x, b_rate b, b_count b) = true.
Lemma binv_step b s : binv b -> nibble s -> exists b', bblend b s = Some b' /\ binv b'.
Proof.
  intros (x & n & S & W) N. pose proof (walk_fine _ _ W) as F. cbn [fine] in F.
  apply andb_prop in F as [F F3]. apply andb_prop in F as [F1 F2]. apply Z.leb_le in F1, F2, F3.
  destruct (walk_step _ _ W) as [m Wm].
  pose proof (blend_internal_ok (BC (b_cdf b) (b_rate b) (i32 (b_count b + 1))) (to_blend s) (b_rate b) x DEL S
    (to_blend_shape s N) ltac:(lia) ltac:(vm_compute; discriminate) ltac:(lia)) as (c & E & Sc & _).
  cbn [b_cdf b_rate b_count] in *.
  exists (BC c (b_rate b - Z.shiftr (b_rate b) 7) (i32 (b_count b + 1))). split.
  - unfold bblend. cbn [b_cdf b_rate b_count]. rewrite E. reflexivity.
  - eexists; exists m. cbn [b_cdf b_rate b_count]. split; [exact Sc|exact Wm].
Qed.
Lemma binv_start : binv bcdf_default.
Proof.
  exists 0, 400%nat. split; [|exact walk_start]. split; [reflexivity|]. split; [reflexivity|].
  intros i j _. cbn [bcdf_default b_cdf]. rewrite !nth_repeat. lia.
Qed.
Lemma brun_ok : forall h b, binv b -> Forall nibble h -> exists b', brun_from b h = Some b' /\ binv b'.
Proof.
  induction h as [|s h IH]; intros b I H; cbn [brun_from]; [eauto|].
  inversion H; subst. destruct (binv_step b s I) as (b1 & E & I1); [assumption|]. rewrite E. apply IH; assumption.
Qed.
Lemma binv_top b : binv b -> exists x, shape (b_cdf b) x /\ 0 <= x <= 32735.
Proof.
  intros (x & n & S & W). pose proof (walk_fine _ _ W) as F. cbn [fine] in F.
  apply andb_prop in F as [F _]. apply andb_prop in F as [F _]. apply Z.leb_le in F.
  pose proof (shape_le _ _ 15%nat S ltac:(lia)). exists x. split; [exact S|lia].
Qed.
Lemma bias_ok_shape b x : shape (b_cdf b) x -> x <= 32751 -> bias_ok b = true.
Proof.
  intros S X. pose proof (shape_le _ _ 15%nat S ltac:(lia)). destruct S as (_ & E & _).
  unfold bias_ok. rewrite E in *. change CDF_MAX with 32767. rewrite i16_id by lia. apply Z.leb_le. lia.
Qed.
