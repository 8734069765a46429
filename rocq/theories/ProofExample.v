(** The example program's vector: what was pushed is what it holds. *)
From Verif Require Import Prelude ModelMux ProofZlist ModelExample.

(** ** Rounding up to a power of two *)
Definition covers (v w x : Z) : Prop := forall i, 0 <= i -> Z.testbit x i = true <-> exists j, 0 <= j < w /\ Z.testbit v (i + j) = true.
Lemma smear_covers v w x : 0 < w -> covers v w x -> covers v (2 * w) (smear x w).
Proof.
  intros W C i I. unfold smear. rewrite Z.lor_spec, Z.shiftr_spec by lia. rewrite Bool.orb_true_iff, (C i I), (C (i + w)) by lia. split.
  - intros [(j & J1 & J2)|(j & J1 & J2)]; [exists j; split; [lia|exact J2]|]. exists (w + j). split; [lia|]. now rewrite Z.add_assoc.
  - intros (j & J1 & J2). destruct (Z.ltb_spec j w); [left; exists j; split; [lia|exact J2]|right]. exists (j - w). split; [lia|]. now replace (i + w + (j - w)) with (i + j) by lia.
Qed.
Lemma round_up_pow s k : 1 <= s -> 0 <= k <= 63 -> s <= 2 ^ k -> (0 < k -> 2 ^ (k - 1) < s) -> round_up s = 2 ^ k.
Proof.
  intros S1 K SK KS. assert (2 ^ k <= 2 ^ 63) by (apply Z.pow_le_mono_r; lia). assert (P64 : 2 ^ 64 = 2 * 2 ^ 63) by reflexivity.
  unfold round_up. assert (U : u64 (s - 1) = s - 1) by (unfold u64; apply Z.mod_small; lia). rewrite U. set (v := s - 1) in *.
  assert (C0 : covers v 1 v). { intros i I. split; [intros T; exists 0; split; [lia|now rewrite Z.add_0_r]|intros (j & J1 & J2)]. now replace (i + j) with i in J2 by lia. }
  pose proof (smear_covers v 1 _ ltac:(lia) C0) as C1. pose proof (smear_covers v 2 _ ltac:(lia) C1) as C2. pose proof (smear_covers v 4 _ ltac:(lia) C2) as C3. pose proof (smear_covers v 8 _ ltac:(lia) C3) as C4. pose proof (smear_covers v 16 _ ltac:(lia) C4) as C5. pose proof (smear_covers v 32 _ ltac:(lia) C5) as C6.
  cbv zeta. set (x := smear _ 32) in *. clearbody x. clear C0 C1 C2 C3 C4 C5. change (2 * 32) with 64 in C6.
  assert (E : x = Z.ones k).
  { apply Z.bits_inj'. intros i I. rewrite Z.testbit_ones by lia. replace (0 <=? i) with true by (symmetry; apply Z.leb_le; lia). cbn [andb].
    destruct (Z.ltb_spec i k) as [L|L].
    - apply C6; [lia|]. exists (k - 1 - i). split; [lia|]. replace (i + (k - 1 - i)) with (k - 1) by lia. apply Z.bit_log2 || idtac.
      assert (Q : 2 ^ (k - 1) <= v < 2 ^ k) by (specialize (KS ltac:(lia)); unfold v; lia).
      replace (k - 1) with (Z.log2 v) by (apply Z.log2_unique; [lia|]; replace (Z.succ (k - 1)) with k by lia; exact Q). apply Z.bit_log2. assert (0 < 2 ^ (k - 1)) by (apply Z.pow_pos_nonneg; lia). lia.
    - apply Bool.not_true_is_false. intros T. apply (C6 i I) in T. destruct T as (j & J1 & J2).
      assert (Z.testbit v (i + j) = false); [|congruence]. destruct (Z.eq_dec v 0) as [->|NZ]; [apply Z.bits_0|]. apply Z.bits_above_log2; [unfold v; lia|].
      apply Z.lt_le_trans with k; [|lia]. apply Z.log2_lt_pow2; unfold v in *; lia. }
  rewrite E, Z.ones_equiv. unfold u64. replace (Z.pred (2 ^ k) + 1) with (2 ^ k) by lia. apply Z.mod_small. assert (0 < 2 ^ k) by (apply Z.pow_pos_nonneg; lia). lia.
Qed.
Lemma round_up_0 : round_up 0 = 0.
Proof. reflexivity. Qed.
(** the power of two that is taken *)
Definition order (s : Z) : Z := if s =? 1 then 0 else Z.log2 (s - 1) + 1.
Lemma order_spec s : 1 <= s -> s <= 2 ^ 63 -> 0 <= order s <= 63 /\ s <= 2 ^ order s /\ (0 < order s -> 2 ^ (order s - 1) < s).
Proof.
  intros S1 S2. unfold order. destruct (Z.eqb_spec s 1) as [->|N].
  - split; [lia|]. split; [change (2 ^ 0) with 1|]; lia.
  - pose proof (Z.log2_spec (s - 1) ltac:(lia)) as (L1 & L2). pose proof (Z.log2_nonneg (s - 1)). rewrite <- Z.add_1_r in L2.
    assert (Z.log2 (s - 1) < 63) by (apply Z.log2_lt_pow2; lia). split; [lia|]. split; [lia|]. intros _. replace (Z.log2 (s - 1) + 1 - 1) with (Z.log2 (s - 1)) by lia. lia.
Qed.
Lemma round_up_spec s : 1 <= s -> s <= 2 ^ 63 -> round_up s = 2 ^ order s.
Proof. intros S1 S2. destruct (order_spec s S1 S2) as (A & B & C). apply round_up_pow; assumption. Qed.
(** beyond half the address space there is no such power *)
Lemma round_up_big s : 2 ^ 63 < s -> s < 2 ^ 64 -> round_up s = 0.
Proof.
  intros S1 S2. unfold round_up. assert (U : u64 (s - 1) = s - 1) by (unfold u64; apply Z.mod_small; lia). rewrite U. set (v := s - 1) in *.
  assert (C0 : covers v 1 v). { intros i I. split; [intros T; exists 0; split; [lia|now rewrite Z.add_0_r]|intros (j & J1 & J2)]. now replace (i + j) with i in J2 by lia. }
  pose proof (smear_covers v 1 _ ltac:(lia) C0) as C1. pose proof (smear_covers v 2 _ ltac:(lia) C1) as C2. pose proof (smear_covers v 4 _ ltac:(lia) C2) as C3. pose proof (smear_covers v 8 _ ltac:(lia) C3) as C4. pose proof (smear_covers v 16 _ ltac:(lia) C4) as C5. pose proof (smear_covers v 32 _ ltac:(lia) C5) as C6.
  cbv zeta. set (x := smear _ 32) in *. clearbody x. clear C0 C1 C2 C3 C4 C5. change (2 * 32) with 64 in C6.
  assert (LG : Z.log2 v = 63) by (apply Z.log2_unique; [lia|]; change (2 ^ Z.succ 63) with (2 ^ 64); unfold v; lia).
  assert (E : x = Z.ones 64); [|rewrite E; reflexivity].
  apply Z.bits_inj'. intros i I. rewrite Z.testbit_ones by lia. replace (0 <=? i) with true by (symmetry; apply Z.leb_le; lia). cbn [andb].
  destruct (Z.ltb_spec i 64) as [L|L].
  - apply C6; [lia|]. exists (63 - i). split; [lia|]. replace (i + (63 - i)) with (Z.log2 v) by lia. apply Z.bit_log2. unfold v; lia.
  - apply Bool.not_true_is_false. intros T. apply (C6 i I) in T. destruct T as (j & J1 & J2). rewrite Z.bits_above_log2 in J2 by (unfold v in *; lia). discriminate J2.
Qed.

(** ** The vector *)
Definition holds (v : vec) (X : list Z) : Prop :=
  v_size v = zlen X /\
  v_data v = match X with [] => None | _ => Some (map Some X ++ repeat None (Z.to_nat (2 ^ order (zlen X) - zlen X))) end.
Lemma new_holds : holds new_vec [].
Proof. split; reflexivity. Qed.
Lemma written_map X : written (map Some X) = Some X.
Proof. induction X as [|x X IH]; [reflexivity|]. cbn [map written]. rewrite IH. reflexivity. Qed.
Lemma zlen_repeat {A} (x : A) n : 0 <= n -> zlen (repeat x (Z.to_nat n)) = n.
Proof. intros N. unfold zlen. rewrite repeat_length. lia. Qed.
Lemma zfirst_exact {A} (a b : list A) : zfirst (zlen a) (a ++ b) = a.
Proof. unfold zfirst, zlen. rewrite Nat2Z.id, firstn_app, Nat.sub_diag, firstn_all. cbn [firstn]. apply app_nil_r. Qed.
Lemma zskip_exact {A} (a b : list A) : zskip (zlen a) (a ++ b) = b.
Proof. unfold zskip, zlen. rewrite Nat2Z.id, skipn_app, skipn_all, Nat.sub_diag. reflexivity. Qed.
Lemma zlen_map' {A C} (f : A -> C) l : zlen (map f l) = zlen l.
Proof. unfold zlen. now rewrite map_length. Qed.
Lemma holds_bytes v X : zlen X <= 2 ^ 63 -> holds v X -> bytes_of v = Some X.
Proof.
  intros LX (S & Dt). unfold bytes_of. rewrite S. destruct X as [|x X]; [reflexivity|]. set (Y := x :: X) in *. assert (LY : 1 <= zlen Y) by (unfold Y; rewrite zlen_cons; pose proof (zlen_nonneg X); lia).
  destruct (Z.eqb_spec (zlen Y) 0); [lia|]. rewrite Dt. cbn [bind]. destruct (order_spec (zlen Y) LY LX) as (_ & O2 & _).
  rewrite zlen_app, zlen_map', zlen_repeat by lia. unfold assert. destruct (Z.leb_spec (zlen Y) (zlen Y + (2 ^ order (zlen Y) - zlen Y))); [|lia].
  rewrite <- (zlen_map' Some Y), zfirst_exact. apply written_map.
Qed.
Lemma order_mono a b : 1 <= a <= b -> order a <= order b.
Proof. intros H. unfold order. destruct (Z.eqb_spec a 1); destruct (Z.eqb_spec b 1); try lia. - pose proof (Z.log2_nonneg (b - 1)); lia. - pose proof (Z.log2_le_mono (a - 1) (b - 1)); lia. Qed.
Lemma push_holds v X Y : holds v X -> zlen X + zlen Y <= 2 ^ 63 -> exists v', push_vec v Y = Some v' /\ holds v' (X ++ Y).
Proof.
  intros (S & Dt) LE. pose proof (zlen_nonneg X) as ZX. pose proof (zlen_nonneg Y) as ZY. assert (P64 : 2 ^ 64 = 2 * 2 ^ 63) by reflexivity. assert (0 < 2 ^ 63) by reflexivity.
  unfold push_vec. rewrite S. assert (U : u64 (zlen X + zlen Y) = zlen X + zlen Y) by (unfold u64; apply Z.mod_small; lia). rewrite U.
  destruct (Z.eqb_spec (zlen Y) 0) as [Y0|Y0].
  { cbn [orb]. exists v. split; [reflexivity|]. destruct Y; [|rewrite zlen_cons in Y0; pose proof (zlen_nonneg Y); lia]. rewrite app_nil_r. split; assumption. }
  cbn [orb]. destruct (Z.ltb_spec (zlen X + zlen Y) (zlen X)); [lia|]. destruct (order_spec (zlen X + zlen Y) ltac:(lia) LE) as (O1 & O2 & O3). rewrite (round_up_spec (zlen X + zlen Y)) by lia.
  set (N := 2 ^ order (zlen X + zlen Y)) in *.
  assert (M : exists mem, (if (zlen X =? 0) || negb (round_up (zlen X) =? N) then copied N (if N <? round_up (zlen X) then N else round_up (zlen X)) (v_data v) else v_data v) = Some mem /\ mem = map Some X ++ repeat None (Z.to_nat (N - zlen X))).
  { destruct X as [|x X].
    - change (zlen (@nil Z)) with 0. change (0 =? 0) with true. cbn [orb]. rewrite round_up_0. destruct (Z.ltb_spec N 0); [change (zlen (@nil Z)) with 0 in *; lia|]. rewrite Dt. unfold copied, assert. change (zlen (@nil (option Z))) with 0. replace (0 <=? N) with true by (symmetry; apply Z.leb_le; lia). change (0 <=? 0) with true. cbn [andb]. eexists. split; [reflexivity|]. reflexivity.
    - set (Q := x :: X) in *. assert (LQ : 1 <= zlen Q) by (unfold Q; rewrite zlen_cons; pose proof (zlen_nonneg X); lia). destruct (Z.eqb_spec (zlen Q) 0); [lia|]. cbn [orb]. rewrite (round_up_spec (zlen Q)) by lia. destruct (order_spec (zlen Q) LQ ltac:(lia)) as (A1 & A2 & A3).
      assert (ON : 2 ^ order (zlen Q) <= N) by (apply Z.pow_le_mono_r; [lia|apply order_mono; lia]). destruct (Z.eqb_spec (2 ^ order (zlen Q)) N) as [EQ|NE]; cbn [negb].
      + eexists. split; [rewrite Dt; reflexivity|]. rewrite EQ. reflexivity.
      + destruct (Z.ltb_spec N (2 ^ order (zlen Q))); [lia|]. rewrite Dt. unfold copied, assert. rewrite zlen_app, zlen_map', zlen_repeat by lia.
        replace (2 ^ order (zlen Q) <=? N) with true by (symmetry; apply Z.leb_le; lia). replace (2 ^ order (zlen Q) <=? zlen Q + (2 ^ order (zlen Q) - zlen Q)) with true by (symmetry; apply Z.leb_le; lia). cbn [andb]. eexists. split; [reflexivity|].
        rewrite zfirst_all by (rewrite zlen_app, zlen_map', zlen_repeat; lia). rewrite <- app_assoc, <- repeat_app. do 2 f_equal. lia. }
  destruct M as (mem & M1 & M2). rewrite M1. cbn [bind]. destruct (Z.ltb_spec N (zlen X + zlen Y)); [lia|]. subst mem. rewrite zlen_app, zlen_map', zlen_repeat by lia. unfold assert. replace (zlen X + zlen Y <=? zlen X + (N - zlen X)) with true by (symmetry; apply Z.leb_le; lia).
  eexists. split; [reflexivity|]. split; cbn [v_size v_data]; rewrite zlen_app; [reflexivity|].
  assert (NN : X ++ Y <> []) by (intros Q; apply app_eq_nil in Q; destruct Q as (_ & ->); apply Y0; reflexivity). destruct (X ++ Y) as [|z l] eqn:XY; [contradiction NN; reflexivity|]. rewrite <- XY. f_equal. fold N.
  rewrite <- (zlen_map' Some X) at 1. rewrite zfirst_exact, map_app, <- app_assoc. do 2 f_equal. replace (zlen X + zlen Y) with (zlen (map Some X) + zlen Y) at 1 by (rewrite zlen_map'; reflexivity).
  rewrite <- (zskip_zskip (zlen Y) (zlen (map Some X))) by (rewrite ?zlen_map'; lia). rewrite zskip_exact. replace (Z.to_nat (N - zlen X)) with (Z.to_nat (zlen Y) + Z.to_nat (N - (zlen X + zlen Y)))%nat by lia.
  rewrite repeat_app. pose proof (zskip_exact (repeat (@None Z) (Z.to_nat (zlen Y))) (repeat None (Z.to_nat (N - (zlen X + zlen Y))))) as ZS. rewrite zlen_repeat in ZS by lia. exact ZS.
Qed.
(** pushing beyond 2^63 bytes aborts *)
Lemma push_too_many v X Y : holds v X -> zlen X <= 2 ^ 63 -> 2 ^ 63 < zlen X + zlen Y < 2 ^ 64 -> push_vec v Y = None.
Proof.
  intros (S & Dt) LX LE. pose proof (zlen_nonneg X) as ZX. unfold push_vec. rewrite S. assert (U : u64 (zlen X + zlen Y) = zlen X + zlen Y) by (unfold u64; apply Z.mod_small; lia). rewrite U.
  destruct (Z.eqb_spec (zlen Y) 0); [lia|]. destruct (Z.ltb_spec (zlen X + zlen Y) (zlen X)); [pose proof (zlen_nonneg Y); lia|]. cbn [orb]. rewrite (round_up_big (zlen X + zlen Y)) by lia.
  match goal with |- bind ?m _ = None => destruct m end; [|reflexivity]. cbn [bind]. destruct (Z.ltb_spec 0 (zlen X + zlen Y)); [reflexivity|lia].
Qed.
