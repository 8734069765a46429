(** Proofs about the ANS coder model. *)
From Verif Require Import Prelude ModelAns.

(** ** Byte stacks *)
Definition bs_wf (s : bstack) : Prop :=
  nbytes s = MAX_BUFFER_SIZE - Z.of_nat (length (content s)) /\ 0 <= nbytes s.

Lemma stack_data_rev_ok src s :
  Z.of_nat (length src) <= nbytes s ->
  stack_data_rev s src =
  Some (BS (rev src ++ content s) (nbytes s - Z.of_nat (length src))).
Proof.
  revert s; induction src as [|b src IH]; intros s H; cbn [stack_data_rev rev length app].
  - destruct s; cbn. do 2 f_equal. lia.
  - cbn [length] in H. unfold stack_byte, assert.
    destruct (Z.ltb_spec 0 (nbytes s)); [|lia].
    cbn [bind]. rewrite IH; cbn [nbytes content]; [|lia].
    rewrite <- app_assoc. cbn [app]. do 2 f_equal. lia.
Qed.

Lemma stack_data_ok src s :
  Z.of_nat (length src) <= nbytes s ->
  stack_data s src = Some (BS (src ++ content s) (nbytes s - Z.of_nat (length src))).
Proof.
  intros. unfold stack_data. rewrite stack_data_rev_ok by (rewrite rev_length; auto).
  now rewrite rev_involutive, rev_length.
Qed.

Lemma land255 x : Z.land x 255 = x mod 256.
Proof. change 255 with (2 ^ 8 - 1). now rewrite land_mask by lia. Qed.

Lemma shiftr_div x n : 0 <= n -> Z.shiftr x n = x / 2 ^ n.
Proof. intros; now rewrite Z.shiftr_div_pow2. Qed.

Lemma state_bytes_le s : state_bytes s = le 8 s.
Proof.
  unfold state_bytes. cbn [le]. rewrite !land255, !shiftr_div by lia.
  rewrite !Z.div_div by lia. reflexivity.
Qed.

Lemma low4_le s :
  [Z.land s 255; Z.land (Z.shiftr s 8) 255; Z.land (Z.shiftr s 16) 255;
   Z.land (Z.shiftr s 24) 255] = le 4 s.
Proof.
  cbn [le]. rewrite !land255, !shiftr_div by lia.
  rewrite !Z.div_div by lia. reflexivity.
Qed.

(** ** Decoder feeding *)

Definition feed1 (d : decoder) (b : Z) : decoder :=
  if a_req d <=? 4 then
    let st := if a_req d =? 1 then u64 (Z.shiftl (state_a d) 32) else state_a d in
    let r := a_req d + 1 in
    Dec (Z.lor st (u64 (Z.shiftl b (Z.shiftl (a_req d - 1) 3)))) (state_b d)
        (sym_count d) (if r =? 5 then 0 else r) (b_req d)
  else
    let sh := Z.shiftl (a_req d - 16) 3 in
    let r := a_req d + 1 in
    let r := if r =? 32 then 0 else r in
    if sh <? 64 then
      Dec (Z.lor (state_a d) (u64 (Z.shiftl b sh))) (state_b d) (sym_count d) r (b_req d)
    else
      Dec (state_a d) (Z.lor (state_b d) (u64 (Z.shiftl b (sh - 64)))) (sym_count d) r (b_req d).

Definition feed (d : decoder) (l : list Z) : decoder := fold_left feed1 l d.

Definition norm (d : decoder) : decoder :=
  if (a_req d <? 16) && (4 <? a_req d) then Dec 0 0 0 16 (b_req d) else d.

Definition need (d : decoder) : nat := Z.to_nat (num_push_bytes_avail d).

Definition dvalid (d : decoder) : Prop :=
  (0 <= a_req d <= 4 \/ a_req d = 8 \/ a_req d = 9 \/ 16 <= a_req d <= 31) /\
  0 <= state_a d /\ 0 <= state_b d /\ (b_req d = 0 \/ b_req d = 1).

Lemma dvalid_norm d : dvalid d -> dvalid (norm d).
Proof.
  unfold dvalid, norm; intros H.
  destruct ((a_req d <? 16) && (4 <? a_req d)) eqn:E; cbn; auto.
  intuition lia.
Qed.

Lemma norm_norm d : norm (norm d) = norm d.
Proof.
  unfold norm at 2 3. destruct ((a_req d <? 16) && (4 <? a_req d)) eqn:E.
  - reflexivity.
  - unfold norm. now rewrite E.
Qed.

Lemma need_norm d : dvalid d -> need (norm d) = need d.
Proof.
  unfold dvalid, norm, need, num_push_bytes_avail; intros H.
  destruct ((a_req d <? 16) && (4 <? a_req d)) eqn:E; auto.
  cbn [a_req]. change (16 =? 0) with false. change (16 =? 1) with false.
  change (16 <=? 5) with false. change (16 <=? 16) with true. cbn iota.
  destruct (a_req d =? 0) eqn:?; try lia.
  destruct (a_req d =? 1) eqn:?; try lia.
  destruct (a_req d <=? 5) eqn:?; try lia.
  destruct (16 <=? a_req d) eqn:?; try lia.
Qed.

Lemma u64_nonneg x : 0 <= u64 x.
Proof. unfold u64. apply Z.mod_pos_bound. reflexivity. Qed.

Lemma lor_nonneg a b : 0 <= a -> 0 <= b -> 0 <= Z.lor a b.
Proof. intros; now apply Z.lor_nonneg. Qed.

Lemma dvalid_feed1 d b : dvalid d -> a_req d <> 0 -> norm d = d -> dvalid (feed1 d b).
Proof.
  unfold dvalid, feed1, norm. intros H Hn Hm.
  destruct ((a_req d <? 16) && (4 <? a_req d)) eqn:E.
  { destruct d; cbn in *; inversion Hm; subst; lia. }
  assert (P : forall x, 0 <= u64 x) by apply u64_nonneg.
  destruct (a_req d <=? 4) eqn:E4; cbn [a_req state_a state_b b_req].
  - destruct (a_req d + 1 =? 5) eqn:?; repeat split; try lia; try (apply lor_nonneg); auto;
      try tauto; destruct (a_req d =? 1); auto; tauto.
  - destruct (a_req d + 1 =? 32) eqn:?;
    destruct (Z.shiftl (a_req d - 16) 3 <? 64); cbn [a_req state_a state_b b_req];
      repeat split; try lia; try (apply lor_nonneg); auto; tauto.
Qed.

Lemma norm_id_cases d : dvalid d -> norm d = d ->
  0 <= a_req d <= 4 \/ 16 <= a_req d <= 31.
Proof.
  unfold dvalid, norm. intros H Hm.
  destruct ((a_req d <? 16) && (4 <? a_req d)) eqn:E; [|lia].
  destruct d; cbn in *; inversion Hm; subst; lia.
Qed.

Lemma norm_feed1 d b : dvalid d -> a_req d <> 0 -> norm d = d -> norm (feed1 d b) = feed1 d b.
Proof.
  intros H Hn Hm. pose proof (norm_id_cases _ H Hm) as Hc.
  unfold norm.
  replace ((a_req (feed1 d b) <? 16) && (4 <? a_req (feed1 d b))) with false; auto.
  unfold feed1. destruct (a_req d <=? 4) eqn:E4; cbn [a_req].
  - destruct (a_req d + 1 =? 5) eqn:?; lia.
  - destruct (Z.shiftl (a_req d - 16) 3 <? 64); cbn [a_req];
    destruct (a_req d + 1 =? 32) eqn:?; lia.
Qed.

Lemma need_zero d : dvalid d -> (need d = 0%nat <-> a_req d = 0).
Proof.
  unfold dvalid, need, num_push_bytes_avail; intros H.
  destruct (a_req d =? 0) eqn:?; try lia.
  destruct (a_req d =? 1) eqn:?; try lia.
  destruct (a_req d <=? 5) eqn:?; try lia.
  destruct (16 <=? a_req d) eqn:?; try lia.
Qed.

Lemma need_feed1 d b : dvalid d -> a_req d <> 0 -> norm d = d ->
  need d = S (need (feed1 d b)).
Proof.
  intros H Hn Hm. pose proof (norm_id_cases _ H Hm) as Hc.
  unfold need, num_push_bytes_avail, feed1.
  destruct (a_req d =? 0) eqn:?; try lia.
  destruct (a_req d <=? 4) eqn:?; cbn [a_req].
  - destruct (a_req d + 1 =? 5) eqn:?.
    + change (0 =? 0) with true. cbn iota.
      destruct (a_req d =? 1) eqn:?; try lia.
      destruct (a_req d <=? 5) eqn:?; try lia.
    + destruct (a_req d + 1 =? 0) eqn:?; try lia.
      destruct (a_req d + 1 =? 1) eqn:?; try lia.
      destruct (a_req d + 1 <=? 5) eqn:?; try lia.
      destruct (a_req d =? 1) eqn:?; try lia.
      destruct (a_req d <=? 5) eqn:?; try lia.
  - destruct (a_req d =? 1) eqn:?; try lia.
    destruct (a_req d <=? 5) eqn:?; try lia.
    destruct (16 <=? a_req d) eqn:?; try lia.
    destruct (Z.shiftl (a_req d - 16) 3 <? 64); cbn [a_req];
    destruct (a_req d + 1 =? 32) eqn:?;
      try (change (0 =? 0) with true; cbn iota; lia);
    (destruct (a_req d + 1 =? 0) eqn:?; try lia;
      destruct (a_req d + 1 =? 1) eqn:?; try lia;
      destruct (a_req d + 1 <=? 5) eqn:?; try lia;
      destruct (16 <=? a_req d + 1) eqn:?; try lia).
Qed.

Lemma feed_app d l1 l2 : feed d (l1 ++ l2) = feed (feed d l1) l2.
Proof. apply fold_left_app. Qed.

Lemma feed_valid d l : dvalid d -> norm d = d -> (length l <= need d)%nat ->
  dvalid (feed d l) /\ norm (feed d l) = feed d l /\
  need (feed d l) = (need d - length l)%nat.
Proof.
  revert d; induction l as [|b l IH]; intros d H Hm Hl; cbn [feed fold_left length] in *.
  - split; auto. split; auto. lia.
  - assert (a_req d <> 0).
    { intros E. apply need_zero in E; auto. lia. }
    pose proof (need_feed1 d b H H0 Hm).
    destruct (IH (feed1 d b)) as (A & B & C).
    + now apply dvalid_feed1.
    + now apply norm_feed1.
    + lia.
    + fold (feed (feed1 d b) l). split; [exact A|split; [exact B|]]. rewrite C. lia.
Qed.

(** [push_data] is byte-wise feeding of as many bytes as are needed. *)
Lemma or_at_split s t sh l : or_at (Z.lor s t) sh l = Z.lor s (or_at t sh l).
Proof.
  revert t sh; induction l as [|b l IH]; intros; cbn [or_at]; auto.
  rewrite <- Z.lor_assoc, IH. reflexivity.
Qed.

Lemma or_at_nonneg s sh l : 0 <= s -> 0 <= or_at s sh l.
Proof.
  revert s sh; induction l as [|b l IH]; intros; cbn [or_at]; auto.
  apply IH, lor_nonneg; auto using u64_nonneg.
Qed.

Lemma shl3 x : Z.shiftl x 3 = 8 * x.
Proof. rewrite Z.shiftl_mul_pow2 by lia. change (2 ^ 3) with 8. lia. Qed.


Lemma rr_cons_small d b l : 1 <= a_req d <= 4 ->
  push_really_rare d (b :: l) =
  if a_req (feed1 d b) =? 0 then Some (feed1 d b, 1%nat)
  else let? '(d', n) := push_really_rare (feed1 d b) l in Some (d', S n).
Proof.
  intros Hr. unfold push_really_rare at 1. cbn [length].
  change (Nat.eqb (S (length l)) 0) with false. cbn [negb]. rewrite andb_true_r.
  destruct (a_req d <=? 4) eqn:E; try lia.
  destruct (Z.to_nat (5 - a_req d)) as [|k] eqn:Ek; try lia.
  cbn [Nat.min firstn or_at].
  assert (F : feed1 d b = Dec (Z.lor (if a_req d =? 1 then u64 (Z.shiftl (state_a d) 32) else state_a d)
                          (u64 (Z.shiftl b (Z.shiftl (a_req d - 1) 3)))) (state_b d)
                        (sym_count d) (if a_req d + 1 =? 5 then 0 else a_req d + 1) (b_req d)).
  { unfold feed1. now rewrite E. }
  rewrite F; cbn [a_req].
  destruct (a_req d + 1 =? 5) eqn:E5.
  - replace k with 0%nat by lia. rewrite Nat.min_0_r. cbn [firstn or_at].
    change (0 =? 0) with true. cbn iota.
    replace (a_req d + Z.of_nat 1 =? 5) with true by lia. reflexivity.
  - destruct (a_req d + 1 =? 0) eqn:E0; try lia.
    unfold push_really_rare; cbn [a_req state_a state_b sym_count b_req].
    destruct (a_req d + 1 <=? 4) eqn:E4; try lia.
    destruct (a_req d + 1 =? 1) eqn:E1; try lia. cbn [andb].
    cbn [bind]. replace (Z.to_nat (5 - (a_req d + 1))) with k by lia.
    replace (Z.shiftl (a_req d + 1 - 1) 3) with (Z.shiftl (a_req d - 1) 3 + 8)
      by (rewrite !shl3; lia).
    replace (a_req d + Z.of_nat (S (Nat.min (length l) k)))
      with (a_req d + 1 + Z.of_nat (Nat.min (length l) k)) by lia.
    reflexivity.
Qed.

Lemma rr_cons_big d b l : 16 <= a_req d <= 31 ->
  push_really_rare d (b :: l) =
  if a_req (feed1 d b) =? 0 then Some (feed1 d b, 1%nat)
  else let? '(d', n) := push_really_rare (feed1 d b) l in Some (d', S n).
Proof.
  intros Hr. unfold push_really_rare at 1. cbn [length].
  destruct (a_req d <=? 4) eqn:E; try lia.
  unfold assert. destruct (16 <=? a_req d) eqn:E16; try lia.
  destruct (Z.to_nat (32 - a_req d)) as [|k] eqn:Ek; try lia.
  cbn [Nat.min firstn or_ab].
  set (r := if a_req d + 1 =? 32 then 0 else a_req d + 1).
  assert (F : feed1 d b = if Z.shiftl (a_req d - 16) 3 <? 64
    then Dec (Z.lor (state_a d) (u64 (Z.shiftl b (Z.shiftl (a_req d - 16) 3)))) (state_b d) (sym_count d) r (b_req d)
    else Dec (state_a d) (Z.lor (state_b d) (u64 (Z.shiftl b (Z.shiftl (a_req d - 16) 3 - 64)))) (sym_count d) r (b_req d)).
  { unfold feed1. rewrite E. reflexivity. }
  rewrite F; clear F; unfold r; clear r.
  destruct (Z.shiftl (a_req d - 16) 3 <? 64) eqn:Esh; cbn [a_req];
  destruct (a_req d + 1 =? 32) eqn:E5.
  1,3: replace k with 0%nat by lia; rewrite Nat.min_0_r; cbn [firstn or_ab];
    change (0 =? 0) with true; cbn iota;
    replace (a_req d + Z.of_nat 1 =? 32) with true by lia; reflexivity.
  all: destruct (a_req d + 1 =? 0) eqn:E0; try lia;
    unfold push_really_rare; cbn [a_req state_a state_b sym_count b_req];
    destruct (a_req d + 1 <=? 4) eqn:E4; try lia;
    unfold assert; destruct (16 <=? a_req d + 1) eqn:E1; try lia;
    replace (Z.to_nat (32 - (a_req d + 1))) with k by lia;
    replace (Z.shiftl (a_req d + 1 - 16) 3) with (Z.shiftl (a_req d - 16) 3 + 8)
      by (rewrite !shl3; lia);
    replace (a_req d + Z.of_nat (S (Nat.min (length l) k)))
      with (a_req d + 1 + Z.of_nat (Nat.min (length l) k)) by lia;
    destruct or_ab; reflexivity.
Qed.

Lemma push_rr_feed d l : dvalid d -> norm d = d -> a_req d <> 0 ->
  push_really_rare d l = Some (feed d (firstn (need d) l), Nat.min (length l) (need d)).
Proof.
  revert d; induction l as [|b l IH]; intros d H Hm Hn.
  - rewrite firstn_nil. cbn [length Nat.min feed fold_left].
    pose proof (norm_id_cases d H Hm).
    unfold push_really_rare, assert. cbn [length Nat.min firstn or_at or_ab].
    change (Nat.eqb 0 0) with true. cbn [negb]. rewrite andb_false_r.
    destruct d as [sa sb c r rb]; cbn [a_req state_a state_b sym_count b_req] in *.
    replace (r + Z.of_nat 0) with r by lia.
    destruct (r <=? 4) eqn:?.
    + destruct (r =? 5) eqn:?; try lia; reflexivity.
    + destruct (16 <=? r) eqn:?; try lia.
      destruct (r =? 32) eqn:?; try lia; reflexivity.
  - pose proof (need_feed1 d b H Hn Hm) as Hnd.
    assert (E : push_really_rare d (b :: l) =
      if a_req (feed1 d b) =? 0 then Some (feed1 d b, 1%nat)
      else let? '(d', n) := push_really_rare (feed1 d b) l in Some (d', S n)).
    { destruct (norm_id_cases d H Hm); [apply rr_cons_small|apply rr_cons_big]; lia. }
    rewrite E, Hnd. cbn [firstn length Nat.min feed fold_left].
    pose proof (dvalid_feed1 d b H Hn Hm) as V.
    pose proof (norm_feed1 d b H Hn Hm) as N.
    destruct (Z.eqb_spec (a_req (feed1 d b)) 0) as [Z0|NZ].
    + apply need_zero in Z0; auto. rewrite Z0, Nat.min_0_r. reflexivity.
    + rewrite IH; auto.
Qed.

Lemma or_ab_ab a b sh l1 l2 : Z.of_nat (length l1) * 8 + sh = 64 -> 0 <= sh ->
  (forall k, or_ab a b 64 l2 = k -> 
  or_ab a b sh (l1 ++ l2) = (or_at a sh l1, or_at b 0 l2)).
Proof.
  intros Hl Hs k _. revert a sh Hl Hs; induction l1 as [|x l1 IH]; intros a sh Hl Hs.
  - cbn [app length or_at] in *. assert (sh = 64) by lia. subst.
    assert (forall t s0, 0 <= s0 -> or_ab a t (64 + s0) l2 = (a, or_at t s0 l2)) as G.
    { clear. induction l2 as [|x l2 IH]; intros t s0 Hs; cbn [or_ab or_at]; auto.
      destruct (64 + s0 <? 64) eqn:?; try lia.
      replace (64 + s0 - 64) with s0 by lia.
      replace (64 + s0 + 8) with (64 + (s0 + 8)) by lia.
      apply IH. lia. }
    now apply (G b 0).
  - cbn [app or_ab or_at length] in *. destruct (sh <? 64) eqn:?; try lia.
    apply IH; lia.
Qed.

Lemma push_feed d l : dvalid d ->
  push_data d l = Some (feed (norm d) (firstn (need d) l), Nat.min (length l) (need d)).
Proof.
  intros H. pose proof H as (Hr & Ha & Hb & _).
  destruct (Z.eqb_spec (a_req d) 0) as [E|E].
  { pose proof (proj2 (need_zero d H) E) as Hn. rewrite Hn, Nat.min_0_r. cbn [firstn feed fold_left].
    unfold push_data. rewrite E. cbn. unfold norm. now rewrite E. }
  unfold push_data. rewrite (proj2 (Z.eqb_neq _ _) E).
  destruct ((a_req d =? 1) && Nat.leb 4 (length l)) eqn:E1.
  - apply andb_true_iff in E1. destruct E1 as (E1 & E2).
    assert (R : a_req d = 1) by lia.
    assert (N : norm d = d). { unfold norm. now rewrite R. }
    assert (Hd : need d = 4%nat). { unfold need, num_push_bytes_avail. now rewrite R. }
    apply Nat.leb_le in E2.
    destruct l as [|b0 [|b1 [|b2 [|b3 l]]]]; cbn [length] in E2; try lia.
    rewrite N, Hd. cbn [firstn length Nat.min feed fold_left].
    unfold assert.
    assert (L : u64 (Z.shiftl (state_a d) 32) <=? Z.lor (u64 (Z.shiftl (state_a d) 32)) (or_at 0 0 [b0;b1;b2;b3]) = true).
    { apply Z.leb_le. pose proof (or_at_nonneg 0 0 [b0;b1;b2;b3] ltac:(lia)).
      pose proof (u64_nonneg (Z.shiftl (state_a d) 32)).
      revert H0 H1. generalize (u64 (Z.shiftl (state_a d) 32)) (or_at 0 0 [b0;b1;b2;b3]).
      intros x y Hy Hx. 
      replace (Z.lor x y) with (x + Z.ldiff y x). 
      - assert (0 <= Z.ldiff y x); [|lia]. apply Z.ldiff_nonneg. auto.
      - rewrite Z.add_nocarry_lxor.
        + apply Z.bits_inj'; intros n Hn. rewrite Z.lxor_spec, Z.lor_spec, Z.ldiff_spec.
          destruct (Z.testbit x n), (Z.testbit y n); reflexivity.
        + apply Z.bits_inj'; intros n Hn. rewrite Z.land_spec, Z.ldiff_spec, Z.bits_0.
          destruct (Z.testbit x n), (Z.testbit y n); reflexivity. }
    rewrite L. cbn [or_at]. rewrite !Z.lor_0_l, !Z.lor_assoc, Nat.min_0_r.
    destruct d as [sa sb c r rb]; cbn [a_req] in R; subst r. reflexivity.
  - unfold push_rare.
    destruct ((a_req d <? 16) && (4 <? a_req d)) eqn:E2.
    + assert (N : norm d = Dec 0 0 0 16 (b_req d)). { unfold norm. now rewrite E2. }
      assert (Hd : need d = 16%nat).
      { rewrite <- need_norm by auto. rewrite N. reflexivity. }
      assert (V : dvalid (Dec 0 0 0 16 (b_req d))).
      { rewrite <- N. now apply dvalid_norm. }
      assert (M : push_really_rare (Dec 0 0 0 16 (b_req d)) l =
        Some (feed (norm d) (firstn (need d) l), Nat.min (length l) (need d))).
      { rewrite push_rr_feed; auto.
        - now rewrite N, Hd.
        - cbn. lia. }
      destruct (Nat.leb_spec 16 (length l)) as [HL|HL]; [|exact M].
      rewrite <- M. unfold push_really_rare. cbn [a_req].
      change (16 <=? 4) with false. change (16 <=? 16) with true. cbn iota. unfold assert.
      change (Z.to_nat (32 - 16)) with 16%nat.
      rewrite Nat.min_r by auto.
      cbn [state_a state_b sym_count b_req]. change (Z.shiftl (16 - 16) 3) with 0.
      change (16 + Z.of_nat 16 =? 32) with true. cbn iota.
      assert (S16 : firstn 16 l = firstn 8 l ++ firstn 8 (skipn 8 l)).
      { do 16 (destruct l as [|? l]; [cbn in HL; lia|]). reflexivity. }
      rewrite S16, (or_ab_ab 0 0 0 (firstn 8 l) (firstn 8 (skipn 8 l))) with (k := or_ab 0 0 64 (firstn 8 (skipn 8 l))); auto.
      * rewrite firstn_length. lia.
      * lia.
    + assert (N : norm d = d). { unfold norm. now rewrite E2. }
      rewrite N. now apply push_rr_feed.
Qed.

(** ** Filling from a list of pieces only depends on their concatenation *)
Lemma skipn_firstn_min {A} n (l : list A) :
  skipn (Nat.min (length l) n) l = skipn n l.
Proof.
  destruct (Nat.le_ge_cases (length l) n).
  - rewrite Nat.min_l by auto. rewrite !skipn_all2 by lia. reflexivity.
  - now rewrite Nat.min_r.
Qed.

Inductive fill_spec (d : decoder) (data : list Z) : fill_res -> Prop :=
| fs_ok rest : (need d <= length data)%nat -> concat rest = skipn (need d) data ->
    fill_spec d data (FOk (feed (norm d) (firstn (need d) data)) rest)
| fs_need d' : (length data < need d)%nat -> need d' = (need d - length data)%nat ->
    (d' = d \/ d' = feed (norm d) data) -> 
    fill_spec d data (FNeed d').

Lemma fill_norm pieces d : dvalid d -> a_req d = 0 -> fill d pieces = FOk d pieces.
Proof. intros. destruct pieces; cbn [fill]; rewrite (proj2 (Z.eqb_eq _ _)) by auto; reflexivity. Qed.

Lemma norm_zero d : a_req d = 0 -> norm d = d.
Proof. intros E. unfold norm. now rewrite E. Qed.

Lemma avail_zero d : dvalid d -> (num_push_bytes_avail d =? 0) = Nat.eqb (need d) 0.
Proof.
  unfold dvalid, need, num_push_bytes_avail; intros (H & _).
  destruct (a_req d =? 0) eqn:?; [reflexivity|].
  destruct (a_req d =? 1) eqn:?; [reflexivity|].
  destruct (a_req d <=? 5) eqn:?; [lia|].
  destruct (16 <=? a_req d) eqn:?; [lia|reflexivity].
Qed.

Lemma fs_zero d data rest : dvalid d -> a_req d = 0 -> concat rest = data ->
  fill_spec d data (FOk d rest).
Proof.
  intros H E C. pose proof (proj2 (need_zero d H) E) as Hn.
  pose proof (fs_ok d data rest) as F. rewrite Hn, (norm_zero d E) in F.
  cbn [firstn skipn feed fold_left] in F. apply F; auto. lia.
Qed.

Lemma fill_ok pieces : forall d, dvalid d -> fill_spec d (concat pieces) (fill d pieces).
Proof.
  induction pieces as [|p ps IH]; intros d H; cbn [fill concat].
  - destruct (Z.eqb_spec (a_req d) 0) as [E|E].
    + apply fs_zero; auto.
    + apply fs_need; cbn [length]; auto; try lia.
      assert (need d <> 0%nat) by (rewrite need_zero; auto). lia.
  - destruct (Z.eqb_spec (a_req d) 0) as [E|E].
    + apply fs_zero; auto.
    + assert (Hnz : need d <> 0%nat) by (rewrite need_zero; auto).
      rewrite push_feed by auto.
      pose proof (dvalid_norm d H) as Vn. pose proof (norm_norm d) as Nn.
      pose proof (need_norm d H) as NN.
      destruct (feed_valid (norm d) (firstn (need d) p)) as (V & N & ND); auto.
      { rewrite firstn_length. lia. }
      rewrite NN, firstn_length in ND.
      assert (Q : num_push_bytes_avail (feed (norm d) (firstn (need d) p)) =? 0 =
                  Nat.eqb (need (feed (norm d) (firstn (need d) p))) 0).
      { now apply avail_zero. }
      rewrite Q. rewrite ND.
      destruct (Nat.eqb_spec (need d - Nat.min (need d) (length p)) 0) as [C|C].
      * assert (HL : (need d <= length p)%nat) by lia.
        replace (firstn (need d) p) with (firstn (need d) (p ++ concat ps)).
        2:{ rewrite firstn_app. replace (need d - length p)%nat with 0%nat by lia.
            cbn [firstn]. now rewrite app_nil_r. }
        apply fs_ok.
        -- rewrite app_length. lia.
        -- cbn [concat]. rewrite skipn_firstn_min, skipn_app.
           replace (need d - length p)%nat with 0%nat by lia. reflexivity.
      * assert (HL : (length p < need d)%nat) by lia.
        rewrite (firstn_all2 (n := need d) p) in * by lia.
        specialize (IH _ V).
        rewrite Nat.min_r in ND by lia.
        inversion IH as [rest A B C0 | d' A B C0 D0]; subst.
        -- rewrite N, ND in *.
           replace (feed (feed (norm d) p) (firstn (need d - length p) (concat ps)))
             with (feed (norm d) (firstn (need d) (p ++ concat ps))).
           2:{ rewrite firstn_app, (firstn_all2 (n := need d) p) by lia. now rewrite feed_app. }
           apply fs_ok.
           ++ rewrite app_length. lia.
           ++ rewrite skipn_app, (skipn_all2 (n := need d) p) by lia. exact B.
        -- apply fs_need.
           ++ rewrite app_length. lia.
           ++ rewrite app_length, B, ND. lia.
           ++ right. rewrite N in C0. destruct C0 as [->| ->].
              ** destruct ps as [|p' ps'].
                 { cbn. now rewrite app_nil_r. }
                 cbn [fill] in D0.
                 destruct (a_req (feed (norm d) p) =? 0) eqn:EA; try discriminate.
                 assert (W : concat (p' :: ps') = [] \/ concat (p' :: ps') <> []) by (destruct (concat (p' :: ps')); auto; right; discriminate).
                 destruct W as [W|W]; [rewrite W, app_nil_r; reflexivity|].
                 exfalso. rewrite ND in B.
                 destruct (concat (p' :: ps')); try congruence. cbn [length] in B. lia.
              ** now rewrite feed_app.
Qed.

(** Observable equality of decoding results (used for C02). *)
Inductive dec_equiv {A} : dec_res A -> dec_res A -> Prop :=
| de_panic : dec_equiv DPanic DPanic
| de_need l d d' : need d = need d' -> dec_equiv (DNeed l d) (DNeed l d')
| de_ok l d r r' : concat r = concat r' -> dec_equiv (DOk l d r) (DOk l d r').

Lemma advance_valid d s f d' : dvalid d -> a_req d = 0 -> advance_sym d s f = Some d' -> dvalid d'.
Proof.
  unfold advance_sym, assert. intros H Hz E.
  destruct (_ <? 2 ^ 64) in E; try discriminate.
  destruct (_ <? 2 ^ 64) in E; try discriminate.
  destruct (0 <=? _) eqn:Ex in E; try discriminate.
  inversion E; subst; clear E. destruct H as (H & A & B & C).
  unfold dvalid; cbn [a_req b_req state_a state_b]. repeat split; auto; try lia.
  - destruct C as [C|C]; rewrite C; destruct (sym_count d =? _);
      [change (Z.lor 0 8) with 8|change (Z.lor 0 0) with 0|change (Z.lor 1 8) with 9|change (Z.lor 1 0) with 1]; lia.
  - match goal with |- context [if ?b then _ else _] => destruct b end; auto.
Qed.

Lemma get_sym_valid {A} d (qy : query A) a d' :
  dvalid d -> get_sym d qy = Some (a, d') -> dvalid d'.
Proof.
  unfold get_sym, get_cdf_value, assert. intros H E.
  destruct (Z.eqb_spec (a_req d) 0) as [Hz|]; try discriminate.
  cbn [bind] in E. destruct (qy _) as [[a0 s] f].
  destruct (advance_sym d s f) eqn:Ea; try discriminate. inversion E; subst.
  eapply advance_valid; eauto.
Qed.

Lemma ans_decode_pieces {A} (qs : list (query A)) : forall d p1 p2,
  dvalid d -> concat p1 = concat p2 ->
  dec_equiv (ans_decode d qs p1) (ans_decode d qs p2).
Proof.
  induction qs as [|qy qs IH]; intros d p1 p2 H Hc; cbn [ans_decode].
  - now constructor.
  - pose proof (fill_ok p1 d H) as F1. pose proof (fill_ok p2 d H) as F2.
    rewrite Hc in F1.
    inversion F1 as [r1 A1 B1 C1|d1 A1 B1 C1 E1]; inversion F2 as [r2 A2 B2 C2|d2 A2 B2 C2 E2]; subst; try lia.
    + assert (V : dvalid (feed (norm d) (firstn (need d) (concat p2)))).
      { apply feed_valid; auto using dvalid_norm, norm_norm.
        rewrite need_norm, firstn_length by auto. lia. }
      destruct (get_sym _ qy) as [[a d']|] eqn:G; [|constructor].
      pose proof (get_sym_valid _ _ _ _ V G).
      assert (X : dec_equiv (ans_decode d' qs r1) (ans_decode d' qs r2)) by (apply IH; auto; congruence).
      inversion X; subst; constructor; auto.
    + constructor. congruence.
Qed.

Lemma dvalid_new : dvalid dec_new.
Proof. unfold dvalid, dec_new; cbn. lia. Qed.

