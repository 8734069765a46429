(** CRC: the register is GF(2)-linear; whole strings are processed as one number. *)
From Verif Require Import Prelude ModelCrcTable ModelCrc SpecCrc.

Definition POLY : Z := 2197175160.
Definition S1 := crc_bit.
Definition Sn (n : nat) (x : Z) : Z := Nat.iter n S1 x.

Lemma S1_eq x : S1 x = Z.lxor (Z.shiftr x 1) (if Z.odd x then POLY else 0).
Proof. unfold S1, crc_bit. destruct (Z.odd x); [reflexivity|now rewrite Z.lxor_0_r]. Qed.

Lemma S1_lxor x y : S1 (Z.lxor x y) = Z.lxor (S1 x) (S1 y).
Proof.
  rewrite !S1_eq, Z.shiftr_lxor. rewrite <- !Z.bit0_odd, Z.lxor_spec.
  set (a := Z.shiftr x 1). set (b := Z.shiftr y 1).
  destruct (Z.testbit x 0), (Z.testbit y 0); cbn [xorb]; rewrite ?Z.lxor_0_r.
  - rewrite (Z.lxor_comm b POLY), <- Z.lxor_assoc, (Z.lxor_assoc a POLY POLY), Z.lxor_nilpotent, Z.lxor_0_r. reflexivity.
  - rewrite !Z.lxor_assoc. f_equal. apply Z.lxor_comm.
  - rewrite Z.lxor_assoc. reflexivity.
  - reflexivity.
Qed.
Lemma S1_double x : S1 (2 * x) = x.
Proof.
  rewrite S1_eq. rewrite Z.odd_mul. cbn [Z.odd andb]. rewrite Z.lxor_0_r, Z.shiftr_div_pow2 by lia.
  change (2 ^ 1) with 2. lia.
Qed.

Lemma Sn_S n x : Sn (S n) x = Sn n (S1 x).
Proof. induction n as [|n IH]; [reflexivity|]. change (S1 (Sn (S n) x) = S1 (Sn n (S1 x))). now rewrite IH. Qed.
Lemma Sn_add a b x : Sn (a + b) x = Sn b (Sn a x).
Proof. revert x. induction a as [|a IH]; intros x; [reflexivity|]. cbn [Nat.add]. rewrite !Sn_S. apply IH. Qed.
Lemma Sn_lxor n x y : Sn n (Z.lxor x y) = Z.lxor (Sn n x) (Sn n y).
Proof. revert x y. induction n as [|n IH]; intros; [reflexivity|]. rewrite !Sn_S, S1_lxor. apply IH. Qed.
Lemma Sn_shift n x : Sn n (x * 2 ^ Z.of_nat n) = x.
Proof.
  revert x. induction n as [|n IH]; intros x; [cbn; change (2 ^ Z.of_nat 0) with 1; lia|].
  rewrite Sn_S. replace (x * 2 ^ Z.of_nat (S n)) with (2 * (x * 2 ^ Z.of_nat n)).
  - rewrite S1_double. apply IH.
  - rewrite Nat2Z.inj_succ, Z.pow_succ_r by lia. lia.
Qed.
Lemma Sn_0 n : Sn n 0 = 0.
Proof. rewrite <- (Z.mul_0_l (2 ^ Z.of_nat n)). apply Sn_shift. Qed.

(** A non-zero 32 bit register stays non-zero. *)
Lemma lxor_bound32 x y : 0 <= x < 2 ^ 32 -> 0 <= y < 2 ^ 32 -> 0 <= Z.lxor x y < 2 ^ 32.
Proof.
  intros Hx Hy. split; [apply Z.lxor_nonneg; lia|].
  destruct (Z.eq_dec x 0) as [->|Ex]; [rewrite Z.lxor_0_l; lia|].
  destruct (Z.eq_dec y 0) as [->|Ey]; [rewrite Z.lxor_0_r; lia|].
  destruct (Z.eq_dec (Z.lxor x y) 0) as [E|E]; [lia|].
  assert (0 <= Z.lxor x y) by (apply Z.lxor_nonneg; lia).
  apply Z.log2_lt_pow2; [lia|].
  pose proof (Z.log2_lxor x y ltac:(lia) ltac:(lia)).
  assert (Z.log2 x < 32) by (apply Z.log2_lt_pow2; lia).
  assert (Z.log2 y < 32) by (apply Z.log2_lt_pow2; lia). lia.
Qed.
Lemma S1_range x : 0 <= x < 2 ^ 32 -> 0 <= S1 x < 2 ^ 32.
Proof.
  intros H. rewrite S1_eq. apply lxor_bound32; [rewrite Z.shiftr_div_pow2 by lia; change (2 ^ 1) with 2; lia|].
  unfold POLY. destruct (Z.odd x); lia.
Qed.
Lemma S1_nonzero x : 0 < x < 2 ^ 32 -> S1 x <> 0.
Proof.
  intros H E. rewrite S1_eq in E. apply Z.lxor_eq in E.
  rewrite Z.shiftr_div_pow2 in E by lia. change (2 ^ 1) with 2 in E.
  destruct (Z.odd x) eqn:O; unfold POLY in E; [lia|].
  assert (x = 1) by lia. subst. discriminate.
Qed.
Lemma Sn_nonzero n : forall x, 0 < x < 2 ^ 32 -> 0 < Sn n x < 2 ^ 32.
Proof.
  induction n as [|n IH]; intros x H; [exact H|]. rewrite Sn_S. apply IH.
  pose proof (S1_range x ltac:(lia)). pose proof (S1_nonzero x H). lia.
Qed.
Lemma Sn_range n x : 0 <= x < 2 ^ 32 -> 0 <= Sn n x < 2 ^ 32.
Proof.
  intros H. destruct (Z.eq_dec x 0) as [->|E]; [rewrite Sn_0; lia|].
  pose proof (Sn_nonzero n x ltac:(lia)). lia.
Qed.

(** A whole byte string at once *)
Lemma unle_lxor b l : byte b -> 0 <= unle l -> unle (b :: l) = Z.lxor b (unle l * 2 ^ 8).
Proof.
  unfold byte. intros Hb Hl. cbn [unle].
  pose proof (lor_shift_add b (unle l) 8 ltac:(lia) ltac:(lia) Hl) as E.
  rewrite Z.shiftl_mul_pow2 in E by lia.
  assert (D : Z.land b (unle l * 2 ^ 8) = 0).
  { rewrite <- Z.shiftl_mul_pow2 by lia. apply Z.bits_inj'. intros n Hn. rewrite Z.land_spec, Z.bits_0.
    destruct (Z.ltb_spec n 8) as [N|N].
    - rewrite Z.shiftl_spec_low by lia. apply andb_false_r.
    - replace (Z.testbit b n) with false; [reflexivity|]. symmetry.
      destruct (Z.eq_dec b 0) as [->|]; [apply Z.bits_0|].
      apply Z.bits_above_log2; [lia|]. apply Z.log2_lt_pow2; [lia|].
      apply Z.lt_le_trans with (2 ^ 8); [lia|]. apply Z.pow_le_mono_r; lia. }
  rewrite Z.lxor_lor by exact D. change (2 ^ 8) with 256 in *. lia.
Qed.
Lemma fold_byte_Sn l : bytes l -> forall c,
  fold_left crc_byte l c = Sn (8 * length l) (Z.lxor c (unle l)).
Proof.
  induction 1 as [|b l Hb Hl IH]; intros c; [cbn; now rewrite Z.lxor_0_r|].
  cbn [fold_left length]. rewrite IH. clear IH.
  replace (8 * S (length l))%nat with (8 + 8 * length l)%nat by lia. rewrite Sn_add.
  f_equal. pose proof (unle_bound l Hl). rewrite unle_lxor by (auto; lia).
  rewrite <- Z.lxor_assoc, (Sn_lxor 8). f_equal.
  symmetry. exact (Sn_shift 8 (unle l)).
Qed.

(** The tables *)
Definition row_check (n : nat) (t prev : list Z) : bool :=
  Nat.eqb (length t) 256 && forallb (fun p => fst p =? Sn n (snd p)) (combine t prev).
Definition idx256 : list Z := map Z.of_nat (seq 0 256).
Fixpoint rows_check (prev : list Z) (ts : list (list Z)) : bool :=
  match ts with
  | [] => true
  | t :: ts => row_check 8 t prev && rows_check t ts
  end.
Lemma TABLE16_ok : rows_check idx256 TABLE16 && Nat.eqb (length TABLE16) 16 = true.
Proof. vm_compute. reflexivity. Qed.
Lemma row_check_nth n t prev i : row_check n t prev = true -> length prev = 256%nat -> 0 <= i < 256 ->
  nth (Z.to_nat i) t 0 = Sn n (nth (Z.to_nat i) prev 0).
Proof.
  unfold row_check. intros H L I. apply andb_prop in H. destruct H as (H1 & H2). apply Nat.eqb_eq in H1.
  rewrite forallb_forall in H2.
  specialize (H2 (nth (Z.to_nat i) t 0, nth (Z.to_nat i) prev 0)).
  cbn [fst snd] in H2. apply Z.eqb_eq, H2.
  rewrite <- combine_nth by lia. apply nth_In. rewrite combine_length. lia.
Qed.
Lemma rows_check_nth ts : forall prev k i, rows_check prev ts = true -> length prev = 256%nat ->
  (k < length ts)%nat -> 0 <= i < 256 ->
  nth (Z.to_nat i) (nth k ts []) 0 = Sn (8 * S k) (nth (Z.to_nat i) prev 0).
Proof.
  induction ts as [|t ts IH]; intros prev k i H L K I; cbn [length] in K; [lia|].
  cbn [rows_check] in H. apply andb_prop in H. destruct H as (H1 & H2).
  destruct k as [|k]; cbn [nth].
  - exact (row_check_nth 8 t prev i H1 L I).
  - assert (Lt : length t = 256%nat).
    { unfold row_check in H1. apply andb_prop in H1. destruct H1 as (H1 & _). now apply Nat.eqb_eq in H1. }
    rewrite (IH t k i H2 Lt ltac:(lia) I), (row_check_nth 8 t prev i H1 L I).
    rewrite <- Sn_add. f_equal. lia.
Qed.
Lemma idx256_nth i : 0 <= i < 256 -> nth (Z.to_nat i) idx256 0 = i.
Proof.
  intros H. unfold idx256. change 0 with (Z.of_nat 0) at 1. rewrite map_nth, seq_nth by lia. lia.
Qed.
Lemma tab_ok k i : (k < 16)%nat -> 0 <= i < 256 -> tab k i = Sn (8 * S k) i.
Proof.
  intros K I. unfold tab. pose proof TABLE16_ok as T. apply andb_prop in T. destruct T as (T1 & T2).
  apply Nat.eqb_eq in T2. 
  rewrite (rows_check_nth TABLE16 idx256 k i T1) by (auto; try lia; unfold idx256; rewrite map_length, seq_length; reflexivity).
  now rewrite idx256_nth.
Qed.

Lemma as_u8_mod x : as_u8 x = x mod 256.
Proof. unfold as_u8. exact (land_mask x 8 ltac:(lia)). Qed.
Lemma split_low x : 0 <= x -> x = Z.lxor (as_u8 x) (Z.shiftr x 8 * 2 ^ 8).
Proof.
  intros H. rewrite as_u8_mod, Z.shiftr_div_pow2 by lia. change (2 ^ 8) with 256.
  pose proof (unle_lxor (x mod 256) (le 1 0) ltac:(unfold byte; lia) ltac:(cbn; lia)).
  assert (E : forall b y, byte b -> 0 <= y -> Z.lxor b (y * 2 ^ 8) = b + 256 * y).
  { intros b y Hb Hy. clear - Hb Hy.
    pose proof (lor_shift_add b y 8 ltac:(lia) ltac:(unfold byte in Hb; lia) Hy) as E.
    rewrite Z.shiftl_mul_pow2 in E by lia. rewrite Z.lxor_lor; [change (2 ^ 8) with 256 in *; lia|].
    rewrite <- Z.shiftl_mul_pow2 by lia. apply Z.bits_inj'. intros n Hn. rewrite Z.land_spec, Z.bits_0.
    destruct (Z.ltb_spec n 8) as [N|N].
    - rewrite Z.shiftl_spec_low by lia. apply andb_false_r.
    - replace (Z.testbit b n) with false; [reflexivity|]. symmetry. unfold byte in Hb.
      destruct (Z.eq_dec b 0) as [->|]; [apply Z.bits_0|].
      apply Z.bits_above_log2; [lia|]. apply Z.log2_lt_pow2; [lia|].
      apply Z.lt_le_trans with (2 ^ 8); [lia|]. apply Z.pow_le_mono_r; lia. }
  change 256 with (2 ^ 8) at 2. rewrite E by (unfold byte; lia). lia.
Qed.
Lemma Sn8_split x : 0 <= x -> Sn 8 x = Z.lxor (Sn 8 (as_u8 x)) (Z.shiftr x 8).
Proof.
  intros H. rewrite (split_low x H) at 1. rewrite Sn_lxor. f_equal. exact (Sn_shift 8 _).
Qed.

Lemma tail_step c b : 0 <= c -> byte b ->
  Z.lxor (tab 0 (Z.lxor (as_u8 c) b)) (Z.shiftr c 8) = crc_byte c b.
Proof.
  intros Hc Hb. unfold crc_byte. change (Nat.iter 8 crc_bit) with (Sn 8).
  assert (B : 0 <= Z.lxor (as_u8 c) b < 256).
  { assert (forall x y, 0 <= x < 256 -> 0 <= y < 256 -> 0 <= Z.lxor x y < 256).
    { clear. intros x y Hx Hy. split; [apply Z.lxor_nonneg; lia|].
      destruct (Z.eq_dec (Z.lxor x y) 0) as [E|E]; [lia|].
      assert (0 <= Z.lxor x y) by (apply Z.lxor_nonneg; lia).
      change 256 with (2 ^ 8). apply Z.log2_lt_pow2; [lia|].
      pose proof (Z.log2_lxor x y ltac:(lia) ltac:(lia)).
      assert (Z.log2 x < 8) by (destruct (Z.eq_dec x 0) as [->|]; [reflexivity|apply Z.log2_lt_pow2; lia]).
      assert (Z.log2 y < 8) by (destruct (Z.eq_dec y 0) as [->|]; [reflexivity|apply Z.log2_lt_pow2; lia]). lia. }
    apply H; [rewrite as_u8_mod; lia|exact Hb]. }
  rewrite tab_ok by (auto; lia). change (8 * 1)%nat with 8%nat. rewrite (Sn_lxor 8 (as_u8 c) b), (Sn_lxor 8 c b), (Sn8_split c Hc).
  rewrite !Z.lxor_assoc. f_equal. apply Z.lxor_comm.
Qed.
Lemma crc_byte_range c b : 0 <= c < 2 ^ 32 -> byte b -> 0 <= crc_byte c b < 2 ^ 32.
Proof.
  intros Hc Hb. unfold crc_byte. apply (Sn_range 8), lxor_bound32; auto. unfold byte in Hb. lia.
Qed.
Lemma crc_tail_ok l : bytes l -> forall c, 0 <= c < 2 ^ 32 -> crc_tail c l = fold_left crc_byte l c.
Proof.
  induction 1 as [|b l Hb Hl IH]; intros c Hc; [reflexivity|].
  cbn [crc_tail fold_left]. rewrite tail_step by (auto; lia). apply IH, crc_byte_range; auto.
Qed.

(** One 16 byte block *)
Ltac bcons := unfold bytes; repeat (apply Forall_cons; [assumption|]); apply Forall_nil.
Lemma bytes16 x0 x1 x2 x3 r : byte x0 -> byte x1 -> byte x2 -> byte x3 -> 0 <= r ->
  Z.lor (Z.lor (Z.lor x0 (Z.shiftl x1 8)) (Z.shiftl x2 16)) (Z.shiftl x3 24) = unle [x0; x1; x2; x3].
Proof.
  unfold byte. intros. cbn [unle].
  rewrite (lor_shift_add x0 x1 8) by lia.
  rewrite (lor_shift_add _ x2 16) by (change (2 ^ 8) with 256; change (2 ^ 16) with 65536; lia).
  rewrite (lor_shift_add _ x3 24) by (change (2 ^ 8) with 256; change (2 ^ 16) with 65536; change (2 ^ 24) with 16777216; lia).
  change (2 ^ 8) with 256; change (2 ^ 16) with 65536; change (2 ^ 24) with 16777216. lia.
Qed.

(** xor of the contributions of the bytes of a string *)
Fixpoint contrib (l : list Z) : Z :=
  match l with
  | [] => 0
  | b :: l => Z.lxor (Sn (8 * S (length l)) b) (contrib l)
  end.
Lemma contrib_ok l : bytes l -> Sn (8 * length l) (unle l) = contrib l.
Proof.
  induction 1 as [|b l Hb Hl IH]; [reflexivity|].
  pose proof (unle_bound l Hl). rewrite unle_lxor by (auto; lia). cbn [length contrib].
  rewrite Sn_lxor. f_equal. rewrite <- IH.
  replace (8 * S (length l))%nat with (8 + 8 * length l)%nat by lia. rewrite Sn_add. f_equal.
  exact (Sn_shift 8 _).
Qed.

Lemma word_bytes x : 0 <= x < 2 ^ 32 ->
  x = unle [as_u8 x; as_u8 (Z.shiftr x 8); as_u8 (Z.shiftr x 16); as_u8 (Z.shiftr x 24)] /\
  bytes [as_u8 x; as_u8 (Z.shiftr x 8); as_u8 (Z.shiftr x 16); as_u8 (Z.shiftr x 24)].
Proof.
  intros H. rewrite !as_u8_mod, !Z.shiftr_div_pow2 by lia.
  change (2 ^ 8) with 256; change (2 ^ 16) with 65536; change (2 ^ 24) with 16777216. split.
  - cbn [unle]. clear - H. lia.
  - repeat constructor; unfold byte; lia.
Qed.

Lemma unle_pad4 x l : unle (le 4 x ++ l) = unle (le 4 x) + 2 ^ 32 * unle l.
Proof. rewrite unle_app, le_length. reflexivity. Qed.

Lemma block_step c b0 b1 b2 b3 b4 b5 b6 b7 b8 b9 b10 b11 b12 b13 b14 b15 :
  0 <= c < 2 ^ 32 ->
  bytes [b0; b1; b2; b3; b4; b5; b6; b7; b8; b9; b10; b11; b12; b13; b14; b15] ->
  crc_block c (fun i => nth i [b0; b1; b2; b3; b4; b5; b6; b7; b8; b9; b10; b11; b12; b13; b14; b15] 0)
  = fold_left crc_byte [b0; b1; b2; b3; b4; b5; b6; b7; b8; b9; b10; b11; b12; b13; b14; b15] c.
Proof.
  intros Hc HB.
  assert (HB' : byte b0 /\ byte b1 /\ byte b2 /\ byte b3 /\ byte b4 /\ byte b5 /\ byte b6 /\ byte b7 /\
    byte b8 /\ byte b9 /\ byte b10 /\ byte b11 /\ byte b12 /\ byte b13 /\ byte b14 /\ byte b15).
  { repeat match goal with H : bytes (_ :: _) |- _ => apply Forall_cons_iff in H; destruct H end. 
    repeat match goal with H : Forall byte (_ :: _) |- _ => apply Forall_cons_iff in H; destruct H end. tauto. }
  destruct HB' as (h0 & h1 & h2 & h3 & h4 & h5 & h6 & h7 & h8 & h9 & h10 & h11 & h12 & h13 & h14 & h15).
  unfold crc_block. cbn [nth]. cbv zeta. rewrite (bytes16 b0 b1 b2 b3 0) by (auto; lia).
  rewrite fold_byte_Sn by exact HB.
  set (x := Z.lxor c (unle [b0; b1; b2; b3])).
  assert (Hx : 0 <= x < 2 ^ 32).
  { unfold x. apply lxor_bound32; auto.
    pose proof (unle_bound [b0; b1; b2; b3] ltac:(bcons)) as U.
    change (256 ^ Z.of_nat (length [b0; b1; b2; b3])) with (2 ^ 32) in U. exact U. }
  destruct (word_bytes x Hx) as (Ex & Bx).
  set (y0 := as_u8 x) in *. set (y1 := as_u8 (Z.shiftr x 8)) in *.
  set (y2 := as_u8 (Z.shiftr x 16)) in *. set (y3 := as_u8 (Z.shiftr x 24)) in *.
  set (tl := [b4; b5; b6; b7; b8; b9; b10; b11; b12; b13; b14; b15]).
  assert (Btl : bytes tl) by (unfold tl; bcons).
  assert (By : bytes [y0; y1; y2; y3; b4; b5; b6; b7; b8; b9; b10; b11; b12; b13; b14; b15]).
  { change (bytes ([y0; y1; y2; y3] ++ tl)). apply Forall_app. split; auto. }
  assert (V : Z.lxor c (unle [b0; b1; b2; b3; b4; b5; b6; b7; b8; b9; b10; b11; b12; b13; b14; b15])
    = unle [y0; y1; y2; y3; b4; b5; b6; b7; b8; b9; b10; b11; b12; b13; b14; b15]).
  { change [b0; b1; b2; b3; b4; b5; b6; b7; b8; b9; b10; b11; b12; b13; b14; b15] with ([b0; b1; b2; b3] ++ tl).
    change [y0; y1; y2; y3; b4; b5; b6; b7; b8; b9; b10; b11; b12; b13; b14; b15] with ([y0; y1; y2; y3] ++ tl).
    pose proof (unle_bound tl Btl) as Ut.
    assert (A : forall p q r s, byte p -> byte q -> byte r -> byte s ->
      unle ([p; q; r; s] ++ tl) = Z.lxor (unle [p; q; r; s]) (unle tl * 2 ^ 32)).
    { intros p q r s hp hq hr hs. rewrite unle_app.
      pose proof (unle_bound [p; q; r; s] ltac:(bcons)) as U.
      change (256 ^ Z.of_nat (length [p; q; r; s])) with (2 ^ 32) in *.
      pose proof (lor_shift_add (unle [p; q; r; s]) (unle tl) 32 ltac:(lia) U ltac:(lia)) as E.
      rewrite Z.shiftl_mul_pow2 in E by lia. rewrite Z.lxor_lor; [rewrite E; apply f_equal2; [reflexivity|apply Z.mul_comm]|].
      generalize dependent (unle [p; q; r; s]). intros u U _. clear - U.
      rewrite <- Z.shiftl_mul_pow2 by lia. apply Z.bits_inj'. intros n Hn. rewrite Z.land_spec, Z.bits_0.
      destruct (Z.ltb_spec n 32) as [N|N].
      - rewrite Z.shiftl_spec_low by lia. apply andb_false_r.
      - replace (Z.testbit u n) with false; [reflexivity|]. symmetry.
        destruct (Z.eq_dec u 0) as [->|]; [apply Z.bits_0|].
        apply Z.bits_above_log2; [lia|]. apply Z.log2_lt_pow2; [lia|].
        apply Z.lt_le_trans with (2 ^ 32); [lia|]. apply Z.pow_le_mono_r; lia. }
    rewrite (A b0 b1 b2 b3 h0 h1 h2 h3).
    repeat match goal with H : bytes (_ :: _) |- _ => apply Forall_cons_iff in H; destruct H end.
    repeat match goal with H : Forall byte (y0 :: _) |- _ => apply Forall_cons_iff in H; destruct H end.
    repeat match goal with H : Forall byte (y1 :: _) |- _ => apply Forall_cons_iff in H; destruct H end.
    repeat match goal with H : Forall byte (y2 :: _) |- _ => apply Forall_cons_iff in H; destruct H end.
    repeat match goal with H : Forall byte (y3 :: _) |- _ => apply Forall_cons_iff in H; destruct H end.
    rewrite (A y0 y1 y2 y3) by assumption. rewrite <- Z.lxor_assoc. fold x. rewrite <- Ex. reflexivity. }
  subst tl. rewrite V.
  change (8 * length [b0; b1; b2; b3; b4; b5; b6; b7; b8; b9; b10; b11; b12; b13; b14; b15])%nat
    with (8 * length [y0; y1; y2; y3; b4; b5; b6; b7; b8; b9; b10; b11; b12; b13; b14; b15])%nat.
  rewrite contrib_ok by exact By.
  assert (y0 = as_u8 x /\ y1 = as_u8 (Z.shiftr x 8) /\ y2 = as_u8 (Z.shiftr x 16) /\ y3 = as_u8 (Z.shiftr x 24)) as (Z0 & Z1 & Z2 & Z3) by auto.
  assert (Y : byte y0 /\ byte y1 /\ byte y2 /\ byte y3).
  { unfold byte. rewrite Z0, Z1, Z2, Z3, !as_u8_mod. clear. repeat split; lia. }
  destruct Y as (g0 & g1 & g2 & g3). clearbody y0 y1 y2 y3. unfold byte in *.
  rewrite !tab_ok by (auto; lia). cbn [contrib length].
  repeat match goal with |- context [Sn ?n ?z] => let v := fresh "v" in set (v := Sn n z); clearbody v end.
  rewrite Z.lxor_0_r. clear.
  repeat match goal with |- Z.lxor ?X ?v = Z.lxor ?v _ => rewrite (Z.lxor_comm X v); apply f_equal end.
  reflexivity.
Qed.

Lemma crc_block_ext c f g : (forall i, (i < 16)%nat -> f i = g i) -> crc_block c f = crc_block c g.
Proof.
  intros H. unfold crc_block.
  rewrite (H 0%nat), (H 1%nat), (H 2%nat), (H 3%nat), (H 4%nat), (H 5%nat), (H 6%nat), (H 7%nat),
    (H 8%nat), (H 9%nat), (H 10%nat), (H 11%nat), (H 12%nat), (H 13%nat), (H 14%nat), (H 15%nat) by lia.
  reflexivity.
Qed.
Lemma list16 (h : list Z) : length h = 16%nat -> exists a0 a1 a2 a3 a4 a5 a6 a7 a8 a9 a10 a11 a12 a13 a14 a15,
  h = [a0; a1; a2; a3; a4; a5; a6; a7; a8; a9; a10; a11; a12; a13; a14; a15].
Proof.
  intros H. do 16 (destruct h as [|? h]; [discriminate H|]). destruct h; [|discriminate H].
  repeat eexists.
Qed.
Lemma block_step' c buf : 0 <= c < 2 ^ 32 -> bytes buf -> (16 <= length buf)%nat ->
  crc_block c (fun i => nth i buf 0) = fold_left crc_byte (firstn 16 buf) c.
Proof.
  intros C B L.
  rewrite (crc_block_ext c _ (fun i => nth i (firstn 16 buf) 0)).
  2:{ intros i I. rewrite <- (firstn_skipn 16 buf) at 1. rewrite app_nth1; [reflexivity|]. rewrite firstn_length. lia. }
  assert (Bh : bytes (firstn 16 buf)).
  { rewrite <- (firstn_skipn 16 buf) in B. apply Forall_app in B. tauto. }
  destruct (list16 (firstn 16 buf)) as (a0 & a1 & a2 & a3 & a4 & a5 & a6 & a7 & a8 & a9 & a10 & a11 & a12 & a13 & a14 & a15 & E).
  { rewrite firstn_length. lia. }
  rewrite E in *. apply block_step; auto.
Qed.
Lemma fold_range l : bytes l -> forall c, 0 <= c < 2 ^ 32 -> 0 <= fold_left crc_byte l c < 2 ^ 32.
Proof. induction 1; intros c C; cbn [fold_left]; auto using crc_byte_range. Qed.
Lemma crc_blocks_ok n : forall l c, (length l <= n)%nat -> bytes l -> 0 <= c < 2 ^ 32 ->
  crc_loop n c l = fold_left crc_byte l c.
Proof.
  induction n as [|n IH]; intros l c L B C; cbn [crc_loop]; [exact (crc_tail_ok _ B c C)|].
  destruct (Nat.leb_spec 16 (length l)) as [G|G]; [|exact (crc_tail_ok _ B c C)].
  rewrite block_step' by auto.
  assert (B2 : bytes (firstn 16 l) /\ bytes (skipn 16 l)).
  { rewrite <- (firstn_skipn 16 l) in B. apply Forall_app in B. exact B. }
  rewrite IH; [| |tauto|].
  - rewrite <- fold_left_app, firstn_skipn. reflexivity.
  - rewrite skipn_length. lia.
  - apply fold_range; tauto.
Qed.

Lemma not32_range c : 0 <= c < 2 ^ 32 -> 0 <= not32 c < 2 ^ 32.
Proof. intros. unfold not32. apply lxor_bound32; lia. Qed.
Lemma not32_not32 c : not32 (not32 c) = c.
Proof. unfold not32. rewrite Z.lxor_assoc, Z.lxor_nilpotent, Z.lxor_0_r. reflexivity. Qed.

Lemma crc_update_ok l c : bytes l -> 0 <= c < 2 ^ 32 -> crc32c_update c l = crc32c c l.
Proof.
  intros B C. unfold crc32c_update, crc_blocks, crc32c. rewrite (crc_blocks_ok (length l)) by (auto using not32_range; lia).
  reflexivity.
Qed.
Lemma crc_update_range l c : bytes l -> 0 <= c < 2 ^ 32 -> 0 <= crc32c_update c l < 2 ^ 32.
Proof.
  intros B C. unfold crc32c_update, crc_blocks. rewrite (crc_blocks_ok (length l)) by (auto using not32_range; lia).
  apply not32_range, fold_range; auto using not32_range.
Qed.
Lemma crc_update_app l1 l2 c : bytes l1 -> bytes l2 -> 0 <= c < 2 ^ 32 ->
  crc32c_update c (l1 ++ l2) = crc32c_update (crc32c_update c l1) l2.
Proof.
  intros B1 B2 C. rewrite !crc_update_ok; auto using crc_update_range.
  - unfold crc32c. rewrite fold_left_app.
    rewrite (Z.lxor_assoc (fold_left crc_byte l1 _)), Z.lxor_nilpotent, Z.lxor_0_r. reflexivity.
  - apply Forall_app; auto.
Qed.
Lemma crc_update_concat ls : forall c, Forall bytes ls -> 0 <= c < 2 ^ 32 ->
  fold_left crc32c_update ls c = crc32c c (concat ls).
Proof.
  induction ls as [|l ls IH]; intros c H C; cbn [fold_left concat].
  - unfold crc32c. cbn [fold_left]. symmetry. exact (not32_not32 c).
  - apply Forall_cons_iff in H. destruct H as (H1 & H2).
    assert (B2 : bytes (concat ls)) by (clear - H2; induction H2; cbn [concat]; [constructor|apply Forall_app; auto]).
    rewrite IH by auto using crc_update_range.
    rewrite <- crc_update_ok by auto using crc_update_range.
    rewrite <- crc_update_app by auto. apply crc_update_ok; auto. apply Forall_app; auto.
Qed.

Lemma crc_burst xs ys c : bytes xs -> bytes ys -> 0 <= c < 2 ^ 32 -> burst32 xs ys ->
  crc32c_update c xs <> crc32c_update c ys.
Proof.
  intros Bx By C (L & k & w & K & W & D) E.
  rewrite !crc_update_ok in E by auto. unfold crc32c in E.
  assert (E2 : fold_left crc_byte xs (not32 c) = fold_left crc_byte ys (not32 c)).
  { apply (f_equal not32) in E. 
    change (not32 (not32 (fold_left crc_byte xs (not32 c))) = not32 (not32 (fold_left crc_byte ys (not32 c)))) in E.
    rewrite !not32_not32 in E. exact E. }
  rewrite !fold_byte_Sn in E2 by auto. rewrite L, !Sn_lxor in E2.
  assert (E3 : Sn (8 * length ys) (Z.lxor (unle xs) (unle ys)) = 0).
  { rewrite Sn_lxor. apply (f_equal (Z.lxor (Sn (8 * length ys) (not32 c)))) in E2.
    rewrite <- !Z.lxor_assoc, Z.lxor_nilpotent, !Z.lxor_0_l in E2. rewrite E2. apply Z.lxor_nilpotent. }
  rewrite D in E3.
  (* the window starts inside the string *)
  assert (KB : k < Z.of_nat (8 * length ys)).
  { pose proof (unle_bound xs Bx) as Ux. pose proof (unle_bound ys By) as Uy. rewrite L in Ux.
    set (m := (8 * length ys)%nat) in *.
    assert (P : 256 ^ Z.of_nat (length ys) = 2 ^ Z.of_nat m).
    { change 256 with (2 ^ 8). rewrite <- Z.pow_mul_r by lia. f_equal. unfold m. lia. }
    rewrite P in *.
    assert (B : 0 <= Z.lxor (unle xs) (unle ys) < 2 ^ Z.of_nat m).
    { split; [apply Z.lxor_nonneg; lia|].
      destruct (Z.eq_dec (Z.lxor (unle xs) (unle ys)) 0) as [F|F]; [rewrite F; lia|].
      assert (0 <= Z.lxor (unle xs) (unle ys)) by (apply Z.lxor_nonneg; lia).
      apply Z.log2_lt_pow2; [lia|].
      pose proof (Z.log2_lxor (unle xs) (unle ys) ltac:(lia) ltac:(lia)).
      destruct (Z.eq_dec (Z.of_nat m) 0) as [M|M].
      { exfalso. rewrite M in *. change (2 ^ 0) with 1 in *. apply F. replace (unle xs) with 0 by lia. replace (unle ys) with 0 by lia. reflexivity. }
      assert (Lg : forall z, 0 <= z < 2 ^ Z.of_nat m -> Z.log2 z < Z.of_nat m).
      { intros z Hz. destruct (Z.eq_dec z 0) as [->|]; [change (Z.log2 0) with 0; lia|apply Z.log2_lt_pow2; lia]. }
      pose proof (Lg _ Ux). pose proof (Lg _ Uy). lia. }
    rewrite D in B. clear - B W K. apply Z.pow_lt_mono_r_iff with 2; try lia.
    apply Z.le_lt_trans with (w * 2 ^ k); [|lia].
    pose proof (Z.pow_pos_nonneg 2 k ltac:(lia) K). clear B. 
    rewrite <- (Z.mul_1_l (2 ^ k)) at 1. apply Z.mul_le_mono_nonneg_r; lia. }
  replace (8 * length ys)%nat with (Z.to_nat k + (8 * length ys - Z.to_nat k))%nat in E3 by lia.
  rewrite Sn_add in E3. replace (w * 2 ^ k) with (w * 2 ^ Z.of_nat (Z.to_nat k)) in E3 by (f_equal; f_equal; lia).
  rewrite Sn_shift in E3. pose proof (Sn_nonzero (8 * length ys - Z.to_nat k) w W). lia.
Qed.
