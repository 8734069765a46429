(** C11 for the variant that uses the processor's CRC32 instruction. *)
From Verif Require Import Prelude ModelCrc SpecCrc ProofCrc ModelCrcSse.

(** ** Functions that respect exclusive or *)
Definition linear (f : Z -> Z) : Prop := forall x y, f (Z.lxor x y) = Z.lxor (f x) (f y).
Lemma linear_0 f : linear f -> f 0 = 0.
Proof. intros L. pose proof (L 0 0) as Q. rewrite Z.lxor_0_l, Z.lxor_nilpotent in Q. exact Q. Qed.
Lemma top_bit n x : 0 <= n -> 0 <= x < 2 ^ (n + 1) -> exists y, 0 <= y < 2 ^ n /\ (x = y \/ x = Z.lxor y (2 ^ n)).
Proof.
  intros N X. rewrite Z.pow_add_r in X by lia. change (2 ^ 1) with 2 in X. pose proof (Z.pow_pos_nonneg 2 n ltac:(lia) N). destruct (Z.ltb_spec x (2 ^ n)).
  - exists x. split; [lia|left; reflexivity].
  - exists (x - 2 ^ n). split; [lia|]. right. pose proof (lor_shift_add (x - 2 ^ n) 1 n N ltac:(lia) ltac:(lia)) as E. rewrite Z.shiftl_1_l in E. rewrite Z.lxor_lor; [rewrite E; lia|].
    apply Z.bits_inj'. intros k K. rewrite Z.land_spec, Z.bits_0, Z.pow2_bits_eqb by exact N. destruct (Z.eqb_spec n k) as [<-|]; [|apply andb_false_r]. rewrite andb_true_r.
    destruct (Z.eq_dec (x - 2 ^ n) 0) as [Q|Q]; [rewrite Q; apply Z.bits_0|]. apply Z.bits_above_log2; [lia|]. apply Z.log2_lt_pow2; lia.
Qed.
Lemma linear_eq f g : linear f -> linear g -> forall n, (forall i, (i < n)%nat -> f (2 ^ Z.of_nat i) = g (2 ^ Z.of_nat i)) -> forall x, 0 <= x < 2 ^ Z.of_nat n -> f x = g x.
Proof.
  intros LF LG. induction n as [|n IH]; intros H x X.
  - change (2 ^ Z.of_nat 0) with 1 in X. replace x with 0 by lia. rewrite !linear_0 by assumption. reflexivity.
  - replace (Z.of_nat (S n)) with (Z.of_nat n + 1) in X by lia. destruct (top_bit _ _ (Nat2Z.is_nonneg n) X) as (y & Y & [->| ->]); [apply IH; [intros i I; apply H; lia|exact Y]|]. rewrite LF, LG, H by lia. f_equal. apply IH; [intros i I; apply H; lia|exact Y].
Qed.
Lemma forall_lt (p : nat -> bool) n : forallb p (seq 0 n) = true -> forall i, (i < n)%nat -> p i = true.
Proof. intros H i I. rewrite forallb_forall in H. apply H. apply in_seq. lia. Qed.

Lemma reflect_linear n k : linear (reflect_bits n k).
Proof.
  induction n as [|n IH]; intros x y; cbn [reflect_bits]; [reflexivity|]. rewrite IH, Z.lxor_spec. set (p := 2 ^ _). set (u := reflect_bits n k x). set (v := reflect_bits n k y).
  destruct (Z.testbit x _), (Z.testbit y _); cbn [xorb]; apply Z.bits_inj'; intros i _; rewrite !Z.lxor_spec, ?Z.bits_0; destruct (Z.testbit p i), (Z.testbit u i), (Z.testbit v i); reflexivity.
Qed.
Lemma mod2_linear n : linear (mod2 n).
Proof.
  induction n as [|n IH]; intros x y; cbn [mod2]; [reflexivity|]. rewrite <- IH. f_equal. rewrite Z.lxor_spec. set (p := Z.shiftl _ _).
  destruct (Z.testbit x _), (Z.testbit y _); cbn [xorb]; apply Z.bits_inj'; intros i _; rewrite !Z.lxor_spec; destruct (Z.testbit p i), (Z.testbit x i), (Z.testbit y i); reflexivity.
Qed.
Lemma mm_src_linear n : linear (fun d => mm_crc32 n 0 d).
Proof. intros x y. unfold mm_crc32. change (bit_reflect 32 0) with 0. rewrite Z.shiftl_0_l, !Z.lxor_0_r. unfold bit_reflect. rewrite (reflect_linear n), Z.shiftl_lxor, mod2_linear, (reflect_linear 32). reflexivity. Qed.
Lemma reflect_zero n k : reflect_bits n k 0 = 0.
Proof. apply linear_0, reflect_linear. Qed.
Lemma mm_crc_linear n : linear (fun c => mm_crc32 n c 0).
Proof. intros x y. unfold mm_crc32, bit_reflect. rewrite reflect_zero, Z.shiftl_0_l, !Z.lxor_0_l. rewrite (reflect_linear 32), Z.shiftl_lxor, mod2_linear, (reflect_linear 32). reflexivity. Qed.
Lemma mm_split n c d : mm_crc32 n c d = Z.lxor (mm_crc32 n c 0) (mm_crc32 n 0 d).
Proof.
  unfold mm_crc32, bit_reflect. rewrite !reflect_zero, !Z.shiftl_0_l, Z.lxor_0_l, Z.lxor_0_r. rewrite mod2_linear, (reflect_linear 32). apply Z.lxor_comm.
Qed.
Lemma Sn_linear n : linear (Sn n). Proof. intros x y. apply Sn_lxor. Qed.
(** the instruction is the textbook step *)
Lemma mm_8 c d : 0 <= c < 2 ^ 32 -> 0 <= d < 2 ^ 8 -> mm_crc32 8 c d = Sn 8 (Z.lxor c d).
Proof.
  intros C D. rewrite mm_split, Sn_lxor. f_equal.
  - apply (linear_eq (fun c => mm_crc32 8 c 0) (Sn 8) (mm_crc_linear 8) (Sn_linear 8) 32); [|exact C]. intros i I. apply Z.eqb_eq. apply (forall_lt (fun i => mm_crc32 8 (2 ^ Z.of_nat i) 0 =? Sn 8 (2 ^ Z.of_nat i)) 32); [vm_compute; reflexivity|exact I].
  - apply (linear_eq (fun d => mm_crc32 8 0 d) (Sn 8) (mm_src_linear 8) (Sn_linear 8) 8); [|exact D]. intros i I. apply Z.eqb_eq. apply (forall_lt (fun i => mm_crc32 8 0 (2 ^ Z.of_nat i) =? Sn 8 (2 ^ Z.of_nat i)) 8); [vm_compute; reflexivity|exact I].
Qed.
Lemma mm_64 c d : 0 <= c < 2 ^ 32 -> 0 <= d < 2 ^ 64 -> mm_crc32 64 c d = Sn 64 (Z.lxor c d).
Proof.
  intros C D. rewrite mm_split, Sn_lxor. f_equal.
  - apply (linear_eq (fun c => mm_crc32 64 c 0) (Sn 64) (mm_crc_linear 64) (Sn_linear 64) 32); [|exact C]. intros i I. apply Z.eqb_eq. apply (forall_lt (fun i => mm_crc32 64 (2 ^ Z.of_nat i) 0 =? Sn 64 (2 ^ Z.of_nat i)) 32); [vm_compute; reflexivity|exact I].
  - apply (linear_eq (fun d => mm_crc32 64 0 d) (Sn 64) (mm_src_linear 64) (Sn_linear 64) 64); [|exact D]. intros i I. apply Z.eqb_eq. apply (forall_lt (fun i => mm_crc32 64 0 (2 ^ Z.of_nat i) =? Sn 64 (2 ^ Z.of_nat i)) 64); [vm_compute; reflexivity|exact I].
Qed.

(** ** The loop *)
Lemma word_ok buf : bytes buf -> (8 <= length buf)%nat -> word_of buf = unle (firstn 8 buf).
Proof.
  intros B L. destruct buf as [|b0 [|b1 [|b2 [|b3 [|b4 [|b5 [|b6 [|b7 r]]]]]]]]; cbn [length] in L; try lia. clear L. unfold word_of. cbn [nth firstn unle].
  unfold bytes in B. repeat match goal with H : Forall byte (_ :: _) |- _ => apply Forall_cons_iff in H; let A := fresh in destruct H as (A & H) end. clear B. unfold byte in *.
  rewrite (lor_shift_add b0 b1 8) by lia.
  rewrite (lor_shift_add _ b2 16) by (change (2 ^ 8) with 256; change (2 ^ 16) with 65536; lia).
  change (2 ^ 8) with 256; change (2 ^ 16) with 65536.
  rewrite (lor_shift_add _ b3 24) by (change (2 ^ 24) with 16777216; lia). change (2 ^ 24) with 16777216.
  rewrite (lor_shift_add _ b4 32) by (change (2 ^ 32) with 4294967296; lia). change (2 ^ 32) with 4294967296.
  rewrite (lor_shift_add _ b5 40) by (change (2 ^ 40) with 1099511627776; lia). change (2 ^ 40) with 1099511627776.
  rewrite (lor_shift_add _ b6 48) by (change (2 ^ 48) with 281474976710656; lia). change (2 ^ 48) with 281474976710656.
  rewrite (lor_shift_add _ b7 56) by (change (2 ^ 56) with 72057594037927936; lia). change (2 ^ 56) with 72057594037927936. lia.
Qed.
Lemma crc_byte_Sn c b : crc_byte c b = Sn 8 (Z.lxor c b).
Proof. unfold crc_byte, Sn, S1. reflexivity. Qed.
Lemma fold_step (f g : Z -> Z -> Z) (P : Z -> Prop) (Q : Z -> Prop) : (forall c b, P c -> Q b -> f c b = g c b /\ P (g c b)) ->
  forall l, Forall Q l -> forall c, P c -> fold_left f l c = fold_left g l c.
Proof. intros H. induction 1 as [|b l B F IH]; intros c C; [reflexivity|]. cbn [fold_left]. destruct (H c b C B) as (-> & R). apply IH, R. Qed.
Lemma tail_ok l : bytes l -> forall c, 0 <= c < 2 ^ 32 -> fold_left (mm_crc32 8) l c = fold_left crc_byte l c.
Proof.
  intros B c C. apply (fold_step (mm_crc32 8) crc_byte (fun c => 0 <= c < 2 ^ 32) byte); [|exact B|exact C]. intros x b X Y. split; [|apply crc_byte_range; assumption]. rewrite crc_byte_Sn. apply mm_8; [exact X|exact Y].
Qed.
Opaque mm_crc32 Sn.
Lemma sse_loop_ok n : forall l c, bytes l -> 0 <= c < 2 ^ 32 -> sse_loop n c l = fold_left crc_byte l c.
Proof.
  induction n as [|n IH]; intros l c B C; cbn [sse_loop]; [apply tail_ok; assumption|]. destruct (Nat.leb_spec 8 (length l)) as [L|_]; [|apply tail_ok; assumption].
  assert (B1 : bytes (firstn 8 l) /\ bytes (skipn 8 l)) by (rewrite <- (firstn_skipn 8 l) in B; apply Forall_app in B; exact B). destruct B1 as (B1 & B2).
  assert (L8 : length (firstn 8 l) = 8%nat) by (rewrite firstn_length; lia). pose proof (unle_bound _ B1) as U. rewrite L8 in U. assert (P : 256 ^ Z.of_nat 8 = 2 ^ 64) by (vm_compute; reflexivity). rewrite P in U. clear P.
  rewrite (word_ok l B L), (mm_64 c _ C U). assert (E : Sn 64 (Z.lxor c (unle (firstn 8 l))) = fold_left crc_byte (firstn 8 l) c) by (rewrite (fold_byte_Sn _ B1 c), L8; change (8 * 8)%nat with 64%nat; exact eq_refl).
  rewrite E, IH by (try exact B2; apply fold_range; assumption). rewrite <- fold_left_app, firstn_skipn. reflexivity.
Qed.
Transparent mm_crc32 Sn.
Lemma sse_update_ok l c : bytes l -> 0 <= c < 2 ^ 32 -> sse_crc32c_update c l = crc32c_update c l.
Proof.
  intros B C. unfold sse_crc32c_update, crc32c_update. pose proof (not32_range c C). unfold crc_blocks. rewrite sse_loop_ok, (crc_blocks_ok (length l)) by auto. reflexivity.
Qed.
(** C11, the accelerated variant: whether or not the processor has the instruction, the
    updates compute the bit-wise CRC-32C of the concatenation. *)
Theorem C11_sse_is_crc32c : forall has_sse42 pieces crc, Forall bytes pieces -> 0 <= crc < 2 ^ 32 ->
  fold_left (simd_crc32c_update has_sse42) pieces crc = crc32c crc (concat pieces).
Proof.
  intros h ps c F C. rewrite <- (crc_update_concat ps c F C). revert c C. induction F as [|l ps B F IH]; intros c C; [reflexivity|]. cbn [fold_left].
  assert (E : simd_crc32c_update h c l = crc32c_update c l) by (unfold simd_crc32c_update; destruct h; [apply sse_update_ok; assumption|reflexivity]). rewrite E. apply IH. apply crc_update_range; assumption.
Qed.
Example C11_sse_case : sse_crc32c_update crc32c_init [49; 50; 51; 52; 53; 54; 55; 56; 57] = 3808858755.
Proof. vm_compute. reflexivity. Qed.
Print Assumptions C11_sse_is_crc32c.
