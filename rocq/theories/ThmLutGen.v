(** C85: the generator of the division tables. *)
From Verif Require Import Prelude ModelAns ModelCdf ProofCdf ModelLutGen.
From Verif Require Import ModelDivLut0.

Lemma every_ok check : forall fuel n, (forall m, n <= m < n + Z.of_nat fuel -> check m = true) -> every fuel n check = true.
Proof.
  induction fuel as [|fuel IH]; intros n H; [reflexivity|]. cbn [every]. rewrite (H n) by lia. cbn [andb]. apply IH. intros m Hm. apply H. lia.
Qed.
Lemma fast_divide8_u16 n d : 0 <= n < 2 ^ 16 -> 1 <= d < 256 -> u16 (fast_divide_16bit_by_8bit n (compute_divisor8 d)) = n / d.
Proof.
  intros Hn Hd. destruct (Z.eqb_spec d 1) as [->|D1].
  - unfold fast_divide_16bit_by_8bit. change (compute_divisor8 1) with (2 ^ 24 + 1). rewrite Z.shiftr_div_pow2 by lia. rewrite Z.div_1_r.
    replace ((2 ^ 24 + 1) * n / 2 ^ 24) with n by (apply Z.div_unique with n; lia).
    unfold u16, i16. change (2 ^ 16) with 65536 in *. change (2 ^ 15) with 32768. pose proof (Z.div_mod (n + 32768) 65536 ltac:(lia)) as Q.
    replace ((n + 32768) mod 65536 - 32768) with (n + (- ((n + 32768) / 65536)) * 65536) by lia. rewrite Z.mod_add by lia. apply Z.mod_small. lia.
  - assert (n / d < 2 ^ 15) by (apply Z.div_lt_upper_bound; lia). rewrite fast_divide8_exact by assumption. unfold u16. apply Z.mod_small. pose proof (Z.div_pos n d ltac:(lia) ltac:(lia)). lia.
Qed.

(** C85.  The generator's checks pass for every divisor, and the entries it prints are those
    the library looks up. *)
Theorem C85_tables_generated :
  (forall d, 1 <= d < 256 -> gen_entry8 d = Some (lookup_divisor8 d)) /\
  (forall d, 1 <= d < 2 ^ 16 -> gen_entry d = Some (lookup_divisor d)) /\
  lookup_divisor8 0 = 0 /\ lookup_divisor 0 = (0, 0).
Proof.
  split; [|split; [|split; reflexivity]].
  - intros d Hd. unfold gen_entry8. cbv zeta. rewrite every_ok.
    + rewrite lookup_divisor8_ok by exact Hd. assert (B : compute_divisor8 d <= 2 ^ 30). { unfold compute_divisor8. change (Z.shiftl 1 24) with (2 ^ 24). rewrite Z.quot_div_nonneg by lia. pose proof (Z.div_le_upper_bound (2 ^ 24) d (2 ^ 24) ltac:(lia) ltac:(lia)). lia. }
      apply Z.leb_le in B. rewrite B. reflexivity.
    + intros m Hm. rewrite Z2Nat.id in Hm by lia. apply Z.eqb_eq. rewrite fast_divide8_u16 by lia. symmetry. apply Z.quot_div_nonneg; lia.
  - intros d Hd. unfold gen_entry. cbv zeta. rewrite every_ok.
    + rewrite lookup_divisor_ok by exact Hd. destruct (compute_divisor d). reflexivity.
    + intros m Hm. rewrite Z2Nat.id in Hm by lia. apply Z.eqb_eq. rewrite Z.shiftl_mul_pow2 by lia.
      assert (R : i32 (m * 2 ^ 15) = m * 2 ^ 15) by (unfold i32; rewrite Z.mod_small by lia; lia). rewrite R.
      rewrite fast_divide_exact by lia. apply Z.quot_div_nonneg; lia.
Qed.
Print Assumptions C85_tables_generated.

(** C85.  So the small division is exact over its whole range, once its result is read as an
    unsigned number; read as the signed number it returns, it is not: 65535 / 1 comes out
    as -1. *)
Theorem C85_small_division : forall n d, 0 <= n < 2 ^ 16 -> 1 <= d < 256 ->
  u16 (fast_divide_16bit_by_8bit n (lookup_divisor8 d)) = n / d.
Proof. intros n d Hn Hd. rewrite lookup_divisor8_ok by exact Hd. apply fast_divide8_u16; assumption. Qed.
Print Assumptions C85_small_division.
Theorem C85_signed_refuted : exists n d, 0 <= n < 2 ^ 16 /\ 1 <= d < 256 /\ fast_divide_16bit_by_8bit n (lookup_divisor8 d) <> n / d.
Proof. exists 65535, 1. split; [lia|]. split; [lia|]. vm_compute. discriminate. Qed.
Print Assumptions C85_signed_refuted.

Example C85_case : lookup_divisor8 7 = 2396746 /\ u16 (fast_divide_16bit_by_8bit 65535 (lookup_divisor8 7)) = 9362 /\ every 1000 64000 (fun num => u16 (fast_divide_16bit_by_8bit num (lookup_divisor8 1)) =? num) = true.
Proof. vm_compute. auto. Qed.
