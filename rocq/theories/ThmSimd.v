(** Property theorem C49: builds with SIMD distributions and builds without are
    interchangeable. *)
From Verif Require Import Prelude ModelAns SpecAns ModelCdf ModelSimd SpecCdf SpecSimd ProofCdf ProofSimd.

(** C49.  After any history, alone or mixed, the SIMD distribution answers every query
    like the reference one, with each of the three lookups (portable, AVX2, SSE). *)
Theorem C49_simd_equals_reference : forall d, dist_ok d ->
  (forall s, nibble s -> simd_interval (eval_simd d) s = ref_interval (eval_ref d) s) /\
  (forall off, 0 <= off < 2 ^ 15 ->
     simd_lookup sym_portable (eval_simd d) off = ref_lookup (eval_ref d) off /\
     simd_lookup sym_avx2 (eval_simd d) off = ref_lookup (eval_ref d) off /\
     simd_lookup sym_sse (eval_simd d) off = ref_lookup (eval_ref d) off).
Proof.
  intros d H. rewrite (eval_simd_eq d H). pose proof (dist_codable d H) as C. split.
  - intros s N. now apply simd_interval_eq.
  - intros off O. split; [|split]; apply simd_lookup_eq; auto; intros n Hn; apply (sym_of_mask n Hn).
Qed.
Print Assumptions C49_simd_equals_reference.
(** The division in double precision is exact division. *)
Theorem C49_double_division_exact : forall a b, 0 <= a < 2 ^ 31 -> 1 <= b < 2 ^ 16 -> f64_trunc (f64_div a b) = a / b.
Proof. exact f64_exact. Qed.
Print Assumptions C49_double_division_exact.
Example C49_case :
  let d := Mixed (Seen (Seen Fresh 3 1664 16384) 9 384 48) (Seen (Seen Fresh 7 16 48) 7 16 48) 12345 in
  dist_ok d /\ simd_interval (eval_simd d) 9 = (24055, 3044) /\ simd_lookup sym_portable (eval_simd d) 25000 = (9, 24055, 3044) /\
  f64_div 1 3 = (6004799503160661, -54).
Proof. split; [cbn [dist_ok hist_ok]; unfold nibble; repeat split; lia|]. vm_compute. repeat split; reflexivity. Qed.
