(** Property theorems C04-C08 and C44 (nibble distributions). *)
From Verif Require Import Prelude ModelAns SpecAns ModelCdf SpecCdf ProofCdf.

(** C04.  In a codable distribution every symbol owns a legal interval whose
    every offset is looked up to that symbol and interval ([codes], the
    hypothesis of C01), and intervals of different symbols are disjoint. *)
Theorem C04_intervals_sound : forall c s, codable c -> nibble s ->
  codes (ref_lookup c) s (ref_interval c s).
Proof. exact (fun c s C N => codable_codes _ c s C (divides_ref c (proj1 (proj1 (proj2 C)))) N). Qed.
Print Assumptions C04_intervals_sound.

Theorem C04_intervals_disjoint : forall c s t, codable c -> nibble s -> nibble t -> s < t ->
  fst (ref_interval c s) + snd (ref_interval c s) < fst (ref_interval c t).
Proof.
  exact (fun c s t C Ns Nt H => intervals_ordered _ c s t C (divides_ref c (proj1 (proj1 (proj2 C)))) Ns Nt H).
Qed.
Print Assumptions C04_intervals_disjoint.

(** a skewed distribution at the boundary: fifteen symbols of weight 1 *)
Example C04_example : codable [1; 2; 3; 4; 5; 6; 7; 8; 9; 10; 11; 12; 13; 14; 15; 16384].
Proof.
  split; [reflexivity|]. split; [vm_compute; split; [reflexivity|discriminate]|].
  intros s N. destruct (nibble_cases s N) as [->|[->|[->|[->|[->|[->|[->|[->|[->|[->|[->|[->|[->|[->|[->| ->]]]]]]]]]]]]]]];
    vm_compute; discriminate.
Qed.
(** and one more unit of total would leave a symbol without room *)
Example C04_tight :
  snd (ref_interval [1; 2; 3; 4; 5; 6; 7; 8; 9; 10; 11; 12; 13; 14; 15; 16386] 0) = 0.
Proof. vm_compute. reflexivity. Qed.

(** C05.  Whatever the history, the distribution stays codable. *)
Theorem C05_adaptation_codable : forall h, hist_ok h -> codable (run_ref h).
Proof. exact (fun h H => base_codable _ (run_ref_ok h H)). Qed.
Print Assumptions C05_adaptation_codable.

(** The bit-wise distribution never panics and its counts never vanish. *)
Theorem C05_bit_adaptation : forall l, exists c, cdf2_run cdf2_default l = Some c /\
  1 <= c2_f c <= 255 /\ 1 <= c2_t c <= 255 /\ 0 <= c2_prob c <= 255.
Proof. exact (fun l => cdf2_run_ok l cdf2_default ltac:(vm_compute; intuition discriminate)). Qed.
Print Assumptions C05_bit_adaptation.

(** every built-in speed is within the bounds of [hist_ok] *)
Example C05_palette : forallb (fun p => (0 <=? fst p) && (fst p <=? 5444) && (snd p <=? 16384))
  (ENCODER_DEFAULT_PALETTE ++ NAMED_SPEEDS) = true.
Proof. vm_compute. reflexivity. Qed.
Example C05_example : hist_ok (Seen (Seen (Seen Fresh 3 1664 16384) 15 5444 16384) 0 16 48).
Proof. cbn [hist_ok]. unfold nibble. repeat split; lia. Qed.

(** Finding: speeds the textual parser accepts (lim <= 16384, inc < 16384) can
    destroy the distribution: after three updates the total has wrapped
    negative, so no symbol can be coded. *)
Theorem C05_documented_speeds_refuted : exists inc lim h,
  from_str_accepts inc lim = true /\
  h = Seen (Seen (Seen Fresh 0 inc lim) 0 inc lim) 0 inc lim /\ total (run_ref h) < 0.
Proof.
  exact (ex_intro _ 16383 (ex_intro _ 16384 (ex_intro _ _ (conj eq_refl (conj eq_refl eq_refl))))).
Qed.
Print Assumptions C05_documented_speeds_refuted.

(** C06.  The table-driven implementation answers every query like the
    reference one, after any history, mixed or not. *)
Theorem C06_opt_equals_reference : forall d, dist_ok d ->
  (forall s, nibble s -> opt_interval (eval_opt d) s = ref_interval (eval_ref d) s) /\
  (forall off, opt_lookup (eval_opt d) off = ref_lookup (eval_ref d) off).
Proof. exact opt_eq_ref. Qed.
Print Assumptions C06_opt_equals_reference.
Example C06_example : dist_ok (Mixed (Seen Fresh 3 384 16384) (Seen (Seen Fresh 7 16 48) 7 16 48) 12345).
Proof. cbn [dist_ok hist_ok]. unfold nibble. repeat split; lia. Qed.

(** C07.  The division of the code, with the table of the code, is division. *)
Theorem C07_fast_division_exact : forall n d, 0 <= n < 2 ^ 31 -> 1 <= d < 2 ^ 16 ->
  fast_divide_30bit_by_16bit n (lookup_divisor d) = n / d.
Proof.
  exact (fun n d Hn Hd => eq_trans (f_equal (fast_divide_30bit_by_16bit n) (lookup_divisor_ok d Hd))
                                   (fast_divide_exact n d Hn Hd)).
Qed.
Print Assumptions C07_fast_division_exact.
Theorem C07_fast_division8_exact : forall n d, 0 <= n < 2 ^ 16 -> 1 <= d < 256 -> n / d < 2 ^ 15 ->
  fast_divide_16bit_by_8bit n (lookup_divisor8 d) = n / d.
Proof.
  exact (fun n d Hn Hd Hq => eq_trans (f_equal (fast_divide_16bit_by_8bit n) (lookup_divisor8_ok d Hd))
                                   (fast_divide8_exact n d Hn Hd Hq)).
Qed.
Print Assumptions C07_fast_division8_exact.
Example C07_example : fast_divide_30bit_by_16bit 1829347323 (lookup_divisor 31604) = 57883.
Proof. vm_compute. reflexivity. Qed.

(** C08.  A mixture of any two reachable distributions at any rate is codable. *)
Theorem C08_mixture_codable : forall h1 h2 mix, hist_ok h1 -> hist_ok h2 -> 0 <= mix <= 2 ^ 15 ->
  codable (average (run_ref h1) (run_ref h2) mix).
Proof. exact (fun h1 h2 mix H1 H2 M => dist_codable (Mixed h1 h2 mix) (conj H1 (conj H2 M))). Qed.
Print Assumptions C08_mixture_codable.

(** C44.  Every speed of at most four significant bits (below 12288, or 16384)
    survives its one-byte serialisation; the others lose at most 1/8. *)
Theorem C44_speed_exact : forall m k, 0 <= m < 16 -> 0 <= k -> m * 2 ^ k < 12288 \/ m * 2 ^ k = 16384 ->
  u8_to_speed (speed_to_u8 (m * 2 ^ k)) = Some (m * 2 ^ k).
Proof. exact speed_roundtrip_exact. Qed.
Print Assumptions C44_speed_exact.
Theorem C44_speed_approx : forall v, 0 <= v < 12288 \/ v = 16384 ->
  exists w, u8_to_speed (speed_to_u8 v) = Some w /\ w <= v /\ 8 * (v - w) <= v.
Proof. exact speed_roundtrip_approx. Qed.
Print Assumptions C44_speed_approx.
Example C44_palette : forallb (fun v => match u8_to_speed (speed_to_u8 v) with Some w => w =? v | None => false end)
  (map fst (ENCODER_DEFAULT_PALETTE ++ NAMED_SPEEDS) ++ map snd (ENCODER_DEFAULT_PALETTE ++ NAMED_SPEEDS)) = true.
Proof. vm_compute. reflexivity. Qed.
(** Finding: 12288 = 3 * 2^12 has two significant bits but is destroyed. *)
Theorem C44_speed_range_refuted : speed_to_u8 (3 * 2 ^ 12) = 252 /\ u8_to_speed 252 = None.
Proof. exact (conj eq_refl eq_refl). Qed.
Print Assumptions C44_speed_range_refuted.
