(** C81: measuring what is coded. *)
From Verif Require Import Prelude ModelAns SpecAns ModelMux ModelCdf SpecCdf ProofCdf SpecCost ModelMeasure SpecMeasure ProofMeasure.

(** C81, the optimiser's estimate.  After every history of nibbles, snapshots and resets the
    tallying encoder's cost is the price of what was counted and not reset, and the delta
    the price of what was counted since the last snapshot; coding a nibble reports the
    interval the real encoder would use. *)
Theorem C81_tally : forall unit lg ops, Forall tally_op_ok ops ->
  let t := fold_left (tally_step unit lg) ops tally_new in
  let '(kept, since) := counted ops [] [] in
  total_cost t = price unit lg (kept ++ since) /\ snapshot_delta t = price unit lg since.
Proof.
  intros unit lg ops F. pose proof (tally_inv unit lg ops F [] [] tally_new eq_refl eq_refl) as H. cbn zeta in *.
  destruct (counted ops [] []) as [kept since]. destruct H as (S & C). unfold total_cost, snapshot_delta. rewrite price_app. split; lia.
Qed.
Print Assumptions C81_tally.
(** A codec has two tallying encoders, for commands and for literals, whose histories are
    independent (only the first if another thread has the literals): its delta and its total
    are the price of what both counted. *)
Theorem C81_codec : forall unit lg ops lit_ops, Forall tally_op_ok ops -> Forall tally_op_ok lit_ops ->
  let t := fold_left (tally_step unit lg) ops tally_new in let tl := fold_left (tally_step unit lg) lit_ops tally_new in
  let '(kept, since) := counted ops [] [] in let '(lkept, lsince) := counted lit_ops [] [] in
  codec_delta t None = price unit lg since /\ codec_delta t (Some tl) = price unit lg (since ++ lsince) /\
  codec_total t None = price unit lg (kept ++ since) /\ codec_total t (Some tl) = price unit lg (kept ++ since ++ lkept ++ lsince).
Proof.
  intros unit lg ops lops F FL. pose proof (C81_tally unit lg ops F) as A. pose proof (C81_tally unit lg lops FL) as B. cbn zeta in *.
  destruct (counted ops [] []) as [kept since]. destruct (counted lops [] []) as [lkept lsince]. destruct A as (A1 & A2). destruct B as (B1 & B2).
  unfold codec_delta, codec_total. rewrite A1, A2, B1, B2, !price_app. repeat split; lia.
Qed.
Print Assumptions C81_codec.

(** ... and the price is the size.  If the logarithm used never exceeds the true one, the
    real encoder's output for the same intervals is at most the price and 130 bits per group
    of 65536; if it never falls below, the output is at least the price and 60 bits per
    group. *)
Theorem C81_estimate : forall unit lg l out, 0 < unit -> Forall (fun p => legal (fst p) (snd p)) l -> ans_encode l = Some out ->
  (rounds_down unit lg -> unit * (8 * zlen out) <= price unit lg l + unit * (130 * groups (count l))) /\
  (rounds_up unit lg -> price unit lg l + unit * (60 * groups (count l)) <= unit * (8 * zlen out)).
Proof. intros unit lg l out U F E. split; intros R; [apply estimate_down|apply estimate_up]; assumption. Qed.
Print Assumptions C81_estimate.
(** both kinds of logarithm exist in every unit *)
Theorem C81_logarithms : forall unit, 0 <= unit -> rounds_down unit (fun f => Z.log2 (f ^ unit)) /\ rounds_up unit (fun f => Z.log2_up (f ^ unit)).
Proof. intros unit U. split; [apply log2_down|apply log2_up_up]; exact U. Qed.
Print Assumptions C81_logarithms.

(** Single bits are tallied wrongly: a bit that is false with probability 250/256 is charged
    as if it had 639/32768, and a true bit at probability of false 0 is charged less than
    nothing (frequency 65535 of 32768). *)
Theorem C81_bits_refuted :
  snd (bit_start_freq false 250) = 32000 /\ bit_freq false 250 = 639 /\ bit_freq true 250 = 31999 /\ snd (bit_start_freq true 250) = 768 /\ u16 (bit_freq true 0) = 65535.
Proof. repeat split. Qed.
Print Assumptions C81_bits_refuted.

(** C81, billing.  Over any coder, for every sequence of calls: the wrapper panics exactly
    when the coder does, gives the same answers and leaves the coder in the same state; the
    total is the sum of the bill, and every designation's entry the sum of its items. *)
Theorem C81_billing : forall (K I O R : Type) k_nibble k_bit k_has_data (k_drain : K -> I -> O -> option (K * I * O * R)) k_close unit lg bits_of_bit (k : K) calls,
  let alone := plain_calls k_nibble k_bit k_has_data k_drain k_close k calls in
  let billed := billed_calls k_nibble k_bit k_has_data k_drain k_close unit lg bits_of_bit (billing_new k) calls in
  match alone with
  | None => billed = None
  | Some (k', answers) => exists b, billed = Some (b, answers) /\ b_coder b = k' /\
      ((forall k n c k2 n2 r, k_nibble k n c = Some (k2, n2, r) -> nibble n2) ->
       let items := bill unit lg bits_of_bit calls answers in
       get_total b = (bits items, vbits items) /\
       NoDup (map fst (b_counter b)) /\
       forall d, bits (for_designation d (b_counter b)) = bits (for_designation d items) /\ vbits (for_designation d (b_counter b)) = vbits (for_designation d items))
  end.
Proof.
  intros K I O R kn kb kh kd kc unit lg bob k calls. cbn zeta. pose proof (billed_run kn kb kh kd kc unit lg bob calls (billing_new k)) as H. cbn [billing_new b_coder b_counter] in H.
  destruct (plain_calls kn kb kh kd kc k calls) as [[k' a]|]; [|exact H]. destruct H as (b & E & <- & C). exists b. split; [exact E|]. split; [reflexivity|]. intros N. specialize (C N).
  destruct (charges_all (bill unit lg bob calls a) [] (NoDup_nil _)) as (ND & B & V & D). rewrite <- C in ND, B, V, D. split; [|split; [exact ND|]].
  - unfold get_total. rewrite total_fold. cbn [fst snd]. change (bits []) with 0 in B. change (vbits []) with 0 in V. rewrite B, V. f_equal; lia.
  - intros d. destruct (D d) as (D1 & D2). change (bits (for_designation d [])) with 0 in D1. change (vbits (for_designation d [])) with 0 in D2. lia.
Qed.
Print Assumptions C81_billing.
(** The bill uses the share of the distribution, the coder the interval on its own scale:
    the interval is smaller than the share, by less than two units of the scale. *)
Theorem C81_billed_and_coded : forall c s, codable c -> nibble s ->
  let f := snd (ref_interval c s) in f * total c < share c s * 2 ^ 15 < (f + 2) * total c.
Proof.
  intros c s C N. cbn zeta. pose proof C as (_ & T & _). unfold ref_interval. rewrite (interval_eq _ c s C (divides_ref c ltac:(lia)) N). cbn [snd]. unfold bnd, share.
  pose proof (Z.mul_div_le (cumul c (s - 1) * 2 ^ 15) (total c) ltac:(lia)). pose proof (Z.mul_succ_div_gt (cumul c (s - 1) * 2 ^ 15) (total c) ltac:(lia)).
  pose proof (Z.mul_div_le (cumul c s * 2 ^ 15) (total c) ltac:(lia)). pose proof (Z.mul_succ_div_gt (cumul c s * 2 ^ 15) (total c) ltac:(lia)). lia.
Qed.
Print Assumptions C81_billed_and_coded.

(** C81, trying every speed.  After every history the distribution in use is the one without
    the wrapper, alone or mixed with another; the cost of variant [i] is what coding the
    same symbols would have cost with every update at the palette's speed [i]. *)
Theorem C81_speeds : forall lg h, hist_ok h ->
  variant_base (run_variant lg h) = run_ref h /\
  base_variant_cost (run_variant lg h) = history_cost lg h /\
  (forall i inc lim, nth_error ENCODER_DEFAULT_PALETTE i = Some (inc, lim) -> variant_cost (run_variant lg h) i = history_cost lg (at_speed h inc lim)) /\
  (forall h2 mix, hist_ok h2 -> variant_base (variant_average (run_variant lg h) (run_variant lg h2) mix) = eval_ref (Mixed h h2 mix)).
Proof.
  intros lg h H. rewrite (variant_run lg h H). split; [reflexivity|]. split; [reflexivity|]. split.
  - intros i inc lim E. unfold variant_cost. cbn [v_cost]. rewrite Nat.add_1_r. cbn [nth].
    apply (map_nth_error (fun s => history_cost lg (at_speed h (fst s) (snd s)))) in E. cbn [fst snd] in E. apply nth_error_nth. exact E.
  - intros h2 mix H2. rewrite (variant_run lg h2 H2). reflexivity.
Qed.
Print Assumptions C81_speeds.

(** Tallying with a snapshot taken and half of what follows thrown away; billing a coder
    that flips bits; three symbols at all speeds. *)
Example C81_case_tally :
  let ops := [TNibble cdf_default 3; TSnapshot; TNibble cdf_default 4; TReset; TNibble (run_ref (Seen Fresh 3 384 16384)) 3] in
  Forall tally_op_ok ops /\ counted ops [] [] = ([(6145, 2047)], [(878, 28379)]).
Proof.
  cbn zeta. split; [|vm_compute; reflexivity].
  assert (N3 : nibble 3) by (unfold nibble; lia). assert (N4 : nibble 4) by (unfold nibble; lia).
  assert (C0 : codable cdf_default) by (apply base_codable, (run_ref_ok Fresh); exact Logic.I).
  assert (C1 : codable (run_ref (Seen Fresh 3 384 16384))) by (apply base_codable, run_ref_ok; cbn [hist_ok]; split; [exact Logic.I|split; [exact N3|lia]]).
  repeat (apply Forall_cons; [cbn [tally_op_ok]; try exact Logic.I; split; assumption|]). apply Forall_nil.
Qed.
Example C81_case_billing :
  let kn := fun (k : Z) (n : Z) (c : list Z) => Some (k + 1, 15 - Z.land n 15, (0, 1)) in
  let kb := fun (k : Z) (b : bool) (p : Z) => Some (k + 1, negb b) in
  let calls := [CNibble 3 cdf_default 7; CBitPlain true 200; CNibble 12 cdf_default 7; CMov; CHasData] in
  let r := @billed_calls Z Z Z Z kn kb (fun k => 2 <? k) (fun k i o => Some (k, i, o, 0)) (fun k => Some (k, 0)) 1 Z.log2 (fun p b => if b then 5 else 1) (billing_new 0) calls in
  match r with Some (b, a) => b_coder b = 3 /\ a = [ANibble 12 (0, 1); ABit false; ANibble 3 (0, 1); AMov; AHasData true] /\ b_counter b = [(7, (8, 8)); (0, (1, 1))] /\ get_total b = (9, 9) | None => False end.
Proof. vm_compute. repeat split. Qed.
Example C81_case_speeds :
  let h := Seen (Seen (Seen Fresh 3 384 16384) 3 384 16384) 5 384 16384 in
  hist_ok h /\ variant_base (run_variant Z.log2 h) = run_ref h /\ base_variant_cost (run_variant Z.log2 h) = 11 /\ variant_cost (run_variant Z.log2 h) 14 = 13.
Proof. cbn zeta. split; [cbn [hist_ok]; unfold nibble; lia|]. vm_compute. repeat split. Qed.
