(** The encoder's run on a copy, dictionary or block switch command. *)
From Verif Require Import Prelude ModelAns ModelCdf SpecCdf ProofCdf ModelMux ProofZlist ModelCmd ModelPriors ModelContextLut ModelCodec ModelLit ModelPm ModelTop SpecCodec ThmPriors ProofCodecInv ProofCodecInv2 ProofRun.

Lemma Qc : forall c v sp, adapted c -> nibble v -> tame sp -> adapted (blend c v (fst sp) (snd sp)).
Proof. exact adapted_blend. Qed.
Definition cnd (p : bk * copy_st) := copy_node (fst p) (snd p).
Definition cwt (d n : Z) (p : bk * copy_st) := copy_want d n (fst p) (snd p).
Lemma cnd_ok b s : Qcopy adapted (b, s) -> c_sub s <> CCountGreater18 -> nok (Qcopy adapted) (cnd (b, s)).
Proof. intros (I & J) N. apply copy_node_ok with (SP := tame); auto using adapted_blend, tame_pos. Qed.
Lemma cwt_put d n b s : 1 <= d -> exists v, cwt d n (b, s) = Put v.
Proof.
  intros H. unfold cwt, copy_want. cbv zeta. destruct (bitlen_spec d ltac:(lia)) as (_ & B).
  cbn [fst snd]. destruct (Z.eqb_spec (bitlen d) 0); [lia|]. eauto.
Qed.
Ltac dl := match goal with |- context[bitlen ?d =? 0] => destruct (Z.eqb_spec (bitlen d) 0); [lia|] end.

(** *** the short codes for distances (C25) *)
Lemma mnemonic_spec lru d : let m := distance_mnemonic_code lru d in
  0 <= m <= 15 /\ (m < 15 -> distance_from_code lru m = (d, true)).
Proof.
  cbv zeta. unfold distance_mnemonic_code.
  match goal with |- context[find ?f ?l] => destruct (find f l) as [i|] eqn:E end; [|lia].
  apply find_some in E. destruct E as (I & E). destruct (distance_from_code lru i) as (item, ok) eqn:EQ.
  apply andb_true_iff in E. destruct E as (E1 & ->). apply Z.eqb_eq in E1. subst item.
  split; [|intros _; reflexivity]. cbn in I. lia.
Qed.

Section CopyRun.
Variables (d n : Z).
Hypothesis HD : 1 <= d < 2 ^ 30.
Hypothesis HN : 0 <= n < 2 ^ 32.
Notation reach := (reaches cnd (cwt d n)).
Definition copied_ok (lru : list Z) (p : bk * copy_st) : Prop := Qcopy adapted p /\ distance_lru (fst p) = lru /\ snd p = CS d n CFully.

Lemma cwt_eq b s : cwt d n (b, s) = Put match c_sub s with
  | CCountSmall => Z.min 15 n
  | CCountFirst => Z.min 15 (wsub8 (bitlen n) 4)
  | CCountGreater18 => wsub8 (bitlen n) 19
  | CCountMant _ lr dsf => mant_nib n dsf (lr - 4)
  | CDistMnemonic => distance_mnemonic_code (distance_lru b) d
  | CDistFirst => if wsub32 (znth (distance_lru b) 1) 3 =? d then 15 else Z.min 14 (bitlen d - 1)
  | CDistGreater14 => wsub8 (bitlen d) 15
  | CDistMant _ lr dsf => mant_nib d dsf (Z.shiftl (Z.shiftr (lr + 3) 2 - 1) 2)
  | _ => 0
  end.
Proof. unfold cwt, copy_want. cbv zeta. cbn [fst snd]. destruct (bitlen_spec d ltac:(lia)) as (_ & B). dl. reflexivity. Qed.

(** distance mantissa *)
Lemma reach_dist_mant lru : forall k b ld dsf, Qcopy adapted (b, CS 0 n (CDistMant ld (4 * (Z.of_nat k + 1)) dsf)) -> distance_lru b = lru ->
  rest_ok d dsf (4 * (Z.of_nat k + 1)) ->
  reach (b, CS 0 n (CDistMant ld (4 * (Z.of_nat k + 1)) dsf)) (copied_ok lru).
Proof.
  induction k as [|k IH]; intros b ld dsf Q L R.
  - set (s := CS 0 n (CDistMant ld (4 * (Z.of_nat 0 + 1)) dsf)) in *.
    assert (E0 : Z.shiftl (Z.shiftr (4 * (Z.of_nat 0 + 1) + 3) 2 - 1) 2 = 0) by reflexivity.
    destruct (mant_step d dsf 0 ltac:(lia) R) as (V & R').
    eapply reaches_by_code; [unfold cnd, copy_node, s; cbn [fst snd c_sub]; cbv zeta; reflexivity|apply cnd_ok; [exact Q|discriminate]|rewrite cwt_eq; unfold s; cbn [c_sub]; rewrite E0; reflexivity|exact V|].
    intros pr. cbv beta. rewrite E0. change (0 =? 0) with true. cbv iota. eexists. split; [reflexivity|]. intros Q'. apply reaches_here.
    split; [exact Q'|]. split; [exact L|]. cbn [snd]. unfold set_dist. cbn [cc_num_bytes]. f_equal. exact (rest_done _ _ R').
  - set (lr := 4 * (Z.of_nat (S k) + 1)) in *. set (s := CS 0 n (CDistMant ld lr dsf)) in *.
    assert (E0 : Z.shiftl (Z.shiftr (lr + 3) 2 - 1) 2 = 4 * (Z.of_nat k + 1)).
    { rewrite Z.shiftl_mul_pow2, Z.shiftr_div_pow2 by lia. change (2 ^ 2) with 4. unfold lr. lia. }
    destruct (mant_step d dsf (4 * (Z.of_nat k + 1)) ltac:(lia)) as (V & R').
    { replace (4 * (Z.of_nat k + 1) + 4) with lr by (unfold lr; lia). exact R. }
    eapply reaches_by_code; [unfold cnd, copy_node, s; cbn [fst snd c_sub]; cbv zeta; reflexivity|apply cnd_ok; [exact Q|discriminate]|rewrite cwt_eq; unfold s; cbn [c_sub]; rewrite E0; reflexivity|exact V|].
    intros pr. cbv beta. rewrite E0. destruct (Z.eqb_spec (4 * (Z.of_nat k + 1)) 0); [lia|]. eexists. split; [reflexivity|]. intros Q'.
    unfold cset in *. unfold s in *. cbn [cc_distance cc_num_bytes] in *. apply IH; [exact Q'|exact L|exact R'].
Qed.
Lemma round_up_k v : 1 <= v -> exists k, round_up_mod_4 v = 4 * (Z.of_nat k + 1).
Proof.
  intros H. destruct (round_up_spec v H) as (A & B). exists (Z.to_nat (round_up_mod_4 v / 4 - 1)). lia.
Qed.
Lemma reach_dist_mant_start lru b L : 1 <= L -> bitlen d = L + 1 -> Qcopy adapted (b, CS 0 n (CDistMant 0 (round_up_mod_4 L) (Z.shiftl 1 L))) ->
  distance_lru b = lru -> reach (b, CS 0 n (CDistMant 0 (round_up_mod_4 L) (Z.shiftl 1 L))) (copied_ok lru).
Proof.
  intros H B Q E. pose proof (round_up_spec L H) as RU. destruct (bitlen_spec d ltac:(lia)) as (BS & _). rewrite B in BS. replace (L + 1 - 1) with L in BS by lia.
  assert (R : rest_ok d (Z.shiftl 1 L) (round_up_mod_4 L)) by (apply rest_start; lia).
  destruct (round_up_k L H) as (k & K). rewrite K in *. apply reach_dist_mant; assumption.
Qed.
Lemma reach_dist_first b lru : Qcopy adapted (b, CS 0 n CDistFirst) -> distance_lru b = lru -> reach (b, CS 0 n CDistFirst) (copied_ok lru).
Proof.
  intros Q L. destruct (bitlen_spec d ltac:(lia)) as (BS & B1). pose proof (bitlen_range d 30 ltac:(lia) ltac:(lia)) as B30.
  set (v := if wsub32 (znth (distance_lru b) 1) 3 =? d then 15 else Z.min 14 (bitlen d - 1)).
  assert (V : nibble v) by (unfold v, nibble; destruct (wsub32 (znth (distance_lru b) 1) 3 =? d); lia).
  eapply reaches_by_code; [unfold cnd, copy_node; cbn [fst snd c_sub]; cbv zeta; reflexivity|apply cnd_ok; [exact Q|discriminate]|rewrite cwt_eq; cbn [c_sub]; reflexivity|exact V|].
  intros pr. cbv beta. fold v. destruct (Z.eqb_spec v 14) as [E14|N14].
  - eexists. split; [reflexivity|]. intros Q'. unfold cset in *. cbn [cc_distance cc_num_bytes] in *.
    assert (BD : 15 <= bitlen d) by (unfold v in E14; destruct (wsub32 (znth (distance_lru b) 1) 3 =? d); lia).
    assert (W : wsub8 (bitlen d) 15 = bitlen d - 15) by (unfold wsub8; lia).
    assert (V2 : nibble (bitlen d - 15)) by (unfold nibble; lia).
    eapply reaches_by_code; [unfold cnd, copy_node; cbn [fst snd c_sub]; cbv zeta; reflexivity|apply cnd_ok; [exact Q'|discriminate]|rewrite cwt_eq; cbn [c_sub]; rewrite W; reflexivity|exact V2|].
    intros pr2. cbv beta. replace (bitlen d - 15 + 14) with (bitlen d - 1) by lia. eexists. split; [reflexivity|]. intros Q2. unfold cset in *. cbn [cc_distance cc_num_bytes] in *.
    apply reach_dist_mant_start; [lia|lia|exact Q2|exact L].
  - destruct (Z.eqb_spec v 15) as [E15|N15].
    + eexists. split; [reflexivity|]. intros Q'. apply reaches_here. split; [exact Q'|]. split; [exact L|].
      cbn [snd]. unfold set_dist. cbn [cc_num_bytes]. f_equal. unfold v in E15. change (distance_lru (set_priors b pr)) with (distance_lru b).
      destruct (Z.eqb_spec (wsub32 (znth (distance_lru b) 1) 3) d) as [EE|]; [exact EE|lia].
    + assert (EV : v = bitlen d - 1) by (unfold v in *; destruct (wsub32 (znth (distance_lru b) 1) 3 =? d); lia).
      destruct (Z.eqb_spec v 0) as [E0|N0].
      * eexists. split; [reflexivity|]. intros Q'. apply reaches_here. split; [exact Q'|]. split; [exact L|].
        cbn [snd]. unfold set_dist. cbn [cc_num_bytes]. f_equal. assert (EB : bitlen d = 1) by lia. rewrite EB in BS. change (2 ^ (1 - 1)) with 1 in BS. change (2 ^ 1) with 2 in BS. lia.
      * eexists. split; [reflexivity|]. intros Q'. unfold cset in *. cbn [cc_distance cc_num_bytes] in *.
        apply reach_dist_mant_start; [lia|lia|exact Q'|exact L].
Qed.
Lemma reach_dist b lru : Qcopy adapted (b, CS 0 n CCountDecoded) -> distance_lru b = lru -> reach (b, CS 0 n CCountDecoded) (copied_ok lru).
Proof.
  intros Q L. eapply reaches_silent; [rewrite cwt_eq; reflexivity|reflexivity|]. cbn [fst snd]. unfold cset; cbn [cc_distance cc_num_bytes].
  assert (Q1 : Qcopy adapted (b, CS 0 n CDistMnemonic)) by (destruct Q as (Q1 & Q2 & Q3); split; [exact Q1|split; [exact Q2|exact Logic.I]]). clear Q.
  destruct (mnemonic_spec (distance_lru b) d) as (M1 & M2).
  eapply reaches_by_code; [unfold cnd, copy_node; cbn [fst snd c_sub]; cbv zeta; reflexivity|apply cnd_ok; [exact Q1|discriminate]|rewrite cwt_eq; cbn [c_sub]; reflexivity|unfold nibble; lia|].
  intros pr. cbv beta. destruct (Z.eqb_spec (distance_mnemonic_code (distance_lru b) d) 15) as [E15|N15].
  - eexists. split; [reflexivity|]. intros Q'. unfold cset in *. cbn [cc_distance cc_num_bytes] in *. apply reach_dist_first; [exact Q'|exact L].
  - change (distance_lru (set_priors b pr)) with (distance_lru b). rewrite M2 by lia. eexists. split; [reflexivity|]. intros Q'.
    apply reaches_here. split; [exact Q'|]. split; [exact L|reflexivity].
Qed.
Lemma reach_count_mant lru : forall k b ld dsf, Qcopy adapted (b, CS 0 0 (CCountMant ld (4 * (Z.of_nat k + 1)) dsf)) -> distance_lru b = lru ->
  rest_ok n dsf (4 * (Z.of_nat k + 1)) ->
  reach (b, CS 0 0 (CCountMant ld (4 * (Z.of_nat k + 1)) dsf)) (copied_ok lru).
Proof.
  induction k as [|k IH]; intros b ld dsf Q L R.
  - change (4 * (Z.of_nat 0 + 1)) with 4 in *.
    destruct (mant_step n dsf 0 ltac:(lia) R) as (V & R').
    eapply reaches_by_code; [unfold cnd, copy_node; cbn [fst snd c_sub]; cbv zeta; reflexivity|apply cnd_ok; [exact Q|discriminate]|rewrite cwt_eq; cbn [c_sub]; change (4 - 4) with 0; reflexivity|exact V|].
    intros pr. cbv beta. change (4 - 4) with 0. change (0 =? 0) with true. cbv iota. eexists. split; [reflexivity|]. intros Q'.
    unfold set_num in *. cbn [cc_distance] in *. rewrite (rest_done _ _ R') in *. apply reach_dist; [exact Q'|exact L].
  - set (lr := 4 * (Z.of_nat (S k) + 1)) in *. 
    assert (E0 : lr - 4 = 4 * (Z.of_nat k + 1)) by (unfold lr; lia).
    destruct (mant_step n dsf (4 * (Z.of_nat k + 1)) ltac:(lia)) as (V & R').
    { replace (4 * (Z.of_nat k + 1) + 4) with lr by (unfold lr; lia). exact R. }
    eapply reaches_by_code; [unfold cnd, copy_node; cbn [fst snd c_sub]; cbv zeta; reflexivity|apply cnd_ok; [exact Q|discriminate]|rewrite cwt_eq; cbn [c_sub]; rewrite E0; reflexivity|exact V|].
    intros pr. cbv beta. rewrite E0. destruct (Z.eqb_spec (4 * (Z.of_nat k + 1)) 0); [lia|]. eexists. split; [reflexivity|]. intros Q'.
    unfold cset in *. cbn [cc_distance cc_num_bytes] in *. apply IH; [exact Q'|exact L|exact R'].
Qed.
Lemma reach_count_mant_start lru b L : 3 <= L -> bitlen n = L + 1 -> Qcopy adapted (b, CS 0 0 (CCountMant 0 (round_up_mod_4 L) (Z.shiftl 1 L))) ->
  distance_lru b = lru -> reach (b, CS 0 0 (CCountMant 0 (round_up_mod_4 L) (Z.shiftl 1 L))) (copied_ok lru).
Proof.
  intros H B Q E. pose proof (round_up_spec L ltac:(lia)) as RU.
  assert (N0 : 0 < n) by (unfold bitlen in B; destruct (Z.eqb_spec n 0); lia).
  destruct (bitlen_spec n N0) as (BS & _). rewrite B in BS. replace (L + 1 - 1) with L in BS by lia.
  assert (R : rest_ok n (Z.shiftl 1 L) (round_up_mod_4 L)) by (apply rest_start; lia).
  destruct (round_up_k L ltac:(lia)) as (k & K). rewrite K in *. apply reach_count_mant; assumption.
Qed.
Lemma copy_run b : binv b -> reach (b, copy_begin) (copied_ok (distance_lru b)).
Proof.
  intros I. assert (Q : Qcopy adapted (b, CS 0 0 CCountSmall)) by (split; [exact I|split; [cbn; lia|exact Logic.I]]).
  eapply reaches_silent; [unfold copy_begin; rewrite cwt_eq; reflexivity|reflexivity|]. cbn [fst snd]. unfold cset; cbn [copy_begin cc_distance cc_num_bytes].
  eapply reaches_by_code; [unfold cnd, copy_node; cbn [fst snd c_sub]; cbv zeta; reflexivity|apply cnd_ok; [exact Q|discriminate]|rewrite cwt_eq; cbn [c_sub]; reflexivity|unfold nibble; lia|].
  intros pr. cbv beta. destruct (Z.eqb_spec (Z.min 15 n) 15) as [E15|N15].
  - eexists. split; [reflexivity|]. intros Q1. unfold cset in *. cbn [cc_distance cc_num_bytes] in *. clear Q.
    pose proof (bitlen_ge n 3 ltac:(lia) ltac:(change (2 ^ 3) with 8; lia)) as B4. pose proof (bitlen_range n 32 ltac:(lia) HN) as B32.
    assert (W : wsub8 (bitlen n) 4 = bitlen n - 4) by (unfold wsub8; lia).
    eapply reaches_by_code; [unfold cnd, copy_node; cbn [fst snd c_sub]; cbv zeta; reflexivity|apply cnd_ok; [exact Q1|discriminate]|rewrite cwt_eq; cbn [c_sub]; rewrite W; reflexivity|unfold nibble; lia|].
    intros pr1. cbv beta. destruct (Z.eqb_spec (Z.min 15 (bitlen n - 4)) 15) as [G15|L15].
    + eexists. split; [reflexivity|]. intros Q2. unfold cset in *. cbn [cc_distance cc_num_bytes] in *.
      assert (W2 : wsub8 (bitlen n) 19 = bitlen n - 19) by (unfold wsub8; lia).
      set (b2 := set_priors _ pr1) in *.
      destruct (copy_greater18_ok adapted tame adapted_blend tame_pos b2 _ (proj1 Q2) (proj2 Q2) eq_refl) as (dd & k & EN & Pd & K).
      destruct (K (bitlen n - 19) ltac:(unfold nibble; lia)) as (K1 & _). destruct (K1 ltac:(lia)) as (q & Eq & Qq).
      eapply reaches_code; [rewrite cwt_eq; cbn [c_sub]; rewrite W2; reflexivity|exact EN|unfold nibble; lia|apply src_codable; left; exact Pd|exact Eq|].
      unfold copy_node in EN. cbv zeta in EN. cbn [snd c_sub] in EN. unfold code in EN. destruct (prior_index _ _ _); [|discriminate].
      injection EN as _ <-. cbv beta in Eq. destruct (Z.ltb_spec (bitlen n - 19 + 18) 32); [|lia]. injection Eq as <-.
      replace (bitlen n - 19 + 18) with (bitlen n - 1) in * by lia. unfold cset in *. cbn [cc_distance cc_num_bytes snd] in *.
      apply reach_count_mant_start; [lia|lia|exact Qq|reflexivity].
    + eexists. split; [reflexivity|]. intros Q2. unfold cset in *. cbn [cc_distance cc_num_bytes] in *.
      replace (Z.min 15 (bitlen n - 4) + 3) with (bitlen n - 1) in * by lia. apply reach_count_mant_start; [lia|lia|exact Q2|reflexivity].
  - eexists. split; [reflexivity|]. intros Q1. unfold set_num in *. cbn [cc_distance] in *. replace (Z.min 15 n) with n in * by lia.
    apply reach_dist; [exact Q1|reflexivity].
Qed.
End CopyRun.
