(** The encoder's run on a literal command. *)
From Verif Require Import Prelude ModelAns ModelCdf SpecCdf ProofCdf ModelMux ProofZlist ModelCmd ModelPriors ModelContextLut ModelCodec ModelLit ModelPm ModelTop SpecCodec ThmPriors ProofCodecInv ProofCodecInv2 ProofRun ProofCopy.

Lemma code_nibble_shape {S} (Q : S -> Prop) mix l high h (k : lbk -> Z -> outcome S) v : nok Q (code_nibble mix l high h k) -> nibble v ->
  exists d kk l', code_nibble mix l high h k = Code LIT d kk /\ src_ok adapted d /\ kk v = k l' v /\ oc_ok Q (kk v).
Proof.
  intros N V. unfold code_nibble in *. cbv zeta in *. destruct (mm_opts_of l high h) as [m|]; [|destruct N].
  set (tbl := if high then LitHighP else LitLowP) in *. destruct (prior_index tbl CombinedNibble (nibble_index l high h m)) as [i|]; [|destruct N].
  destruct mix; cbn [negb] in *.
  - destruct (if high then prior_index LitCmP CmFirstNibble [0; actual_context l] else prior_index LitCmP CmSecondNibble [0; h; actual_context l]) as [j|]; [|destruct N].
    cbn [node_ok] in N. destruct N as (N1 & N2). specialize (N2 v V). eexists _, _.
    destruct (should_mix (if high then wt_high l else wt_low l)) eqn:E; cbn [negb] in *; [|destruct N2].
    destruct (nth_pair _ (if high then 3 else 2)) as (inc, lim) eqn:E2.
    eexists. split; [reflexivity|]. split; [exact N1|]. rewrite E2. split; [reflexivity|exact N2].
  - cbn [node_ok] in N. destruct N as (N1 & N2). specialize (N2 v V). eexists _, _, _. split; [reflexivity|]. split; [exact N1|]. split; [reflexivity|exact N2].
Qed.

Lemma nib_split x : byte x -> nibble (Z.shiftr x 4) /\ nibble (Z.land x 15) /\ Z.lor (Z.land x 15) (Z.shiftl (Z.shiftr x 4) 4) = x.
Proof.
  intros X. unfold byte, nibble in *. split; [rewrite Z.shiftr_div_pow2 by lia; change (2 ^ 4) with 16; lia|]. split; [apply land15|].
  change 15 with (2 ^ 4 - 1). rewrite land_mask by lia. rewrite Z.shiftr_div_pow2 by lia. change (2 ^ 4) with 16.
  rewrite lor_shift_add by (try change (2 ^ 4) with 16; lia). change (2 ^ 4) with 16. lia.
Qed.
Lemma zfirst_snoc (l : list Z) i : 0 <= i < zlen l -> zfirst i l ++ [znth l i] = zfirst (i + 1) l.
Proof.
  intros H. rewrite zfirst_plus by lia. f_equal. unfold zfirst, zskip, znth, zlen in *. change (Z.to_nat 1) with 1%nat.
  rewrite <- (firstn_skipn (Z.to_nat i) l) at 1. rewrite app_nth2 by (rewrite firstn_length; lia).
  rewrite firstn_length. replace (Z.to_nat i - Nat.min (Z.to_nat i) (length l))%nat with 0%nat by lia.
  destruct (skipn (Z.to_nat i) l) as [|x r] eqn:E; [|reflexivity].
  exfalso. assert (length (skipn (Z.to_nat i) l) = 0%nat) by (rewrite E; reflexivity). rewrite skipn_length in H0. lia.
Qed.

Section LitRun.
Variables (mix : bool) (data : list Z) (he : bool).
Hypothesis HB : bytes data.
Hypothesis HL : 1 <= zlen data <= 2 ^ 30 + 14.
Definition tnd (p : bk * lbk * lit_st) := lit_node mix (fst (fst p)) (snd (fst p)) (snd p).
Definition twt (p : bk * lbk * lit_st) := lit_want data he (snd p).
Notation reach := (reaches tnd twt).
Notation QL := (Qlit adapted tame mix).
Lemma tnd_ok p : QL p -> nok QL (tnd p).
Proof. intros (I & L & X & J). apply lit_node_ok; auto using adapted_blend, tame_pos, adapted0. Qed.
Definition lit_done (p : bk * lbk * lit_st) : Prop := QL p /\ snd p = LS data (zlen data) he LFully.
Ltac go Q := eapply reaches_by_code; [unfold tnd, lit_node; cbn [fst snd l_sub]; cbv zeta; reflexivity|apply tnd_ok; exact Q|unfold twt, lit_want; cbn [snd l_sub]; cbv zeta; reflexivity| |].
Lemma reach_nibble (G : bk * lbk * lit_st -> Prop) b l s high h k v : tnd (b, l, s) = code_nibble mix l high h k -> QL (b, l, s) -> twt (b, l, s) = Put v -> nibble v ->
  (forall l', exists s', k l' v = Next s' /\ (QL s' -> reach s' G)) -> reach (b, l, s) G.
Proof.
  intros E Q W V K. pose proof (tnd_ok _ Q) as N. rewrite E in N. destruct (code_nibble_shape QL mix l high h k v N V) as (d & kk & l' & E2 & S & E3 & O).
  destruct (K l') as (s' & E4 & R). rewrite E3, E4 in O. cbn [oc_ok] in O.
  eapply reaches_code; [exact W|rewrite E; exact E2|exact V|apply src_codable; exact S|rewrite E3; exact E4|exact (R O)].
Qed.
Lemma reach_bytes : forall k i b l, zlen data - i = Z.of_nat (S k) -> 0 <= i ->
  QL (b, l, LS (zfirst i data) (zlen data) he (LNibble i)) -> reach (b, l, LS (zfirst i data) (zlen data) he (LNibble i)) lit_done.
Proof.
  induction k as [|k IH]; intros i b l E H Q.
  all: assert (GX : zget data i = Some (znth data i)) by (apply zget_some; lia);
    assert (BX : byte (znth data i)) by (apply Forall_znth; [exact HB|exact byte0]);
    destruct (nib_split _ BX) as (N1 & N2 & N3);
    eapply reach_nibble; [unfold tnd, lit_node; cbn [fst snd l_sub]; cbv zeta; reflexivity|exact Q|unfold twt, lit_want; cbn [snd l_sub]; cbv zeta; rewrite GX; reflexivity|exact N1|];
    intros l1; eexists; split; [reflexivity|]; intros Q1; unfold lset in *; cbn [l_data l_len l_high_entropy] in *;
    eapply reach_nibble; [unfold tnd, lit_node; cbn [fst snd l_sub]; cbv zeta; reflexivity|exact Q1|unfold twt, lit_want; cbn [snd l_sub]; cbv zeta; rewrite GX; reflexivity|exact N2|];
    intros l2; eexists; split; [reflexivity|]; cbn [l_data l_len l_high_entropy] in *; rewrite N3, zfirst_snoc by lia.
  - destruct (Z.eqb_spec (i + 1) (zlen data)); [|lia]. intros Q2. apply reaches_here. split; [exact Q2|]. cbn [snd]. rewrite zfirst_all by lia. reflexivity.
  - destruct (Z.eqb_spec (i + 1) (zlen data)); [lia|]. intros Q2. apply IH; [lia|lia|exact Q2].
Qed.
Lemma reach_content b l s : l_high_entropy s = he -> QL (b, l, lsized s (zlen data)) -> reach (b, l, lsized s (zlen data)) lit_done.
Proof.
  intros HE. unfold lsized. rewrite HE. intros Q. destruct (Z.to_nat (zlen data)) as [|k] eqn:E; [lia|].
  change (@nil Z) with (zfirst 0 data). apply (reach_bytes k); [lia|lia|]. exact Q.
Qed.
Lemma reach_len_mant : forall k b l dsf, QL (b, l, LS [] 0 he (LCountMant (4 * (Z.of_nat k + 1)) dsf)) ->
  15 <= zlen data -> rest_ok (zlen data - 15) dsf (4 * (Z.of_nat k + 1)) -> reach (b, l, LS [] 0 he (LCountMant (4 * (Z.of_nat k + 1)) dsf)) lit_done.
Proof.
  induction k as [|k IH]; intros b l dsf Q H15 R; assert (WS : wsub32 (zlen data) 15 = zlen data - 15) by (unfold wsub32; lia).
  - change (4 * (Z.of_nat 0 + 1)) with 4 in *. destruct (mant_step _ dsf 0 ltac:(lia) R) as (V & R').
    go Q; [rewrite WS; change (4 - 4) with 0; exact V|]. intros pr. rewrite WS. change (4 - 4) with 0. change (0 =? 0) with true. cbv beta iota. eexists. split; [reflexivity|].
    rewrite (rest_done _ _ R'). replace (zlen data - 15 + 15) with (zlen data) by lia. apply reach_content; reflexivity.
  - set (lr := 4 * (Z.of_nat (S k) + 1)) in *. assert (E0 : lr - 4 = 4 * (Z.of_nat k + 1)) by (unfold lr; lia).
    destruct (mant_step (zlen data - 15) dsf (4 * (Z.of_nat k + 1)) ltac:(lia)) as (V & R').
    { replace (4 * (Z.of_nat k + 1) + 4) with lr by (unfold lr; lia). exact R. }
    go Q; [rewrite WS, E0; exact V|]. intros pr. rewrite WS, E0. cbv beta. destruct (Z.eqb_spec (4 * (Z.of_nat k + 1)) 0); [lia|].
    eexists. split; [reflexivity|]. intros Q'. unfold lset in *. cbn [l_data l_len l_high_entropy] in *. apply IH; [exact Q'|exact H15|exact R'].
Qed.
Lemma reach_len_start b l L : 1 <= L -> 15 <= zlen data -> bitlen (zlen data - 15) = L + 1 ->
  QL (b, l, LS [] 0 he (LCountMant (round_up_mod_4 L) (Z.shiftl 1 L))) -> reach (b, l, LS [] 0 he (LCountMant (round_up_mod_4 L) (Z.shiftl 1 L))) lit_done.
Proof.
  intros H H15 B Q. pose proof (round_up_spec L H) as RU.
  assert (N0 : 0 < zlen data - 15) by (unfold bitlen in B; destruct (Z.eqb_spec (zlen data - 15) 0); lia).
  destruct (bitlen_spec _ N0) as (BS & _). rewrite B in BS. replace (L + 1 - 1) with L in BS by lia.
  assert (R : rest_ok (zlen data - 15) (Z.shiftl 1 L) (round_up_mod_4 L)) by (apply rest_start; lia).
  destruct (round_up_k L H) as (k & K). rewrite K in *. apply reach_len_mant; assumption.
Qed.
Lemma reach_count b l f : f = true \/ he = false -> QL (b, l, LS [] 0 he (LCountSmall f)) -> reach (b, l, LS [] 0 he (LCountSmall f)) lit_done.
Proof.
  intros F Q. assert (W1 : wsub32 (zlen data) 1 = zlen data - 1) by (unfold wsub32; lia).
  assert (NH : he && negb f = false) by (destruct F as [-> | ->]; [apply andb_false_r|reflexivity]).
  go Q; [rewrite NH; unfold nibble; lia|]. intros pr. rewrite NH, W1. cbv beta. destruct (Z.eqb_spec (Z.min 14 (zlen data - 1)) 14) as [E|N].
  - eexists. split; [reflexivity|]. intros Q1. unfold lset in *. cbn [l_data l_len l_high_entropy] in *.
    assert (WS : wsub32 (zlen data) 15 = zlen data - 15) by (unfold wsub32; lia).
    pose proof (bitlen_range (zlen data - 15) 30 ltac:(lia) ltac:(lia)) as BR.
    go Q1; [rewrite WS; unfold nibble; lia|]. intros pr1. rewrite WS. cbv beta. destruct (Z.eqb_spec (Z.min 15 (bitlen (zlen data - 15))) 15) as [E15|N15].
    + eexists. split; [reflexivity|]. intros Q2. unfold lset in *. cbn [l_data l_len l_high_entropy] in *.
      assert (W8 : wsub8 (bitlen (zlen data - 15)) 15 = bitlen (zlen data - 15) - 15) by (unfold wsub8; lia).
      go Q2; [rewrite WS, W8; unfold nibble; lia|]. intros pr2. rewrite WS, W8. cbv beta. replace (bitlen (zlen data - 15) - 15 + 14) with (bitlen (zlen data - 15) - 1) by lia.
      eexists. split; [reflexivity|]. intros Q3. unfold lset in *. cbn [l_data l_len l_high_entropy] in *. apply reach_len_start; [lia|lia|lia|exact Q3].
    + replace (Z.min 15 (bitlen (zlen data - 15))) with (bitlen (zlen data - 15)) by lia. destruct (Z.leb_spec (bitlen (zlen data - 15)) 1) as [LE|GT].
      * assert (ES : 15 + bitlen (zlen data - 15) = zlen data).
        { destruct (Z.eq_dec (zlen data) 15) as [Q15|]; [rewrite Q15; reflexivity|]. pose proof (bitlen_spec (zlen data - 15) ltac:(lia)) as ((B1 & B2) & B3).
          assert (B4 : bitlen (zlen data - 15) = 1) by lia. rewrite B4 in *. change (2 ^ 1) with 2 in *. lia. }
        rewrite ES. eexists. split; [reflexivity|]. apply reach_content; reflexivity.
      * eexists. split; [reflexivity|]. intros Q2. unfold lset in *. cbn [l_data l_len l_high_entropy] in *. apply reach_len_start; [lia|lia|lia|exact Q2].
  - destruct (Z.eqb_spec (Z.min 14 (zlen data - 1)) 15); [lia|]. replace (Z.min 14 (zlen data - 1) + 1) with (zlen data) by lia.
    eexists. split; [reflexivity|]. apply reach_content; reflexivity.
Qed.
Lemma lit_run b l : binv b -> linv l -> inv_mix mix l -> reach (b, l, lit_begin) lit_done.
Proof.
  intros I L X. eapply reaches_silent; [reflexivity|reflexivity|]. cbn [fst snd lit_begin]. unfold lset. cbn [lit_begin l_data l_len l_high_entropy].
  assert (Q : QL (b, l, LS [] 0 false (LCountSmall false))) by (split; [exact I|split; [exact L|split; [exact X|exact Logic.I]]]).
  destruct (bool_dec he true) as [HE|HE]; [|apply not_true_is_false in HE].
  - eapply reaches_by_code; [unfold tnd, lit_node; cbn [fst snd l_sub]; cbv zeta; reflexivity|apply tnd_ok; exact Q|unfold twt, lit_want; cbn [snd l_sub]; cbv zeta; reflexivity| |].
    { rewrite HE. cbn [andb negb]. unfold nibble. lia. }
    intros pr. rewrite HE. cbn [andb negb]. cbv beta. change (15 =? 14) with false. change (15 =? 15) with true. cbv iota. eexists. split; [reflexivity|]. cbn [l_data l_len].
    pose proof (reach_count (set_priors b pr) l true (or_introl eq_refl)) as RC. rewrite HE in RC. exact RC.
  - rewrite <- HE in Q |- *. apply reach_count; [right; exact HE|exact Q].
Qed.
End LitRun.
