(** The encoder's run on a dictionary or block switch command. *)
From Verif Require Import Prelude ModelAns ModelCdf SpecCdf ProofCdf ModelMux ProofZlist ModelCmd ModelPriors ModelContextLut ModelCodec ModelLit ModelPm ModelTop SpecCodec ThmPriors ProofCodecInv ProofCodecInv2 ProofRun ProofCopy.

Section DictRun.
Variables (wl : word_len_fn) (ws wid tr : Z).
Hypothesis HS : 4 <= ws <= 24.
Hypothesis HW : 0 <= wid < 2 ^ round_up_mod_4 (znth DICT_BITS ws).
Hypothesis HT : 0 <= tr < 121.
Definition dnd (p : bk * dict_st) := dict_node wl (fst p) (snd p).
Definition dwt (p : bk * dict_st) := dict_want ws wid tr (snd p).
Notation reach := (reaches dnd dwt).
Lemma dnd_ok p : Qdict adapted p -> nok (Qdict adapted) (dnd p).
Proof. intros (I & J). apply dict_node_ok with (SP := tame); auto using adapted_blend, tame_pos. Qed.
Definition dict_done (p : bk * dict_st) : Prop := Qdict adapted p /\ snd p = DS ws wid tr (wl ws wid tr mod 256) DFully.
Ltac go Q := eapply reaches_by_code; [unfold dnd, dict_node; cbn [fst snd d_sub]; cbv zeta; reflexivity|apply dnd_ok; exact Q|unfold dwt, dict_want; cbn [snd d_sub]; reflexivity| |].
Lemma reach_transform b : Qdict adapted (b, DS ws wid 0 0 DTransformHigh) -> reach (b, DS ws wid 0 0 DTransformHigh) dict_done.
Proof.
  intros Q. go Q. { unfold nibble. rewrite Z.shiftr_div_pow2 by lia. change (2 ^ 4) with 16. lia. }
  intros pr. eexists. split; [reflexivity|]. intros Q1. cbn [dc_word_size dc_word_id dc_final_size] in *.
  go Q1. { apply land15. }
  intros pr1. cbv beta. cbn [dc_word_size dc_word_id dc_final_size dc_transform] in *.
  assert (E : Z.lor (Z.shiftl (Z.shiftr tr 4) 4) (Z.land tr 15) = tr).
  { rewrite Z.lor_comm. change 15 with (2 ^ 4 - 1). rewrite land_mask by lia. rewrite Z.shiftr_div_pow2 by lia. change (2 ^ 4) with 16.
    rewrite lor_shift_add by (try change (2 ^ 4) with 16; lia). change (2 ^ 4) with 16. lia. }
  rewrite E in *. destruct (Z.leb_spec 121 tr); [lia|]. eexists. split; [reflexivity|]. intros Q2. apply reaches_here. split; [exact Q2|reflexivity].
Qed.
Lemma reach_index : forall k b ld dsf, Qdict adapted (b, DS ws 0 0 0 (DIndex ld (4 * (Z.of_nat k + 1)) dsf)) ->
  rest_ok wid dsf (4 * (Z.of_nat k + 1)) -> reach (b, DS ws 0 0 0 (DIndex ld (4 * (Z.of_nat k + 1)) dsf)) dict_done.
Proof.
  induction k as [|k IH]; intros b ld dsf Q R.
  - change (4 * (Z.of_nat 0 + 1)) with 4 in *. destruct (mant_step wid dsf 0 ltac:(lia) R) as (V & R').
    go Q; [change (4 - 4) with 0; exact V|]. intros pr. change (4 - 4) with 0. change (0 =? 0) with true. cbv beta iota. eexists. split; [reflexivity|].
    cbn [dc_word_size dc_transform dc_final_size]. rewrite (rest_done _ _ R'). apply reach_transform.
  - set (lr := 4 * (Z.of_nat (S k) + 1)) in *. assert (E0 : lr - 4 = 4 * (Z.of_nat k + 1)) by (unfold lr; lia).
    destruct (mant_step wid dsf (4 * (Z.of_nat k + 1)) ltac:(lia)) as (V & R').
    { replace (4 * (Z.of_nat k + 1) + 4) with lr by (unfold lr; lia). exact R. }
    go Q; [rewrite E0; exact V|]. intros pr. rewrite E0. cbv beta. destruct (Z.eqb_spec (4 * (Z.of_nat k + 1)) 0); [lia|].
    eexists. split; [reflexivity|]. intros Q'. unfold dset in *. cbn [dc_word_size dc_word_id dc_transform dc_final_size] in *. apply IH; [exact Q'|exact R'].
Qed.
Lemma dict_run b : binv b -> reach (b, dict_begin) dict_done.
Proof.
  intros I. assert (Q : Qdict adapted (b, DS 0 0 0 0 DSizeFirst)) by (split; [exact I|exact Logic.I]).
  eapply reaches_silent; [reflexivity|reflexivity|]. unfold dset. cbn [fst snd dict_begin dc_word_size dc_word_id dc_transform dc_final_size].
  pose proof (dict_bits_range ws HS) as DB. destruct (round_up_k (znth DICT_BITS ws) ltac:(lia)) as (k & K).
  assert (R : rest_ok wid 0 (4 * (Z.of_nat k + 1))) by (apply rest_zero; rewrite <- K; exact HW).
  assert (W : wsub8 ws 4 = ws - 4) by (unfold wsub8; lia).
  go Q; [rewrite W; unfold nibble; lia|]. intros pr. rewrite W. cbv beta. destruct (Z.eqb_spec (Z.min 15 (ws - 4)) 15) as [E|N].
  - eexists. split; [reflexivity|]. intros Q1. unfold dset in *. cbn [dc_word_size dc_word_id dc_transform dc_final_size] in *.
    assert (W2 : wsub8 ws 19 = ws - 19) by (unfold wsub8; lia).
    go Q1; [rewrite W2; unfold nibble; lia|]. intros pr1. rewrite W2. cbv beta. replace (ws - 19 + 19) with ws by lia. destruct (Z.ltb_spec 24 ws); [lia|].
    eexists. split; [reflexivity|]. intros Q2. cbn [dc_word_size dc_word_id dc_transform dc_final_size] in *. rewrite K in *. apply reach_index; [exact Q2|exact R].
  - replace (Z.min 15 (ws - 4) + 4) with ws by lia.
    eexists. split; [reflexivity|]. intros Q2. cbn [dc_word_size dc_word_id dc_transform dc_final_size] in *. rewrite K in *. apply reach_index; [exact Q2|exact R].
Qed.
End DictRun.

Section BtypeRun.
Variables (i t : Z).
Hypothesis HI : 0 <= i < 3.
Hypothesis HT : byte t.
Definition bnd (p : bk * btype_st) := btype_node i (fst p) (snd p).
Definition bwt (p : bk * btype_st) := btype_want t i (fst p) (snd p).
Lemma bnd_ok p : Qbt adapted p -> nok (Qbt adapted) (bnd p).
Proof. intros (I & J). apply btype_node_ok with (SP := tame); auto using adapted_blend, tame_pos. Qed.
Definition bt_done (lru : list (Z * Z)) (mx : list Z) (p : bk * btype_st) : Prop :=
  Qbt adapted p /\ snd p = BtFully t.
Lemma btype_run b : binv b -> reaches bnd bwt (b, BtBegin) (bt_done (btype_lru b) (btype_max_seen b)).
Proof.
  intros I. assert (Q : Qbt adapted (b, BtBegin)) by (split; [exact I|exact Logic.I]). unfold byte in HT.
  set (v := if t =? snd (nth_pair (btype_lru b) i) then 0 else if t =? (znth (btype_max_seen b) i + 1) mod 256 then 1 else if t <=? 12 then t + 2 else 15).
  assert (V : nibble v).
  { unfold v, nibble. destruct (t =? snd (nth_pair (btype_lru b) i)); [lia|]. destruct (t =? (znth (btype_max_seen b) i + 1) mod 256); [lia|]. destruct (Z.leb_spec t 12); lia. }
  eapply reaches_by_code; [unfold bnd; cbn [btype_node fst snd]; reflexivity|apply bnd_ok; exact Q|unfold bwt, btype_want; cbn [fst snd]; reflexivity|exact V|].
  intros pr. fold v. cbv beta. cbn [set_priors btype_lru btype_max_seen].
  destruct (Z.eqb_spec v 0) as [E0|N0].
  - eexists. split; [reflexivity|]. intros Q1. apply reaches_here. split; [exact Q1|]. cbn [snd]. f_equal. unfold v in E0.
    destruct (Z.eqb_spec t (snd (nth_pair (btype_lru b) i))) as [<-|]; [reflexivity|]. destruct (t =? (znth (btype_max_seen b) i + 1) mod 256); [lia|]. destruct (Z.leb_spec t 12); lia.
  - destruct (Z.eqb_spec v 1) as [E1|N1].
    + eexists. split; [reflexivity|]. intros Q1. apply reaches_here. split; [exact Q1|]. cbn [snd]. f_equal. unfold v in E1.
      destruct (t =? snd (nth_pair (btype_lru b) i)); [lia|]. destruct (Z.eqb_spec t ((znth (btype_max_seen b) i + 1) mod 256)) as [<-|]; [reflexivity|]. destruct (Z.leb_spec t 12); lia.
    + assert (EV : v = if t <=? 12 then t + 2 else 15).
      { unfold v in *. destruct (t =? snd (nth_pair (btype_lru b) i)); [lia|]. destruct (t =? (znth (btype_max_seen b) i + 1) mod 256); [lia|]. reflexivity. }
      clearbody v. destruct (Z.eqb_spec v 15) as [E15|N15].
      * eexists. split; [reflexivity|]. intros Q1. assert (T13 : 12 < t) by (destruct (Z.leb_spec t 12); lia).
        eapply reaches_by_code; [unfold bnd; cbn [btype_node fst snd]; reflexivity|apply bnd_ok; exact Q1|unfold bwt, btype_want; cbn [fst snd]; reflexivity|apply land15|].
        intros pr1. eexists. split; [reflexivity|]. intros Q2.
        eapply reaches_by_code; [unfold bnd; cbn [btype_node fst snd]; reflexivity|apply bnd_ok; exact Q2|unfold bwt, btype_want; cbn [fst snd]; reflexivity| |].
        { unfold nibble. rewrite Z.shiftr_div_pow2 by lia. change (2 ^ 4) with 16. lia. }
        intros pr2. eexists. split; [reflexivity|]. intros Q3. apply reaches_here. split; [exact Q3|]. cbn [snd]. f_equal.
        rewrite Z.lor_comm. change 15 with (2 ^ 4 - 1). rewrite land_mask by lia. rewrite Z.shiftr_div_pow2 by lia. change (2 ^ 4) with 16.
        rewrite lor_shift_add by (try change (2 ^ 4) with 16; lia). change (2 ^ 4) with 16. lia.
      * eexists. split; [reflexivity|]. intros Q1. apply reaches_here. split; [exact Q1|]. cbn [snd]. f_equal. destruct (Z.leb_spec t 12); lia.
Qed.
End BtypeRun.

Section LbtypeRun.
Variables (g : cfg) (t stride : Z).
Hypothesis HG : nibble (want_stride g).
Hypothesis HT : byte t.
Hypothesis HS : nibble stride.
Definition lnd (p : bk * lbtype_st) := lbtype_node (fst p) (snd p).
Definition lwt (p : bk * lbtype_st) := lbtype_want g t stride (fst p) (snd p).
Lemma lnd_ok p : Qlbt adapted p -> nok (Qlbt adapted) (lnd p).
Proof. intros (I & J). apply lbtype_node_ok with (SP := tame); auto using adapted_blend, tame_pos. Qed.
Definition lbt_done (p : bk * lbtype_st) : Prop :=
  Qlbt adapted p /\ snd p = LbFully t (if want_stride g =? 9 then stride else want_stride g).
Lemma lift_btype p es p' : nsteps (bnd 0) (bwt 0 t) p es p' -> nsteps lnd lwt (fst p, LbInter (snd p)) es (fst p', LbInter (snd p')).
Proof.
  induction 1 as [s|s s' v es s2 W N R IH|s st d k v s' es s2 W N V C K R IH].
  - constructor.
  - exfalso. destruct s as (b, u). unfold bnd in N. cbn [fst snd] in N. destruct u; cbn [btype_node] in N; try discriminate; unfold code in N; destruct (prior_index _ _ _); discriminate.
  - destruct s as (b, u). unfold bnd, bwt in *. cbn [fst snd] in *. eapply ns_code with (k := fun v => map_outcome (fun p => (fst p, LbInter (snd p))) (k v)); [exact W| |exact V|exact C|cbv beta; rewrite K; reflexivity|exact IH].
    unfold lnd. cbn [fst snd lbtype_node]. destruct u; try (rewrite N; reflexivity). cbn in N. discriminate.
Qed.
Lemma lbtype_run b : binv b -> reaches lnd lwt (b, LbBegin) lbt_done.
Proof.
  intros I. eapply reaches_silent; [reflexivity|reflexivity|]. cbn [fst snd].
  destruct (btype_run 0 t ltac:(lia) HT b I) as (es & (b1, u1) & R & Q1 & E1). cbn [snd] in E1. subst u1.
  apply lift_btype in R. cbn [fst snd] in R.
  apply reaches_trans with (G := fun p => p = (b1, LbInter (BtFully t))). { eexists es, _. split; [exact R|reflexivity]. }
  intros s' ->. eapply reaches_silent; [reflexivity|reflexivity|]. cbn [fst snd].
  assert (Q2 : Qlbt adapted (b1, LbStride t)) by (split; [apply Q1|exact HT]).
  eapply reaches_by_code; [unfold lnd; cbn [lbtype_node fst snd]; reflexivity|apply lnd_ok; exact Q2|reflexivity| |].
  { destruct (want_stride g =? 9); assumption. }
  intros pr. eexists. split; [reflexivity|]. intros Q3. apply reaches_here. split; [exact Q3|reflexivity].
Qed.
End LbtypeRun.
