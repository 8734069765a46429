(** The example program's loops with the internal command selection, and its numerals. *)
From Verif Require Import Prelude ProofList ModelAns SpecAns ProofAnsRt ModelCdf SpecCdf ModelMux SpecMux ProofZlist ProofMux ProofMuxW ModelCmd ModelCrc SpecCrc ModelHeader SpecHeader ModelRecode SpecLz ModelPriors ModelCodec ModelLit ModelPm ModelTop SpecCodec SpecReplay ProofCodecInv ProofCodecInv2 ModelEnc SpecEnc SpecFile SpecDec ProofEnc ProofEnc2 ProofEnc3 ProofEnc4 ModelRaw ModelRawEnc SpecRawEnc ProofRecode ThmRaw ProofRawEnc SpecDec SpecRawEnc ProofRawEnc2.
From Verif Require Import ModelFfi ModelHybrid ModelToolThread ModelCapi SpecCapi ProofCapi ProofFfi SpecText ProofText ModelExample ProofExample ProofExample2.

Section Raw.
Context (dict : dict_fn) (wl : word_len_fn) (D : dims) (g : cfg).
Context (ES : list ev) (A B H : list Z) (WR : writable ES)
  (EA : ans_encode (sfs_of CMD ES) = Some A) (EB : ans_encode (sfs_of LIT ES) = Some B) (BH : bytes H) (HL : length H = 16%nat).
Context (ws : Z) (WS : 2 <= 2 ^ ws) (FT : fits D) (X : list Z) (LX : zlen X < 2 * 2 ^ ws - 1).
Context (fuel F : nat) (LE : (fuel <= F)%nat).
Local Notation BD := (bound A B + 16).
Context (LB : BD <= 2 ^ 63).
Context {E : Type} (fe : frontend E) (create : opts -> E) (optimize : opts -> metablock -> option metablock).
Local Notation FI := (finv dict wl D g ES A B H ws X fuel).
Local Notation RI := (rinv dict wl D g ES A B H ws X fuel).
Lemma flush_raw_good : forall n s x buf ret T, c_started D create s = Some (Internal g x) -> zlen buf = BUF_SIZE -> FI x T -> holds ret T -> BD - zlen T < Z.of_nat n ->
  exists v T', ModelExample.flush_loop dict wl D fe create optimize n F s buf ret = XDone v /\ holds v T' /\ complete A B H T' /\ zlen T' <= BD.
Proof.
  induction n as [|n IH]; intros s x buf ret T ST BL I HO LN.
  { pose proof (finv_bounds dict wl D g ES A B H WR EA EB HL ws X fuel x T I). lia. }
  destruct (flush_raw_spec dict wl D g ES A B H WR EA EB BH HL ws WS FT X fuel F LE x T BUF_SIZE I ltac:(unfold BUF_SIZE; lia)) as (o & x' & r & EQ & LO & K).
  assert (TB : zlen T + zlen o <= BD).
  { destruct K as [(_ & SI & _)|(_ & _ & K)]; [pose proof (sinv_bounds dict wl D g ES A B H WR EA EB HL fuel _ _ _ SI) as Q|pose proof (finv_bounds dict wl D g ES A B H WR EA EB HL ws X fuel _ _ K) as Q]; rewrite zlen_app in Q; lia. }
  cbn [ModelExample.flush_loop]. unfold c_flush. rewrite ST. cbn [bind]. unfold assert. rewrite BL. change ((0 <=? 0) && (0 <=? BUF_SIZE)) with true. cbn iota. rewrite Z.sub_0_r, EQ. cbn [bind].
  replace (0 + zlen o <=? BUF_SIZE) with true by (symmetry; apply Z.leb_le; lia). destruct (put_front buf o ltac:(lia)) as (PF & PL). rewrite PF. destruct (push_holds ret T o HO ltac:(lia)) as (v & PV & HV). rewrite PV.
  destruct K as [(-> & SI & (_ & _ & _ & CL))|(-> & ZO & K)]; cbn [cres_code ModelFfi.code].
  - change (DIVANS_SUCCESS =? DIVANS_FAILURE) with false. change (DIVANS_SUCCESS =? DIVANS_SUCCESS) with true. cbn iota. exists v, (T ++ o). split; [reflexivity|]. split; [exact HV|]. split; [eapply done_complete; eassumption|rewrite zlen_app; lia].
  - change (DIVANS_NEEDS_MORE_OUTPUT =? DIVANS_FAILURE) with false. change (DIVANS_NEEDS_MORE_OUTPUT =? DIVANS_SUCCESS) with false. cbn iota.
    apply (IH (Started (Some (Internal g x'))) x' (put_at buf 0 o) v (T ++ o) eq_refl ltac:(congruence) K HV). rewrite zlen_app, ZO. unfold BUF_SIZE. lia.
Qed.
Lemma encode_raw_good : forall n s x buf ret y rest T, c_started D create s = Some (Internal g x) -> zlen buf = BUF_SIZE -> RI x y T -> y ++ rest = X -> holds ret T -> 2 * (BD - zlen T) + zlen rest + 1 < Z.of_nat n ->
  exists v T', ModelExample.encode_loop dict wl D fe create optimize n F s rest buf ret = XDone v /\ holds v T' /\ complete A B H T' /\ zlen T' <= BD.
Proof.
  induction n as [|n IH]; intros s x buf ret y rest T ST BL I EX HO LN.
  { pose proof (sinv_bounds dict wl D g ES A B H WR EA EB HL fuel _ _ _ (proj1 (proj2 (proj2 I)))). pose proof (zlen_nonneg rest). lia. }
  pose proof (sinv_bounds dict wl D g ES A B H WR EA EB HL fuel _ _ _ (proj1 (proj2 (proj2 I)))) as TB0.
  cbn [ModelExample.encode_loop]. destruct (Z.eqb_spec (zlen rest) 0) as [R0|R0].
  { destruct rest; [|rewrite zlen_cons in R0; pose proof (zlen_nonneg rest); lia]. rewrite app_nil_r in EX. subst y. apply (flush_raw_good (S n) s x buf ret T ST BL); [left; exact I|exact HO|change (zlen (@nil Z)) with 0 in LN; lia]. }
  destruct (encode_raw_spec dict wl D g ES A B H WR EA EB BH HL ws WS FT X LX fuel F LE x y T rest [] BUF_SIZE I ltac:(rewrite app_nil_r; exact EX) ltac:(unfold BUF_SIZE; lia)) as (k & o & x' & r & i' & pre & EQ & EI & EK & LO & I' & K).
  pose proof (sinv_bounds dict wl D g ES A B H WR EA EB HL fuel _ _ _ (proj1 (proj2 (proj2 I')))) as TB. rewrite zlen_app in TB.
  unfold c_encode. rewrite ST. cbn [bind]. unfold assert. rewrite BL. replace ((0 <=? 0) && (0 <=? zlen rest)) with true by (symmetry; apply andb_true_intro; rewrite !Z.leb_le; pose proof (zlen_nonneg rest); lia). change ((0 <=? 0) && (0 <=? BUF_SIZE)) with true. cbn iota. change (zskip 0 rest) with rest. rewrite Z.sub_0_r, EQ. cbn [bind].
  replace (0 + zlen o <=? BUF_SIZE) with true by (symmetry; apply Z.leb_le; lia). destruct (put_front buf o ltac:(lia)) as (PF & PL). rewrite PF. destruct (push_holds ret T o HO ltac:(lia)) as (v & PV & HV).
  assert (NF : cres_code r =? DIVANS_FAILURE = false) by (destruct K as [(-> & _)|(-> & _)]; reflexivity). rewrite NF, PV.
  assert (SUF : zskip (0 + k) rest = i') by (rewrite EI, EK; change (0 + zlen pre) with (zlen pre); apply zskip_exact). rewrite SUF.
  apply (IH (Started (Some (Internal g x'))) x' (put_at buf 0 o) v (y ++ pre) i' (T ++ o) eq_refl ltac:(congruence) I'); [rewrite <- app_assoc, <- EI; exact EX|exact HV|]. rewrite zlen_app. pose proof (zlen_nonneg o). pose proof (zlen_nonneg pre). assert (zlen rest = zlen pre + zlen i') by (rewrite EI; apply zlen_app).
  destruct K as [(_ & ->)|(_ & ZO)]; [change (zlen (@nil Z)) with 0 in *; lia|]. unfold BUF_SIZE in ZO. lia.
Qed.
End Raw.

(** ** Numerals *)
Lemma value_app a b : value (a ++ b) = value a * 10 ^ zlen b + value b.
Proof. unfold value at 1. rewrite fold_left_app. fold (value a). apply fold_value. Qed.
Lemma atoi_loop_spec : forall n d, 0 <= d < 10 ^ Z.of_nat n -> value (rev (atoi_loop n d)) = d /\ Forall digit (atoi_loop n d) /\ (forall k, (k < n)%nat -> 10 ^ Z.of_nat k <= d < 10 ^ Z.of_nat (S k) -> zlen (atoi_loop n d) = Z.of_nat (S k)) /\ (d <> 0 -> last (atoi_loop n d) 48 <> 48).
Proof.
  induction n as [|n IH]; intros d Dn; cbn [atoi_loop].
  - change (10 ^ Z.of_nat 0) with 1 in Dn. split; [unfold value; cbn; lia|]. split; [constructor|]. split; [lia|lia].
  - destruct (Z.eqb_spec d 0) as [->|NZ]. { split; [reflexivity|]. split; [constructor|]. split; [|contradiction]. intros k _ Q. assert (0 < 10 ^ Z.of_nat k) by (apply Z.pow_pos_nonneg; lia). lia. }
    rewrite Nat2Z.inj_succ, Z.pow_succ_r in Dn by lia. assert (D1 : 0 <= d / 10 < 10 ^ Z.of_nat n) by (split; [apply Z.div_pos; lia|apply Z.div_lt_upper_bound; lia]). destruct (IH (d / 10) D1) as (V & FD & LG & LA).
    assert (M : 0 <= d mod 10 < 10) by (apply Z.mod_pos_bound; lia). split; [|split; [|split]].
    + cbn [rev]. rewrite value_app, V. change (zlen [48 + d mod 10]) with 1. unfold value. cbn [fold_left]. rewrite Z.pow_1_r. pose proof (Z.div_mod d 10 ltac:(lia)). lia.
    + constructor; [unfold digit; lia|exact FD].
    + intros k LK (Q1 & Q2). rewrite zlen_cons. destruct k as [|k].
      * change (10 ^ Z.of_nat 1) with 10 in Q2. rewrite Z.div_small by lia. destruct n; reflexivity.
      * rewrite (LG k); [lia|lia|]. rewrite !Nat2Z.inj_succ in *. rewrite !Z.pow_succ_r in * by lia. split; [apply Z.div_le_lower_bound; lia|apply Z.div_lt_upper_bound; lia].
    + intros _. destruct (Z.eq_dec (d / 10) 0) as [Q|Q].
      * rewrite Q. replace (atoi_loop n 0) with (@nil Z) by (destruct n; reflexivity). cbn [last]. pose proof (Z.div_mod d 10 ltac:(lia)). lia.
      * specialize (LA Q). cbn [last]. destruct (atoi_loop n (d / 10)); [contradiction LA; reflexivity|exact LA].
Qed.
Lemma hd_rev {T} (l : list T) d : hd d (rev l) = last l d.
Proof. induction l as [|x l IH]; [reflexivity|]. cbn [rev last]. destruct l as [|y l]; [reflexivity|]. rewrite <- IH. cbn [rev]. destruct (rev l); reflexivity. Qed.
Lemma custom_atoi_spec d : 0 <= d < 2 ^ 64 -> numeral d (custom_atoi d) /\ (hd 48 (custom_atoi d) = 48 -> d = 0).
Proof.
  intros R. unfold custom_atoi. destruct (Z.eqb_spec d 0) as [->|NZ]. { split; [|reflexivity]. split; [discriminate|]. split; [|reflexivity]. constructor; [unfold digit; lia|constructor]. }
  assert (P : 2 ^ 64 <= 10 ^ Z.of_nat 20) by (vm_compute; discriminate). destruct (atoi_loop_spec 20 d ltac:(lia)) as (V & FD & _ & LA). split; [split; [|split]|].
  - intros Q. rewrite Q in V. unfold value in V. cbn in V. lia.
  - apply Forall_rev, FD.
  - exact V.
  - rewrite hd_rev. intros Q. contradiction (LA NZ).
Qed.
(** five digits with a one in front: the rest are the four digits of what is left *)
Lemma five_digits r : 0 <= r < 10000 -> exists s, custom_atoi (r + 10000) = 49 :: s /\ zlen s = 4 /\ Forall digit s /\ value s = r.
Proof.
  intros R. assert (Z20 : r + 10000 < 10 ^ Z.of_nat 20) by (apply Z.lt_trans with 20000; [lia|reflexivity]). destruct (atoi_loop_spec 20 (r + 10000) ltac:(lia)) as (V & FD & LG & _). specialize (LG 4%nat ltac:(lia) ltac:(split; [change (10 ^ Z.of_nat 4) with 10000; lia|change (10 ^ Z.of_nat 5) with 100000; lia])).
  unfold custom_atoi. destruct (Z.eqb_spec (r + 10000) 0); [lia|]. apply Forall_rev in FD. assert (LR : zlen (rev (atoi_loop 20 (r + 10000))) = 5) by (unfold zlen in *; rewrite rev_length; lia). destruct (rev (atoi_loop 20 (r + 10000))) as [|c s]; [discriminate LR|]. rewrite zlen_cons in LR.
  apply Forall_cons_iff in FD. destruct FD as (F1 & F2). change (c :: s) with ([c] ++ s) in V. rewrite value_app in V. assert (L4 : zlen s = 4) by lia. rewrite L4 in V. change (10 ^ 4) with 10000 in V. unfold value at 1 in V. cbn [fold_left] in V.
  assert (VB : 0 <= value s < 10000). { split; [apply value_nonneg, F2|]. clear - F2 L4. assert (G : forall s, Forall digit s -> value s < 10 ^ zlen s). { clear. induction s as [|c s IH]; intros F; [reflexivity|]. apply Forall_cons_iff in F. destruct F as (F1 & F2). change (c :: s) with ([c] ++ s). rewrite value_app, zlen_app. change (zlen [c]) with 1. rewrite Z.pow_add_r, Z.pow_1_r by (try apply zlen_nonneg; lia). specialize (IH F2). unfold value at 1. cbn [fold_left]. unfold digit in F1. pose proof (Z.pow_pos_nonneg 10 (zlen s) ltac:(lia) (zlen_nonneg s)). nia. } specialize (G s F2). rewrite L4 in G. exact G. }
  unfold digit in F1. assert (c = 49) by lia. subst c. exists s. split; [reflexivity|]. split; [exact L4|]. split; [exact F2|]. lia.
Qed.
