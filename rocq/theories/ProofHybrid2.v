(** The default compressor: any front end over the codec. *)
From Verif Require Import Prelude ProofList ModelAns SpecAns ProofAnsRt ModelCdf SpecCdf ModelMux SpecMux ProofZlist ProofMux ProofMuxW ProofMuxR ModelCmd ModelCrc SpecCrc ProofCrc ModelHeader SpecHeader ProofHeader ThmHeader ModelRecode SpecLz ModelPriors ModelCodec ModelLit ModelPm ModelTop SpecCodec SpecReplay ProofCodecInv ProofCodecInv2 ProofRun ProofCopy ProofTop ThmCodec ModelEnc SpecEnc SpecDec SpecFile ProofEnc ProofEnc2 ProofEnc3 ProofEnc4 ModelIo ModelHybrid SpecHybrid ProofHybrid.

Local Opaque codec_flush codec_encode.
Section W.
Context (dict : dict_fn) (wl : word_len_fn) (D : dims) (g : cfg) (ws : Z).
Context {B : Type} (fe : frontend B) (optimize : metablock -> option metablock) (b0 : B) (GF : good_frontend dict wl D g ws fe optimize b0).
(** the streams of the whole session, known only once the front end has been run *)
Definition world es a b H (fuel F n : nat) : Prop :=
  writable es /\ ans_encode (sfs_of CMD es) = Some a /\ ans_encode (sfs_of LIT es) = Some b /\ bytes H /\ length H = 16%nat /\ (fuel <= F)%nat /\ (Z.to_nat (bound a b + 16) < n)%nat.
Notation RE := (reaches fe optimize b0).
Notation IES := (internal_encode_stream dict wl D g fe optimize).

Lemma zfirst_nil k : zfirst k (@nil Z) = [].
Proof. unfold zfirst. apply firstn_nil. Qed.

(** one call of FINISH on an encoder that is not finished *)
Lemma finish_step b x cs bsize bcap : RE b x cs -> b_finished fe b = false -> capok bsize bcap ->
  exists w ms b' bs' bc', capok bs' bc' /\ RE b' x (cs ++ concat (map (block optimize) ms)) /\
    b_step fe b true [] (grown bsize bcap 256 - bsize) = Some (0, w, ms, b') /\ 256 <= grown bsize bcap 256 - bsize /\
    forall es a b1 H fuel F n, world es a b1 H fuel F n -> forall later cm T data cap off,
      running dict wl D g es a b1 H fuel (concat (map (block optimize) ms) ++ later) cm T -> cm_hdr cm = 16%nat -> capok (zlen data) cap -> (b_finished fe b' = true -> later = []) ->
      exists cm' o cap', capok (zlen (data ++ o)) cap' /\ cm_hdr cm' = 16%nat /\
        IES n F true [] (HY b cm bsize bcap data cap off) = Some (0, HY b' cm' bs' bc' (data ++ o) cap' off, if b_finished fe b' then PSuccess else PNeedOut) /\
        (if b_finished fe b' then complete a b1 H (T ++ o) else running dict wl D g es a b1 H fuel later cm' (T ++ o)).
Proof.
  intros R NF CO. destruct (grown_ok _ _ 256 CO ltac:(lia)) as (CO' & G1 & G2). set (bc := grown bsize bcap 256) in *.
  destruct (gf_works _ _ _ _ _ _ _ _ GF b x cs true [] (bc - bsize) R NF ltac:(reflexivity) ltac:(constructor) ltac:(lia)) as (k & w & ms & b' & ST & K & WW & OP & _ & FN).
  change (zlen (@nil Z)) with 0 in K. assert (k = 0) by lia. subst k. specialize (FN eq_refl).
  exists w, ms, b', (bsize + w), bc. split; [destruct CO' as (S0 & [S1|S1]); [lia|split; [lia|right; lia]]|]. split.
  { pose proof (reaches_step fe optimize b0 b x cs true [] (bc - bsize) 0 w ms b' R NF ltac:(reflexivity) ltac:(constructor) ltac:(lia) ST) as Q. rewrite zfirst_nil, app_nil_r in Q. exact Q. }
  split; [exact ST|]. split; [lia|].
  intros es a b1 H fuel F n (WR & EA & EB & BH & HL & LE & LN) later cm T data cap off I HD CD LT.
  destruct (callbacks_spec dict wl D g es a b1 H WR EA EB BH HL fuel F LE n LN optimize ms later cm T data cap I OP CD) as (cm1 & o1 & cap1 & E1 & I1 & C1 & H1).
  assert (HD1 : cm_hdr cm1 = 16%nat) by (destruct H1 as [H1|(-> & _)]; assumption).
  unfold internal_encode_stream. cbn [h_b h_cm h_bsize h_bcap h_data h_cap h_off]. rewrite NF. fold bc. rewrite andb_false_r, ST, E1. cbn [bind]. change (zlen (@nil Z) - 0 =? 0) with true. rewrite andb_true_r. cbn [andb].
  destruct (b_finished fe b') eqn:FB; cbn [negb].
  - rewrite andb_false_r. rewrite (LT eq_refl) in I1. destruct I1 as (I1 & P1).
    destruct (flush_codec_spec dict wl D g es a b1 H WR EA EB BH HL fuel F LE n LN n cm1 (T ++ o1) (data ++ o1) cap1 I1 ltac:(congruence) HD1 C1 ltac:(pose proof (zlen_nonneg (T ++ o1)); lia)) as (cm2 & o2 & cap2 & E2 & I2 & C2 & H2).
    rewrite E2. cbn [bind]. exists cm2, (o1 ++ o2), cap2. rewrite !app_assoc in *. auto.
  - rewrite andb_true_r. destruct FN as [FN|FN]; [congruence|]. rewrite FN, Z.sub_diag. change (0 =? 0) with true. cbn [negb]. exists cm1, o1, cap1. auto.
Qed.

(** the loop of flush *)
Definition driven (b : B) (bsize bcap : Z) (later : list command) (nE : nat) : Prop :=
  forall es a b1 H fuel F n, world es a b1 H fuel F n -> forall k cm T data cap off, (nE <= k)%nat ->
    running dict wl D g es a b1 H fuel later cm T -> cm_hdr cm = 16%nat -> capok (zlen data) cap ->
    exists b' cm' bs' bc' o cap', drive dict wl D g fe optimize k n F (HY b cm bsize bcap data cap off) = Some (HY b' cm' bs' bc' (data ++ o) cap' off, true) /\
      b_finished fe b' = true /\ complete a b1 H (T ++ o) /\ cm_hdr cm' = 16%nat.
Lemma drive_spec : forall N b x cs bsize bcap, RE b x cs -> b_finished fe b = false -> ends fe N b -> capok bsize bcap ->
  exists later nE, (exists b', RE b' x (cs ++ later) /\ b_finished fe b' = true) /\ driven b bsize bcap later nE.
Proof.
  induction N as [|N IH]; intros b x cs bsize bcap R NF EN CO; cbn [ends] in EN; destruct EN as [EN|EN]; try congruence; try contradiction.
  destruct (finish_step b x cs bsize bcap R NF CO) as (w & ms & b' & bs' & bc' & CO' & R' & ST & RM & K). specialize (EN _ _ _ _ _ RM ST).
  destruct (b_finished fe b') eqn:FB.
  - exists (concat (map (block optimize) ms)), 1%nat. split; [exists b'; auto|].
    intros es a b1 H fuel F n W k cm T data cap off LK I HD CD. destruct k as [|k]; [lia|]. cbn [drive].
    destruct (K es a b1 H fuel F n W [] cm T data cap off ltac:(rewrite app_nil_r; exact I) HD CD ltac:(reflexivity)) as (cm' & o & cap' & C' & H' & E & Q). rewrite E. cbn [bind].
    exists b', cm', bs', bc', o, cap'. auto.
  - destruct (IH b' x _ bs' bc' R' FB EN CO') as (later & nE & (b2 & R2 & F2) & DR). exists (concat (map (block optimize) ms) ++ later), (S nE). split; [exists b2; rewrite app_assoc; auto|].
    intros es a b1 H fuel F n W k cm T data cap off LK I HD CD. destruct k as [|k]; [lia|]. cbn [drive].
    destruct (K es a b1 H fuel F n W later cm T data cap off I HD CD ltac:(congruence)) as (cm' & o & cap' & C' & H' & E & Q). rewrite E. cbn [bind].
    destruct (DR es a b1 H fuel F n W k cm' (T ++ o) (data ++ o) cap' off ltac:(lia) Q H' C') as (b3 & cm3 & bs3 & bc3 & o3 & cap3 & E3 & F3 & C3 & H3).
    exists b3, cm3, bs3, bc3, (o ++ o3), cap3. rewrite !app_assoc in *. auto.
Qed.

Section Flush.
Context es a b1 H fuel F n (W : world es a b1 H fuel F n).
Notation PR := (hybrid_processor dict wl D g fe optimize n F).
Definition remaining (s : @hybrid B) : list Z := zskip (h_off s) (h_data s).
Definition closed (s : @hybrid B) (O : list Z) : Prop :=
  b_finished fe (h_b s) = true /\ cm_hdr (h_cm s) = 16%nat /\ complete a b1 H (O ++ remaining s) /\ 0 <= h_off s <= zlen (h_data s).
Lemma npos : exists n', n = S n'.
Proof. destruct W as (_ & _ & _ & _ & _ & _ & L). destruct n; [lia|eauto]. Qed.
(** the copying at the end of flush *)
Lemma copy_spec s h room O : closed s (O ++ h) -> 0 <= room - zlen h ->
  let src := remaining s in let len := Z.min (zlen src) (room - zlen h) in
  let s' := HY (h_b s) (h_cm s) (h_bsize s) (h_bcap s) (h_data s) (h_cap s) (h_off s + len) in
  zlen (h ++ zfirst len src) <= room /\
  ((h_off s + len =? zlen (h_data s)) = true /\ complete a b1 H (O ++ h ++ zfirst len src) \/
   (h_off s + len =? zlen (h_data s)) = false /\ zlen (h ++ zfirst len src) = room /\ closed s' (O ++ h ++ zfirst len src) /\ zlen (remaining s') = zlen src - (room - zlen h)).
Proof.
  intros (FB & HD & CP & OF) RM src len s'. assert (LS : zlen src = zlen (h_data s) - h_off s) by (unfold src, remaining; rewrite zlen_skip by lia; lia).
  pose proof (zlen_nonneg src). assert (LL : zlen (zfirst len src) = len) by (rewrite zlen_first by lia; lia). rewrite zlen_app, LL. split; [lia|].
  destruct (Z.eqb_spec (h_off s + len) (zlen (h_data s))) as [E|E]; [left|right]; (split; [reflexivity|]).
  - rewrite app_assoc. assert (Q : zfirst len src = src) by (apply zfirst_all; lia). rewrite Q. exact CP.
  - split; [lia|]. assert (RS : remaining s' = zskip len src) by (unfold remaining, s', src; cbn [h_off h_data]; unfold remaining; rewrite zskip_zskip by lia; f_equal; lia).
    split; [|rewrite RS, zlen_skip by lia; lia]. split; [exact FB|]. split; [exact HD|]. split; [|cbn [s' h_off h_data]; lia]. rewrite RS. rewrite <- !app_assoc, zfirst_skip. rewrite <- app_assoc in CP. exact CP.
Qed.
Lemma closed_flush s room : b_finished fe (h_b s) = true -> cm_hdr (h_cm s) = 16%nat ->
  close PR s room = let src := remaining s in let len := Z.min (zlen src) (room - zlen (@nil Z)) in
    Some ([] ++ zfirst len src, HY (h_b s) (h_cm s) (h_bsize s) (h_bcap s) (h_data s) (h_cap s) (h_off s + len), if h_off s + len =? zlen (h_data s) then PSuccess else PNeedOut).
Proof.
  intros FB HD. cbn [close hybrid_processor]. unfold hybrid_flush. rewrite (start_none _ _ HD). cbn [negb]. destruct npos as (n' & ->). cbn [drive]. unfold internal_encode_stream. cbn [h_b]. rewrite FB. change (zlen (@nil Z) =? 0) with true. cbn [andb bind negb].
  destruct s. reflexivity.
Qed.
Lemma closed_finish : forall rooms s O, closed s O -> Forall (fun r => 0 <= r) rooms ->
  exists o v, hfinish PR s rooms = Some (o, v) /\ (v = HFinished \/ v = HWaiting) /\ (v = HFinished -> complete a b1 H (O ++ o)) /\
    (Forall (fun r => 1 <= r) rooms -> zlen (remaining s) < zlen rooms -> v = HFinished).
Proof.
  induction rooms as [|room rooms IH]; intros s O C R0; cbn [hfinish].
  - exists [], HWaiting. split; [reflexivity|]. split; [auto|]. split; [discriminate|]. intros _ X. pose proof (zlen_nonneg (remaining s)). change (zlen (@nil Z)) with 0 in X. lia.
  - inversion R0 as [|? ? R1 R2]; subst. rewrite closed_flush by apply C. cbn [bind]. rewrite <- (app_nil_r O) in C. destruct (copy_spec s [] room O C ltac:(change (zlen (@nil Z)) with 0; lia)) as (L & K). cbv zeta in *.
    set (len := Z.min (zlen (remaining s)) (room - zlen [])) in *. destruct (Z.ltb_spec room (zlen ([] ++ zfirst len (remaining s)))); [lia|].
    destruct K as [(-> & CP)|(-> & LO & C' & LR)].
    + eexists _, HFinished. split; [reflexivity|]. auto.
    + rewrite LO, Z.ltb_irrefl. destruct (IH _ _ C' R2) as (o2 & v & E2 & V1 & V2 & V3). rewrite E2. cbn [bind]. eexists _, v. split; [reflexivity|]. split; [exact V1|]. split; [intros Q; specialize (V2 Q); rewrite <- app_assoc in V2; exact V2|].
      intros RR X. pose proof (Forall_inv RR) as Q1. pose proof (Forall_inv_tail RR) as Q2. cbv beta in Q1. apply V3; [exact Q2|]. rewrite zlen_cons in X. change (zlen (@nil Z)) with 0 in LR. lia.
Qed.

(** the whole flush, from a session still running; [O] has been delivered *)
Lemma finish_spec b bsize bcap later nE : driven b bsize bcap later nE -> (nE <= n)%nat -> forall rooms cm T data cap O,
  running dict wl D g es a b1 H fuel later cm T -> T = O ++ data -> (cm_hdr cm <> 16%nat -> data = []) -> capok (zlen data) cap -> Forall (fun r => 0 <= r) rooms ->
  exists o v, hfinish PR (HY b cm bsize bcap data cap 0) rooms = Some (o, v) /\ (v = HFinished \/ v = HWaiting) /\ (v = HFinished -> complete a b1 H (O ++ o)) /\
    (Forall (fun r => 1 <= r) rooms -> bound a b1 + 16 - zlen O < zlen rooms -> v = HFinished).
Proof.
  intros DR LE2. destruct W as (WR & EA & EB & BH & HL & LE & LN). induction rooms as [|room rooms IH]; intros cm T data cap O I ET HN CD R0; cbn [hfinish].
  - exists [], HWaiting. split; [reflexivity|]. split; [auto|]. split; [discriminate|]. intros _ X. pose proof (sinv_bounds dict wl D g es a b1 H WR EA EB HL fuel _ _ _ (proj1 I)) as BD. rewrite ET, zlen_app in BD. pose proof (zlen_nonneg data). change (zlen (@nil Z)) with 0 in X. lia.
  - inversion R0 as [|? ? R1 R2]; subst. cbn [close hybrid_processor]. unfold hybrid_flush. cbn [h_b h_cm h_bsize h_bcap h_data h_cap h_off].
    destruct I as (I & P). destruct (start_spec dict wl D g es a b1 H BH HL fuel _ _ _ room I R1 ltac:(congruence)) as (h & cm' & ok & E & L & I1 & T1 & F1 & P1). rewrite E.
    assert (HN1 : data = [] \/ (h = [] /\ cm' = cm)). { destruct (Nat.eq_dec (cm_hdr cm) 16) as [Q|Q]; [right|left; apply HN, Q]. rewrite (start_none _ _ Q) in E. split; congruence. }
    assert (EO : (O ++ data) ++ h = (O ++ h) ++ data) by (destruct HN1 as [->|(-> & _)]; rewrite ?app_nil_r; reflexivity).
    destruct ok; cbn [negb].
    + specialize (T1 eq_refl). destruct (DR es a b1 H fuel F n W n cm' ((O ++ data) ++ h) data cap 0 LE2 (conj I1 (eq_trans P1 P)) T1 CD) as (b' & cm2 & bs' & bc' & o & cap' & E2 & F2 & C2 & H2).
      rewrite E2. cbn [bind negb]. rewrite EO, <- app_assoc in C2.
      set (s2 := HY b' cm2 bs' bc' (data ++ o) cap' 0) in *. assert (CL : closed s2 (O ++ h)). { split; [exact F2|]. split; [exact H2|]. split; [exact C2|]. cbn [s2 h_off h_data]. pose proof (zlen_nonneg (data ++ o)). lia. }
      destruct (copy_spec s2 h room O CL ltac:(lia)) as (LO & K). cbv zeta in LO, K. fold (remaining s2). set (len := Z.min (zlen (remaining s2)) (room - zlen h)) in *. cbn [bind]. destruct (Z.ltb_spec room (zlen (h ++ zfirst len (remaining s2)))); [lia|].
      destruct K as [(-> & CP)|(-> & LO2 & C' & LR)].
      * eexists _, HFinished. split; [reflexivity|]. auto.
      * rewrite LO2, Z.ltb_irrefl. destruct (closed_finish rooms _ _ C' R2) as (o3 & v & E3 & V1 & V2 & V3). rewrite E3. cbn [bind]. eexists _, v. split; [reflexivity|]. split; [exact V1|]. split; [intros Q; specialize (V2 Q); rewrite <- !app_assoc in *; exact V2|].
        intros RR X. pose proof (Forall_inv RR) as Q1. pose proof (Forall_inv_tail RR) as Q2. cbv beta in Q1. apply V3; [exact Q2|]. rewrite zlen_cons in X. rewrite LR. clear - X C2 LO2 EA EB WR HL Q1 BH.
        assert (zlen ((O ++ h) ++ data ++ o) <= bound a b1 + 16). { destruct C2 as (V & FR & ->). pose proof (proj2 (framed_bounds es a b1 H WR EA EB HL V FR)) as Q. rewrite !zlen_app. assert (ZH : zlen H = 16) by (unfold zlen; rewrite HL; reflexivity). rewrite ZH. assert (Z8 : zlen (checksum_bytes (crc0 (H ++ V))) = 8) by reflexivity. rewrite Z8. unfold bound. lia. }
        unfold remaining, s2 in *. cbn [h_off h_data]. change (zskip 0 (data ++ o)) with (data ++ o). rewrite !zlen_app in *. pose proof (zlen_nonneg h). lia.
    + cbn [bind]. specialize (F1 eq_refl). destruct (Z.ltb_spec room (zlen h)); [lia|]. rewrite F1, Z.ltb_irrefl.
      destruct (IH cm' _ data cap (O ++ h) (conj I1 (eq_trans P1 P)) EO) as (o3 & v & E3 & V1 & V2 & V3); [|exact CD|exact R2|].
      { intros Q. destruct HN1 as [Q1|(_ & Q1)]; [exact Q1|]. subst cm'. apply HN, Q. }
      rewrite E3. cbn [bind]. eexists _, v. split; [reflexivity|]. split; [exact V1|]. split; [intros Q; specialize (V2 Q); rewrite <- !app_assoc in *; exact V2|].
      intros RR X. pose proof (Forall_inv RR) as Q1. pose proof (Forall_inv_tail RR) as Q2. cbv beta in Q1. apply V3; [exact Q2|]. rewrite zlen_cons in X. rewrite zlen_app. lia.
Qed.
End Flush.

(** one encode call *)
Lemma encode_step b x cs bsize bcap input : RE b x cs -> b_finished fe b = false -> capok bsize bcap -> bytes input ->
  exists k w ms b' bs' bc', capok bs' bc' /\ RE b' (x ++ zfirst k input) (cs ++ concat (map (block optimize) ms)) /\ b_finished fe b' = false /\ 0 <= k <= zlen input /\
    b_step fe b false input (grown bsize bcap 256 - bsize) = Some (k, w, ms, b') /\
    forall es a b1 H fuel F n, world es a b1 H fuel F n -> forall later cm T data cap room,
      running dict wl D g es a b1 H fuel (concat (map (block optimize) ms) ++ later) cm T -> (cm_hdr cm <> 16%nat -> data = []) -> capok (zlen data) cap ->
      exists cm' o cap', capok (zlen (data ++ o)) cap' /\ (cm_hdr cm' <> 16%nat -> data ++ o = []) /\
        process (hybrid_processor dict wl D g fe optimize n F) (HY b cm bsize bcap data cap 0) input room = Some (k, [], HY b' cm' bs' bc' (data ++ o) cap' 0, PNeedIn) /\
        running dict wl D g es a b1 H fuel later cm' (T ++ o).
Proof.
  intros R NF CO BI. destruct (grown_ok _ _ 256 CO ltac:(lia)) as (CO' & G1 & G2). set (bc := grown bsize bcap 256) in *.
  destruct (gf_works _ _ _ _ _ _ _ _ GF b x cs false input (bc - bsize) R NF ltac:(discriminate) BI ltac:(lia)) as (k & w & ms & b' & ST & K & WW & OP & FN & _). destruct (FN eq_refl) as (FB & _). clear FN. rename FB into FN.
  exists k, w, ms, b', (bsize + w), bc. split; [destruct CO' as (S0 & [S1|S1]); [lia|split; [lia|right; lia]]|]. split.
  { exact (reaches_step fe optimize b0 b x cs false input (bc - bsize) k w ms b' R NF ltac:(discriminate) BI ltac:(lia) ST). }
  split; [exact FN|]. split; [exact K|]. split; [exact ST|].
  intros es a b1 H fuel F n (WR & EA & EB & BH & HL & LE & LN) later cm T data cap room I HD CD.
  destruct (callbacks_spec dict wl D g es a b1 H WR EA EB BH HL fuel F LE n LN optimize ms later cm T data cap I OP CD) as (cm1 & o1 & cap1 & E1 & I1 & C1 & H1).
  exists cm1, o1, cap1. split; [exact C1|]. split; [intros Q; destruct H1 as [H1|(-> & ->)]; [contradiction|rewrite app_nil_r; auto]|]. split; [|exact I1].
  cbn [process hybrid_processor]. unfold hybrid_encode, internal_encode_stream. cbn [h_b h_cm h_bsize h_bcap h_data h_cap h_off]. rewrite NF. fold bc. rewrite andb_false_r, ST, E1. cbn [bind andb].
  destruct (negb (bc - bsize - w =? 0) && (zlen input - k =? 0) && negb (b_finished fe b')); reflexivity.
Qed.

(** [left]: some input is not consumed when the encode calls are over *)
Lemma hsession_spec : forall calls b x cs bsize bcap rest, RE b x cs -> b_finished fe b = false -> capok bsize bcap -> bytes (rest ++ offered calls) ->
  exists later nE b' x' left, RE b' x' (cs ++ later) /\ (left = false -> x' = x ++ rest ++ offered calls /\ b_finished fe b' = true) /\
    (eager fe -> forall calls1 calls2, calls = calls1 ++ calls2 -> offered calls2 = [] -> zlen rest + zlen (offered calls1) <= zlen calls2 -> left = false) /\
    forall es a b1 H fuel F n, world es a b1 H fuel F n -> (nE <= n)%nat -> forall rooms cm data cap,
      running dict wl D g es a b1 H fuel later cm data -> (cm_hdr cm <> 16%nat -> data = []) -> capok (zlen data) cap ->
      Forall (fun c => 0 <= snd c) calls -> Forall (fun r => 0 <= r) rooms ->
      exists o v, hsession (hybrid_processor dict wl D g fe optimize n F) (HY b cm bsize bcap data cap 0) rest calls rooms = Some (o, v) /\
        (left = true -> v = HLeft) /\
        (left = false -> (v = HFinished \/ v = HWaiting) /\ (v = HFinished -> complete a b1 H o) /\ (Forall (fun r => 1 <= r) rooms -> bound a b1 + 16 < zlen rooms -> v = HFinished)).
Proof.
  induction calls as [|(piece, room) calls IH]; intros b x cs bsize bcap rest R NF CO BX.
  - destruct rest as [|z rest].
    + destruct (gf_ends _ _ _ _ _ _ _ _ GF b x cs R) as (N & EN). destruct (drive_spec N b x cs bsize bcap R NF EN CO) as (later & nE & (b' & R' & F') & DR).
      exists later, nE, b', x, false. split; [exact R'|]. split; [intros _; change (offered []) with (@nil Z); rewrite !app_nil_r; auto|]. split; [reflexivity|].
      intros es a b1 H fuel F n W LE rooms cm data cap I HD CD _ R0. cbn [hsession].
      destruct (finish_spec es a b1 H fuel F n W b bsize bcap later nE DR LE rooms cm data data cap [] I eq_refl HD CD R0) as (o & v & E & V1 & V2 & V3).
      exists o, v. split; [exact E|]. split; [discriminate|]. intros _. split; [exact V1|]. split; [exact V2|]. intros Q1 Q2. apply V3; [exact Q1|]. change (zlen (@nil Z)) with 0. lia.
    + exists [], O, b, x, true. rewrite app_nil_r. split; [exact R|]. split; [discriminate|]. split.
      * intros _ c1 c2 E OE L. symmetry in E. apply app_eq_nil in E. destruct E as (-> & ->). rewrite zlen_cons in L. pose proof (zlen_nonneg rest). change (zlen (offered [])) with 0 in L. change (zlen (@nil (list Z * Z))) with 0 in L. lia.
      * intros es a b1 H fuel F n W LE rooms cm data cap I HD CD _ R0. cbn [hsession]. exists [], HLeft. split; [reflexivity|]. split; [reflexivity|discriminate].
  - change (offered ((piece, room) :: calls)) with (piece ++ offered calls) in BX |- *. rewrite app_assoc in BX. pose proof (proj1 (proj1 (Forall_app _ _ _) BX)) as BI. fold (bytes (rest ++ piece)) in BI.
    destruct (encode_step b x cs bsize bcap (rest ++ piece) R NF CO BI) as (k & w & ms & b' & bs' & bc' & CO' & R' & NF' & K & ST & STEP).
    assert (BR : bytes (zskip k (rest ++ piece) ++ offered calls)). { rewrite <- (zfirst_skip k (rest ++ piece)), <- app_assoc in BX. exact (proj2 (proj1 (Forall_app _ _ _) BX)). }
    destruct (IH b' _ _ bs' bc' (zskip k (rest ++ piece)) R' NF' CO' BR) as (later & nE & b2 & x2 & left & R2 & FI & EG & K2).
    exists (concat (map (block optimize) ms) ++ later), nE, b2, x2, left. split; [rewrite app_assoc; exact R2|]. split; [|split].
    + intros Q. destruct (FI Q) as (-> & F2). split; [|exact F2]. rewrite <- app_assoc. f_equal. rewrite (app_assoc (zfirst k (rest ++ piece))), zfirst_skip. symmetry. exact (app_assoc rest piece (offered calls)).
    + intros EA c1 c2 E OE L. assert (LS : zlen (zskip k (rest ++ piece)) = zlen rest + zlen piece - k) by (rewrite zlen_skip, zlen_app by lia; rewrite zlen_app in K; lia).
      destruct c1 as [|c c1]; cbn [app] in E.
      * subst c2. change (offered ((piece, room) :: calls)) with (piece ++ offered calls) in OE. apply (EG EA [] calls eq_refl); [apply app_eq_nil in OE; apply OE|]. apply app_eq_nil in OE. destruct OE as (-> & OE). change (zlen (offered [])) with 0 in *. rewrite app_nil_r in *. rewrite zlen_cons in L. change (zlen (@nil Z)) with 0 in LS.
        destruct rest as [|z rest]; [change (zlen (@nil Z)) with 0 in *; pose proof (zlen_nonneg calls); lia|]. pose proof (EA b (z :: rest) _ k w ms b' ltac:(discriminate) ST). lia.
      * assert (Q : calls = c1 ++ c2) by congruence. assert (Q0 : c = (piece, room)) by congruence. subst c. apply (EG EA c1 c2 Q OE). change (offered ((piece, room) :: c1)) with (piece ++ offered c1) in L. rewrite zlen_app in L. lia.
    + intros es a b1 H fuel F n W LE rooms cm data cap I HD CD RC R0. pose proof (Forall_inv RC) as RM. cbn [snd] in RM. pose proof (Forall_inv_tail RC) as RC'.
      destruct (STEP es a b1 H fuel F n W later cm data data cap room I HD CD) as (cm' & o & cap' & CD' & HD' & E & I').
      destruct (K2 es a b1 H fuel F n W LE rooms cm' (data ++ o) cap' I' HD' CD' RC' R0) as (o2 & v & E2 & V1 & V2). cbn [hsession]. rewrite E. cbn [bind]. change (zlen (@nil Z)) with 0.
      destruct (Z.ltb_spec room 0); [lia|]. destruct (Z.ltb_spec k 0); [lia|]. destruct (Z.ltb_spec (zlen (rest ++ piece)) k); [lia|]. cbn [orb]. rewrite E2. cbn [bind app]. exists o2, v. auto.
Qed.
End W.
