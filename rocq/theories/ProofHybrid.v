(** The default compressor: the codec below the front end. *)
From Verif Require Import Prelude ProofList ModelAns SpecAns ProofAnsRt ModelCdf SpecCdf ModelMux SpecMux ProofZlist ProofMux ProofMuxW ProofMuxR ModelCmd ModelCrc SpecCrc ProofCrc ModelHeader SpecHeader ProofHeader ThmHeader ModelRecode SpecLz ModelPriors ModelCodec ModelLit ModelPm ModelTop SpecCodec SpecReplay ProofCodecInv ProofCodecInv2 ProofRun ProofCopy ProofTop ThmCodec ModelEnc SpecEnc SpecFile ProofEnc ProofEnc2 ProofEnc3 ProofEnc4 ModelIo ModelHybrid SpecHybrid.

(** The memory of a buffer: none yet, or at least 66000 bytes. *)
Definition capok (size cap : Z) : Prop := 0 <= size /\ ((cap = 0 /\ size = 0) \/ (66000 <= cap /\ size <= cap)).
Lemma grown_ok size cap m : capok size cap -> 0 <= m <= 272 -> capok size (grown size cap m) /\ m <= grown size cap m - size /\ 66000 <= grown size cap m.
Proof. intros (S0 & [(-> & ->)|(C & S)]) M; unfold grown, capok; [rewrite Z.eqb_refl; lia|]. destruct (Z.eqb_spec cap 0); [lia|]. destruct (Z.ltb_spec cap (size + m)); lia. Qed.

Lemma start_full s room : 16 <= room -> exists h s', start_call s room = (h, s', true) /\ cm_hdr s' = 16%nat.
Proof.
  intros R. unfold start_call. destruct (Nat.eqb_spec (cm_hdr s) HEADER_LENGTH) as [E|E]; [eexists _, _; split; [reflexivity|exact E]|]. unfold write_header, HEADER_LENGTH. destruct (Nat.ltb_spec (Z.to_nat room + cm_hdr s) 16); [lia|]. eexists _, _. split; reflexivity.
Qed.
Lemma start_none s room : cm_hdr s = 16%nat -> start_call s room = ([], s, true).
Proof. intros E. unfold start_call. rewrite E. reflexivity. Qed.
Local Opaque codec_flush codec_encode.
Lemma encode_hdr dict wl D g F s cmds room o s' rest r : encode_commands dict wl D g F s cmds room = Some (o, s', rest, r) -> 16 <= room -> cm_hdr s' = 16%nat.
Proof.
  intros E R. unfold encode_commands in E. destruct (start_full s room R) as (h & s1 & ES & HD). rewrite ES in E. cbn [negb] in E. destruct (codec_encode dict wl D g F cmds (cm_codec s1) (room - zlen h)) as [(((o1 & c1) & rest1) & r1)|]; [|discriminate E].
  cbn [bind] in E. assert (Q : s' = CM (cm_hdr s1) (cm_ws s1) c1) by congruence. rewrite Q. exact HD.
Qed.
Lemma flush_16 dict wl D g F s room : cm_hdr s = 16%nat ->
  flush dict wl D g F s room = let? '(o, c, r) := codec_flush dict wl D g F (cm_codec s) room in Some (o, CM (cm_hdr s) (cm_ws s) c, r).
Proof. intros HD. unfold flush. rewrite (start_none _ _ HD). cbn [negb]. rewrite (Z.sub_0_r room : room - zlen [] = room). reflexivity. Qed.

Section W.
Context (dict : dict_fn) (wl : word_len_fn) (D : dims) (g : cfg) (es : list ev) (a b H : list Z).
Context (WR : writable es) (EA : ans_encode (sfs_of CMD es) = Some a) (EB : ans_encode (sfs_of LIT es) = Some b) (BH : bytes H) (HL : length H = 16%nat).
Context (fuel F : nat) (LE : (fuel <= F)%nat) (n : nat) (LN : (Z.to_nat (bound a b + 16) < n)%nat).
Notation SI := (sinv dict wl D g es a b H fuel).
Definition running (later : list command) (cm : compressor) (T : list Z) : Prop := SI later cm T /\ ec_phase (cm_codec cm) = PRun.

Lemma dec_spec : forall k cmds later cm T data cap, running (cmds ++ later) cm T -> cmds <> [] -> capok (zlen data) cap -> (Z.to_nat (bound a b + 16 - zlen T) < k)%nat ->
  exists cm' o cap', divans_encode_commands dict wl D g k F cmds cm data cap = Some (cm', data ++ o, cap') /\ running later cm' (T ++ o) /\ capok (zlen (data ++ o)) cap' /\ cm_hdr cm' = 16%nat.
Proof.
  induction k as [|k IH]; intros cmds later cm T data cap (I & P) NE CO LK; [lia|]. cbn [divans_encode_commands].
  destruct (grown_ok _ _ (16 + 256) CO ltac:(lia)) as (CO' & G1 & G2). set (cap' := grown (zlen data) cap (16 + 256)) in *.
  destruct (start_full cm (cap' - zlen data) ltac:(lia)) as (h & cm0 & SF & _). rewrite SF. cbn [negb].
  destruct (ProofEnc4.encode_commands_spec dict wl D g es a b H WR EA EB BH HL fuel F cmds later cm T (cap' - zlen data) I P NE LE ltac:(lia)) as (o & cm' & rest & r & E & L & I' & P' & K).
  rewrite E. cbn [bind]. assert (CO2 : capok (zlen (data ++ o)) cap'). { rewrite zlen_app. pose proof (zlen_nonneg o). pose proof (zlen_nonneg data). split; [lia|]. right. lia. }
  pose proof (encode_hdr _ _ _ _ _ _ _ _ _ _ _ _ E ltac:(lia)) as HD.
  destruct K as [(-> & ->)|(-> & ZO & NE')].
  - exists cm', o, cap'. split; [reflexivity|]. split; [split; assumption|]. split; [exact CO2|exact HD].
  - pose proof (sinv_bounds dict wl D g es a b H WR EA EB HL fuel _ _ _ I') as BD. rewrite zlen_app in BD.
    destruct (IH rest later cm' (T ++ o) (data ++ o) cap' (conj I' P') NE' CO2 ltac:(rewrite zlen_app; lia)) as (cm2 & o2 & cap2 & E2 & R2 & C2 & D2).
    exists cm2, (o ++ o2), cap2. rewrite !app_assoc in *. split; [exact E2|]. split; [exact R2|]. split; [exact C2|auto].
Qed.
Lemma bounded later cm T : running later cm T -> (Z.to_nat (bound a b + 16 - zlen T) < n)%nat.
Proof. intros _. pose proof (zlen_nonneg T). lia. Qed.

Context (optimize : metablock -> option metablock).
Lemma callback_spec m later cm T data cap : running (block optimize m ++ later) cm T -> optimize m <> None -> capok (zlen data) cap ->
  exists cm' o cap', callback dict wl D g optimize n F m cm data cap = Some (cm', data ++ o, cap', false) /\ running later cm' (T ++ o) /\ capok (zlen (data ++ o)) cap' /\ cm_hdr cm' = 16%nat.
Proof.
  intros I O CO. unfold callback, block in *. destruct (optimize m) as [(pm & cmds)|]; [|contradiction O; reflexivity]. change ((PredictionMode pm :: cmds) ++ later) with ([PredictionMode pm] ++ (cmds ++ later)) in I.
  destruct (dec_spec n _ _ cm T data cap I ltac:(discriminate) CO (bounded _ _ _ I)) as (cm1 & o1 & cap1 & E1 & I1 & C1 & H1). rewrite E1. cbn [bind].
  destruct cmds as [|c cs]; [exists cm1, o1, cap1; auto|].
  destruct (dec_spec n _ _ cm1 _ _ cap1 I1 ltac:(discriminate) C1 (bounded _ _ _ I1)) as (cm2 & o2 & cap2 & E2 & I2 & C2 & H2). rewrite E2. cbn [bind]. exists cm2, (o1 ++ o2), cap2. rewrite !app_assoc in *. auto 10.
Qed.
Lemma callbacks_spec : forall ms later cm T data cap, running (concat (map (block optimize) ms) ++ later) cm T -> Forall (fun m => optimize m <> None) ms -> capok (zlen data) cap ->
  exists cm' o cap', callbacks dict wl D g optimize n F ms cm data cap false = Some (cm', data ++ o, cap', false) /\ running later cm' (T ++ o) /\ capok (zlen (data ++ o)) cap' /\ (cm_hdr cm' = 16%nat \/ (cm' = cm /\ o = [])).
Proof.
  induction ms as [|m ms IH]; intros later cm T data cap I O CO; cbn [callbacks].
  - exists cm, [], cap. rewrite !app_nil_r. auto 10.
  - inversion O as [|? ? O1 O2]; subst. cbn [map concat] in I. rewrite <- app_assoc in I. destruct (callback_spec m _ cm T data cap I O1 CO) as (cm1 & o1 & cap1 & E1 & I1 & C1 & H1). rewrite E1. cbn [bind orb].
    destruct (IH later cm1 _ _ cap1 I1 O2 C1) as (cm2 & o2 & cap2 & E2 & I2 & C2 & H2). exists cm2, (o1 ++ o2), cap2. rewrite !app_assoc in *. split; [exact E2|]. split; [exact I2|]. split; [exact C2|]. left. destruct H2 as [H2|(-> & _)]; assumption.
Qed.
Lemma flush_codec_spec : forall k cm T data cap, SI [] cm T -> ec_phase (cm_codec cm) <> PDone -> cm_hdr cm = 16%nat -> capok (zlen data) cap -> (Z.to_nat (bound a b + 16 - zlen T) < k)%nat ->
  exists cm' o cap', flush_codec dict wl D g k F cm data cap = Some (cm', data ++ o, cap', PSuccess) /\ complete a b H (T ++ o) /\ capok (zlen (data ++ o)) cap' /\ cm_hdr cm' = 16%nat.
Proof.
  induction k as [|k IH]; intros cm T data cap I P HD CO LK; [lia|]. cbn [flush_codec].
  destruct (grown_ok _ _ (16 + 256) CO ltac:(lia)) as (CO' & G1 & G2). set (cap' := grown (zlen data) cap (16 + 256)) in *.
  destruct (ProofEnc4.flush_spec dict wl D g es a b H WR EA EB BH HL fuel F cm T (cap' - zlen data) I P LE ltac:(lia)) as (o & cm' & r & E & L & I' & K).
  rewrite (flush_16 _ _ _ _ _ _ _ HD) in E.
  destruct (codec_flush dict wl D g F (cm_codec cm) (cap' - zlen data)) as [((o1 & c1) & r1)|]; [|discriminate E]. cbn [bind] in E |- *.
  assert (Q : o1 = o /\ CM (cm_hdr cm) (cm_ws cm) c1 = cm' /\ r1 = r) by (split; [congruence|split; congruence]). destruct Q as (-> & Q2 & ->). rewrite Q2. clear E.
  assert (HD' : cm_hdr cm' = 16%nat) by (rewrite <- Q2; exact HD).
  assert (CO2 : capok (zlen (data ++ o)) cap'). { rewrite zlen_app. pose proof (zlen_nonneg o). pose proof (zlen_nonneg data). split; [lia|]. right. lia. }
  destruct K as [(-> & PD)|(-> & ZO & NE')].
  - exists cm', o, cap'. split; [reflexivity|]. split; [|split; [exact CO2|exact HD']].
    destruct I' as (O & E2 & HB & HS & _ & PI & _). unfold phinv in PI. rewrite PD in PI. destruct PI as (_ & X & FR & ->). exists X. split; [exact FR|]. rewrite E2, HD', (H16 H HL). reflexivity.
  - pose proof (sinv_bounds dict wl D g es a b H WR EA EB HL fuel _ _ _ I') as BD. rewrite zlen_app in BD.
    destruct (IH cm' (T ++ o) (data ++ o) cap' I' NE' HD' CO2 ltac:(rewrite zlen_app; lia)) as (cm2 & o2 & cap2 & E2 & R2 & C2 & H2).
    exists cm2, (o ++ o2), cap2. rewrite !app_assoc in *. auto 10.
Qed.
End W.
