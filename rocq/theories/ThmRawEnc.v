(** C46: compressing raw bytes and decompressing them again. *)
From Verif Require Import Prelude ProofList ModelAns SpecAns ProofAnsRt ModelCdf SpecCdf ModelMux SpecMux ProofZlist ProofMux ProofMuxW ProofMuxR ModelCmd ModelCrc SpecCrc ProofCrc ModelHeader SpecHeader ProofHeader ThmHeader ModelRecode SpecLz ModelPriors ModelCodec ModelLit ModelPm ModelTop SpecCodec SpecReplay ProofCodecInv ProofCodecInv2 ProofRun ProofCopy ProofTop ThmCodec ModelEnc SpecEnc SpecFile ProofEnc ProofEnc2 ProofEnc3 ProofEnc4 ProofSim ThmEnc ModelDec SpecDec ThmDec ModelRaw ModelRawEnc SpecRawEnc ProofRecode ThmRaw ProofRawEnc ProofRawEnc2.

(** The options do not matter: the default prediction mode is encodable under all of them. *)
Lemma raw_pm_ok g : cfg_ok g -> pm_encodable real_dims g (raw_pm real_dims).
Proof.
  intros (G1 & G2 & G3 & G4). unfold pm_encodable, raw_pm. cbn [pm_mode pm_adv]. split; [lia|]. split; [left; reflexivity|]. split; [|split].
  - unfold desired_speeds. cbn [has_speeds]. destruct (want_adapt g) as [a|]; [exists a; split; [reflexivity|exact G4]|].
    cbn [has_speeds cm_f8 stride_f8 comb_f8]. exists [MUD; MUD; MUD; MUD]. split; [destruct (negb (want_mixing g =? 0)); reflexivity|]. split; [|reflexivity].
    repeat (apply Forall_cons; [unfold sane_speed, MUD; cbn [fst snd]; lia|]). apply Forall_nil.
  - intros _. assert (BB : forall l, forallb (fun x => (0 <=? x) && (x <? 256)) l = true -> bytes l).
    { intros l H. rewrite forallb_forall in H. apply Forall_forall. intros x X. specialize (H x X). unfold byte. lia. }
    cbn [lit_map src_map dist_map]. split; [apply BB; reflexivity|]. split; [vm_compute; discriminate|]. split; [apply BB; reflexivity|]. split; vm_compute; discriminate.
  - intros _. cbn [mixing]. split; [apply Forall_forall; intros x X; apply repeat_spec in X; subst x; unfold nibble; lia|]. unfold zlen. rewrite repeat_length. cbn [real_dims n_mix]. lia.
Qed.
Lemma real_fits : fits real_dims. Proof. vm_compute. intuition congruence. Qed.
Lemma lit_of_ok D g d : bytes d -> zlen d <= 2 ^ 24 -> Forall (encodable D g) (lit_of d).
Proof. intros B L. destruct d as [|z d]; [constructor|]. constructor; [|constructor]. cbn [encodable]. split; [exact B|]. rewrite zlen_cons in *. pose proof (zlen_nonneg d). lia. Qed.
Lemma raw_acceptable dict wl g ws X : cfg_ok g -> 10 <= ws <= 24 -> bytes X -> zlen X < 2 * 2 ^ ws - 1 -> acceptable dict wl real_dims g ws (raw_cmds real_dims ws X).
Proof.
  intros G WS BX LX. assert (L24 : 2 ^ ws <= 2 ^ 24) by (apply Z.pow_le_mono_r; lia). assert (L10 : 2 ^ 10 <= 2 ^ ws) by (apply Z.pow_le_mono_r; lia). pose proof (zlen_nonneg X).
  split.
  - unfold raw_cmds. constructor; [cbn [encodable]; apply raw_pm_ok, G|]. destruct (Z.ltb_spec (zlen X) (2 ^ ws)); [apply lit_of_ok; [exact BX|lia]|]. constructor.
    + cbn [encodable]. split; [apply bytes_firstn, BX|]. rewrite zfirst_len_sub by lia. lia.
    + apply lit_of_ok; [apply bytes_skipn, BX|]. rewrite zlen_skip by lia. lia.
  - assert (TL : forall pm d, Forall (replayable dict (2 ^ ws)) (coded_all wl real_dims g pm (lit_of d))) by (intros pm []; cbn [lit_of coded_all coded]; repeat constructor).
    unfold raw_cmds. cbn [coded_all coded]. constructor; [exact Logic.I|]. destruct (zlen X <? 2 ^ ws); [apply TL|]. cbn [coded_all coded]. constructor; [exact Logic.I|apply TL].
Qed.
Lemma raw_meaning dict ws X h : 0 <= 2 ^ ws -> meaning dict h (raw_cmds real_dims ws X) = X.
Proof.
  intros L. assert (ML : forall d h, meaning dict h (lit_of d) = d) by (intros [|z d] h0; [reflexivity|]; cbn [lit_of meaning meaning1]; apply app_nil_r).
  unfold raw_cmds. cbn [meaning meaning1 app]. destruct (zlen X <? 2 ^ ws); [apply ML|]. cbn [meaning meaning1]. rewrite ML. apply zfirst_skip.
Qed.

(** C46, the file.  Raw bytes [X], fewer than twice the window minus one, given in any
    pieces, with output buffers of any sizes (empty ones included), then the flush: the
    compressor does not panic, fail, overrun a buffer, claim to have read more than it was
    given, or ask for input or space it still has.  When flush reports success the output
    is a file for the commands [raw_cmds X], and it does report success when enough calls
    offering at least one byte follow the last piece, and enough flush calls. *)
Theorem C46_raw_file : forall dict wl g opt X a b,
  cfg_ok g -> bytes X -> zlen X < 2 * 2 ^ choose_window opt - 1 -> streams_of dict wl real_dims g (choose_window opt) (raw_cmds real_dims (choose_window opt) X) a b ->
  exists fuel0, forall fuel calls rooms, (fuel0 <= fuel)%nat ->
    offered calls = X -> Forall (fun c => 0 <= snd c) calls -> Forall (fun r => 0 <= r) rooms ->
  exists o v, rsession dict wl real_dims g fuel (rawc_new real_dims opt) [] calls rooms = Some (o, v) /\ v <> Broken /\
    (v = Finished -> is_file (choose_window opt) a b o) /\
    (forall calls1 calls2, calls = calls1 ++ calls2 -> offered calls1 = X -> Forall (fun c => 1 <= snd c) calls2 -> Forall (fun r => 1 <= r) rooms ->
       4 * (zlen a + zlen b) + 27 < zlen calls2 -> 4 * (zlen a + zlen b) + 27 < zlen rooms -> v = Finished).
Proof.
  intros dict wl g opt X a b G BX LX (fuel0 & c & es & E & W & EA & EB). set (ws := choose_window opt) in *.
  pose proof (choose_window_range opt) as WR. fold ws in WR. assert (L10 : 2 ^ 10 <= 2 ^ ws) by (apply Z.pow_le_mono_r; lia).
  destruct (enc_ring dict ws (window ws) wl real_dims g fuel0 _ c _ es ltac:(lia) (window_len ws ltac:(lia)) E) as (c' & E').
  destruct (header_bytes ws (choose_window_byte opt)) as (BH & HL).
  pose proof (BA es a W EA) as BA. pose proof (ProofEnc4.BB es b W EB) as BB.
  exists fuel0. intros fuel calls rooms LE CC RC RR0.
  destruct (rsession_spec dict wl real_dims g es a b (make_header ws) W EA EB BH HL ws ltac:(lia) real_fits X LX fuel0 fuel LE rooms RR0 calls (rawc_new real_dims opt) [] [] []) as (o & v & S & NBR & FI & LV).
  - unfold rinv, rawc_new. cbn [rw_asm rw_cm rw_frz app]. fold ws. split; [exact (window_len ws ltac:(lia))|]. split; [|split; [|split; [reflexivity|split; [reflexivity|]]]].
    + apply AF; cbn [raw_new roi rdi produced_header rring]; try reflexivity. change (zlen (@nil Z)) with 0. lia.
    + unfold pending. change (zlen (@nil Z)) with 0. destruct (Z.ltb_spec 0 (2 ^ ws)); [|lia].
      exists []. cbn [compressor_new cm_hdr cm_codec cm_ws firstn app ecodec_new ec_phase]. split; [reflexivity|]. split; [lia|]. split; [split; reflexivity|]. split; [reflexivity|]. split; [|split; [|constructor]].
      * unfold phinv. cbn [ec_phase ec_parts ec_codec]. exists [], es. split; [reflexivity|]. split; [apply einv_new|]. split; [|reflexivity]. eexists _, _. exact E'.
      * unfold crcok. cbn [ec_phase ec_frozen ec_crc]. split; reflexivity.
    + intros _. split; [reflexivity|]. split; [eexists; reflexivity|reflexivity].
  - exact CC.
  - exact RC.
  - exists o, v. split; [exact S|]. split; [exact NBR|]. split.
    + intros F. destruct (FI F) as (Y & FR & EO). cbn [app] in EO. exists Y. split; [apply framed_framing, FR|]. split; [apply framed_carries; assumption|]. rewrite EO.
      assert (BY : bytes Y). { destruct FR as (fs & GG & -> & P0 & P1). apply bytes_app; [apply enc_bytes; [exact GG|rewrite P0; exact BA|rewrite P1; exact BB]|]. repeat constructor; unfold byte; lia. }
      rewrite checksum_bytes_trailer, crc0_spec by (apply bytes_app; assumption). reflexivity.
    + intros c1 c2 EC O1 R2 R1 L2 L1. apply (LV R1 ltac:(unfold bound; lia) c1 c2 EC); [|exact R2|left; unfold bound; change (zlen (@nil Z)) with 0; lia].
      rewrite EC in CC. unfold offered in *. rewrite map_app, concat_app, O1 in CC. rewrite <- (app_nil_r X) in CC at 2. apply app_inv_head in CC. exact CC.
Qed.

(** C46, the round trip.  The file made from raw bytes [X], given to a decompressor in any
    pieces with output buffers of any sizes: it puts out a beginning of [X], and all of
    [X] when it reports success, which it does when given the whole file and enough
    space. *)
Theorem C46_raw_roundtrip : forall dict wl g opt X skip,
  cfg_ok g -> bytes X -> zlen X < 2 * 2 ^ choose_window opt - 1 ->
  exists fuel0 calls0, forall fuel calls rooms, (fuel0 <= fuel)%nat ->
    offered calls = X -> Forall (fun c => 0 <= snd c) calls -> Forall (fun r => 0 <= r) rooms ->
  exists T v, rsession dict wl real_dims g fuel (rawc_new real_dims opt) [] calls rooms = Some (T, v) /\ v <> Broken /\
    (forall calls1 calls2, calls = calls1 ++ calls2 -> offered calls1 = X -> Forall (fun c => 1 <= snd c) calls2 -> Forall (fun r => 1 <= r) rooms ->
       calls0 < zlen calls2 -> calls0 < zlen rooms -> v = Finished) /\
    (v = Finished -> forall dcalls future, offered dcalls ++ future = T -> Forall (fun c => 0 <= snd c) dcalls ->
       exists o rest v, dsession dict wl real_dims skip fuel decompressor_new [] dcalls = Some (o, rest, v) /\ v <> Broken /\
         (exists more, X = o ++ more) /\
         (v = Finished -> o = X /\ future = [] /\ rest = []) /\
         (forall calls1 calls2, dcalls = calls1 ++ calls2 -> offered calls1 = T -> Forall (fun c => 1 <= snd c) calls2 ->
            zlen X < zlen calls2 -> v = Finished)).
Proof.
  intros dict wl g opt X skip G BX LX. set (ws := choose_window opt) in *.
  assert (WS : 10 <= ws <= 24) by (unfold ws, choose_window; lia). assert (B : big real_dims) by (vm_compute; intuition congruence). assert (L10 : 2 ^ 10 <= 2 ^ ws) by (apply Z.pow_le_mono_r; lia).
  pose proof (raw_acceptable dict wl g ws X G WS BX LX) as AC.
  destruct (C28_streams_exist dict wl real_dims g _ _ B G AC) as (a & b & ST & _).
  destruct (C46_raw_file dict wl g opt X a b G BX LX ST) as (f1 & H1).
  destruct (C27_decode_any_file dict wl real_dims g _ _ a b skip B G WS AC ST) as (f2 & H2). rewrite (raw_meaning dict ws X _ ltac:(lia)) in H2.
  exists (max f1 f2), (4 * (zlen a + zlen b) + 27). intros fuel calls rooms F CB RC RM.
  destruct (H1 fuel calls rooms ltac:(lia) CB RC RM) as (T & v & S & NBR & FI & LV). exists T, v. split; [exact S|]. split; [exact NBR|]. split; [exact LV|].
  intros FN dcalls future EI RD. destruct (H2 T [] fuel dcalls future ltac:(lia) (FI FN) ltac:(constructor) ltac:(rewrite app_nil_r; exact EI) RD) as (o & rest & v2 & E2 & NB2 & P2 & F2 & L2).
  exists o, rest, v2. split; [exact E2|]. split; [exact NB2|]. split; [exact P2|]. split.
  - intros Q. destruct (F2 Q) as (O & OT). split; [exact O|]. rewrite OT, <- app_assoc in EI. rewrite <- (app_nil_r T) in EI at 2. apply app_inv_head in EI. apply app_eq_nil in EI. destruct EI as (R0 & FU). split; [exact FU|exact R0].
  - intros calls1 calls2 EC EO R1 LL. apply (L2 calls1 calls2 [] EC); [rewrite app_nil_r; exact EO|exact R1|exact LL].
Qed.

(** A case: a 26 byte text meets the hypotheses, and some session finishes (pieces of any
    sizes first, then calls with room for three bytes). *)
Definition demo_text : list Z := [116; 104; 101; 32; 99; 97; 116; 32; 115; 97; 116; 32; 111; 110; 32; 116; 104; 101; 32; 109; 97; 116; 32; 32; 255; 0].
Definition demo_calls : list (list Z * Z) := [(firstn 5 demo_text, 0); (firstn 11 (skipn 5 demo_text), 7); ([], 2); (skipn 16 demo_text, 30)].
Lemma offered_empty n m : offered (repeat ([], m) n) = [].
Proof. induction n as [|n IH]; [reflexivity|]. exact IH. Qed.
Example C46_case : cfg_ok demo_cfg /\ bytes demo_text /\ zlen demo_text < 2 * 2 ^ choose_window (Some 12) - 1 /\ offered demo_calls = demo_text /\
  exists fuel n T, rsession demo_dict demo_wl real_dims demo_cfg fuel (rawc_new real_dims (Some 12)) [] (demo_calls ++ repeat ([], 3) n) (repeat 3 n) = Some (T, Finished).
Proof.
  assert (G : cfg_ok demo_cfg) by apply C20_case. assert (BT : bytes demo_text) by (unfold demo_text; repeat (apply Forall_cons; [unfold byte; lia|]); apply Forall_nil).
  assert (LT : zlen demo_text < 2 * 2 ^ choose_window (Some 12) - 1) by (vm_compute; reflexivity).
  split; [exact G|]. split; [exact BT|]. split; [exact LT|]. split; [reflexivity|].
  destruct (C46_raw_roundtrip demo_dict demo_wl demo_cfg (Some 12) demo_text false G BT LT) as (fuel & k & H). set (n := Z.to_nat (k + 1)).
  destruct (H fuel (demo_calls ++ repeat ([], 3) n) (repeat 3 n) (le_n _)) as (T & v & S & _ & LV & _).
  - unfold offered. rewrite map_app, concat_app. fold (offered (repeat ([], 3) n)). rewrite offered_empty. reflexivity.
  - apply Forall_app. split; [repeat (constructor; [cbn [snd]; lia|]); constructor|]. apply Forall_forall. intros x Q. apply repeat_spec in Q. subst x. cbn [snd]. lia.
  - apply Forall_forall. intros x Q. apply repeat_spec in Q. subst x. lia.
  - assert (v = Finished).
    { apply (LV demo_calls (repeat ([], 3) n)); auto.
      - apply Forall_forall. intros x Q. apply repeat_spec in Q. subst x. cbn [snd]. lia.
      - apply Forall_forall. intros x Q. apply repeat_spec in Q. subst x. lia.
      - unfold zlen. rewrite repeat_length. unfold n. lia.
      - unfold zlen. rewrite repeat_length. unfold n. lia. }
    subst v. eauto.
Qed.
(** one run computed in full: no input at all (small tables to keep it quick) *)
Example C46_empty_run : exists T, rsession demo_dict demo_wl (DIMS 64 4 4) demo_cfg 2000 (rawc_new (DIMS 64 4 4) (Some 10)) [] [([], 7)] (repeat 3 60) = Some (T, Finished) /\
    dsession demo_dict demo_wl (DIMS 64 4 4) false 2000 decompressor_new [] (pieces 60 7 3 T) = Some ([], [], Finished) /\ 28 < zlen T.
Proof. eexists. split; [vm_compute; reflexivity|]. split; vm_compute; reflexivity. Qed.
Print Assumptions C46_raw_file.
Print Assumptions C46_raw_roundtrip.
