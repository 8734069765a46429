(** C61: the default compressor, for any front end that keeps brotli's contract. *)
From Verif Require Import Prelude ProofList ModelAns SpecAns ProofAnsRt ModelCdf SpecCdf ModelMux SpecMux ProofZlist ProofMux ProofMuxW ProofMuxR ModelCmd ModelCrc SpecCrc ProofCrc ModelHeader SpecHeader ProofHeader ThmHeader ModelRecode SpecLz ModelPriors ModelCodec ModelLit ModelPm ModelTop SpecCodec SpecReplay ProofCodecInv ProofCodecInv2 ProofRun ProofCopy ProofTop ThmCodec ModelEnc SpecEnc SpecFile ProofEnc ProofEnc2 ProofEnc3 ProofEnc4 ProofSim ThmEnc ModelDec SpecDec ThmDec ModelRaw ModelRawEnc SpecRawEnc ThmRawEnc ModelIo SpecIo ModelHybrid SpecHybrid ProofHybrid ProofHybrid2.

Local Opaque codec_flush codec_encode.
(** The file for whatever commands the front end chose.  [m0] flush calls that offer at
    least one byte suffice. *)
Lemma hybrid_file : forall dict wl D g opt {B} (fe : frontend B) optimize b0,
  big D -> cfg_ok g -> good_frontend dict wl D g (choose_window opt) fe optimize b0 ->
  forall calls, bytes (offered calls) -> Forall (fun c => 0 <= snd c) calls ->
  exists cmds a b x b' left fuel0 n0,
    reaches fe optimize b0 b' x cmds /\ streams_of dict wl D g (choose_window opt) cmds a b /\ (left = false -> x = offered calls /\ b_finished fe b' = true) /\
    (eager fe -> forall calls1 calls2, calls = calls1 ++ calls2 -> offered calls2 = [] -> zlen (offered calls1) <= zlen calls2 -> left = false) /\
    forall fuel n rooms, (fuel0 <= fuel)%nat -> (n0 <= n)%nat -> Forall (fun r => 0 <= r) rooms ->
    exists o v, hsession (hybrid_processor dict wl D g fe optimize n fuel) (hybrid_new D b0 opt) [] calls rooms = Some (o, v) /\
      (left = true -> v = HLeft) /\
      (left = false -> (v = HFinished \/ v = HWaiting) /\ (v = HFinished -> is_file (choose_window opt) a b o) /\
         (Forall (fun r => 1 <= r) rooms -> 4 * (zlen a + zlen b) + 27 < zlen rooms -> v = HFinished)).
Proof.
  intros dict wl D g opt B fe optimize b0 BG G GF calls BX RC. set (ws := choose_window opt) in *. pose proof (choose_window_range opt) as WR. fold ws in WR.
  destruct (hsession_spec dict wl D g ws fe optimize b0 GF calls b0 [] [] 0 0 [] (reaches_start fe optimize b0) (gf_new _ _ _ _ _ _ _ _ GF) ltac:(split; [lia|left; lia]) BX) as (cmds & nE & b' & x & left & R & XI & EG & K). cbn [app] in R, XI.
  pose proof (gf_says _ _ _ _ _ _ _ _ GF _ _ _ R) as AC. destruct (C28_streams_exist dict wl D g ws cmds BG G AC) as (a & b & ST & _). pose proof ST as (fuel0 & c & es & E & W & EA & EB).
  destruct (enc_ring dict ws (window ws) wl D g fuel0 cmds c _ es ltac:(lia) (window_len ws ltac:(lia)) E) as (c' & E').
  destruct (header_bytes ws (choose_window_byte opt)) as (BH & HL). pose proof (BA es a W EA) as BA. pose proof (ProofEnc4.BB es b W EB) as BB.
  exists cmds, a, b, x, b', left, fuel0, (Nat.max nE (S (Z.to_nat (bound a b + 16)))). split; [exact R|]. split; [exact ST|]. split; [exact XI|]. split; [intros EG1 c1 c2 Q1 Q2 Q3; apply (EG EG1 c1 c2 Q1 Q2); change (zlen (@nil Z)) with 0; lia|].
  intros fuel n rooms LE LN R0.
  destruct (K es a b (make_header ws) fuel0 fuel n ltac:(repeat split; assumption || lia) ltac:(lia) rooms (compressor_new D opt) [] 0) as (o & v & S & V1 & V2); [|reflexivity|split; [change (zlen (@nil Z)) with 0; lia|left; split; reflexivity]|exact RC|exact R0|].
  { split; [|reflexivity]. exists []. cbn [compressor_new cm_hdr cm_codec cm_ws firstn app ecodec_new ec_phase]. fold ws. split; [reflexivity|]. split; [lia|]. split; [split; reflexivity|]. split; [reflexivity|]. split; [|split; [|constructor]].
    + unfold phinv. cbn [ec_phase ec_parts ec_codec]. exists [], es. split; [reflexivity|]. split; [apply einv_new|]. split; [|reflexivity]. eexists _, _. exact E'.
    + unfold crcok. cbn [ec_phase ec_frozen ec_crc]. split; reflexivity. }
  exists o, v. split; [exact S|]. split; [exact V1|]. intros Q. destruct (V2 Q) as (V3 & V4 & V5). split; [exact V3|]. split; [|intros Q1 Q2; apply V5; [exact Q1|unfold bound; lia]].
  intros Q2. destruct (V4 Q2) as (X & FR & EX). exists X. split; [apply framed_framing, FR|]. split; [apply framed_carries; assumption|]. rewrite EX.
  assert (BX2 : bytes X). { destruct FR as (fs & GG & -> & P0 & P1). apply bytes_app; [apply enc_bytes; [exact GG|rewrite P0; exact BA|rewrite P1; exact BB]|]. repeat constructor; unfold byte; lia. }
  rewrite checksum_bytes_trailer, crc0_spec by (apply bytes_app; assumption). reflexivity.
Qed.

(** C61, the file.  For any encoder that keeps its contract, raw bytes given in any
    pieces, then the flush with output buffers of any sizes: no panic, failure, overrun or
    false claim; when flush reports success the output is a complete file for commands
    that stand for exactly the bytes given, and it reports success when the encoder has
    taken all of the input and enough flush calls offer at least one byte. *)
Theorem C61_default_file : forall dict wl D g opt B (fe : frontend B) optimize b0,
  big D -> cfg_ok g -> good_frontend dict wl D g (choose_window opt) fe optimize b0 -> faithful dict (choose_window opt) fe optimize b0 ->
  forall calls, bytes (offered calls) -> Forall (fun c => 0 <= snd c) calls ->
  exists fuel0 n0 m0, forall fuel n rooms, (fuel0 <= fuel)%nat -> (n0 <= n)%nat -> Forall (fun r => 0 <= r) rooms ->
  exists o v, hsession (hybrid_processor dict wl D g fe optimize n fuel) (hybrid_new D b0 opt) [] calls rooms = Some (o, v) /\ v <> HBroken /\
    (v = HFinished -> exists cmds a b, acceptable dict wl D g (choose_window opt) cmds /\ meaning dict (window (choose_window opt)) cmds = offered calls /\
       streams_of dict wl D g (choose_window opt) cmds a b /\ is_file (choose_window opt) a b o) /\
    (v <> HLeft -> Forall (fun r => 1 <= r) rooms -> m0 < zlen rooms -> v = HFinished) /\
    (eager fe -> forall calls1 calls2, calls = calls1 ++ calls2 -> offered calls2 = [] -> zlen (offered calls1) <= zlen calls2 -> v <> HLeft).
Proof.
  intros dict wl D g opt B fe optimize b0 BG G GF FF calls BX RC.
  destruct (hybrid_file dict wl D g opt fe optimize b0 BG G GF calls BX RC) as (cmds & a & b & x & b' & left & fuel0 & n0 & R & ST & XI & EG & K).
  exists fuel0, n0, (4 * (zlen a + zlen b) + 27). intros fuel n rooms LE LN R0. destruct (K fuel n rooms LE LN R0) as (o & v & S & V1 & V2). exists o, v. split; [exact S|].
  destruct left; [specialize (V1 eq_refl); subst v|destruct (V2 eq_refl) as (V3 & V4 & V5)].
  - split; [discriminate|]. split; [discriminate|]. split; [intros Q; contradiction Q; reflexivity|]. intros E c1 c2 Q1 Q2 Q3. specialize (EG E c1 c2 Q1 Q2 Q3). discriminate EG.
  - split; [destruct V3 as [->| ->]; discriminate|]. split; [|split; [intros _; exact V5|intros _ c1 c2 _ _ _; destruct V3 as [->| ->]; discriminate]].
    intros Q. destruct (XI eq_refl) as (-> & F'). exists cmds, a, b. split; [exact (gf_says _ _ _ _ _ _ _ _ GF _ _ _ R)|]. split; [exact (FF _ _ _ R F')|]. split; [exact ST|exact (V4 Q)].
Qed.

(** C61, the round trip.  What the default compressor made of some bytes, given to a
    decompressor in any pieces with output buffers of any sizes: it puts out a beginning
    of these bytes, and all of them when it reports success, which it does when given the
    whole file and enough space. *)
Theorem C61_default_round_trip : forall dict wl D g opt B (fe : frontend B) optimize b0 skip,
  big D -> cfg_ok g -> good_frontend dict wl D g (choose_window opt) fe optimize b0 -> faithful dict (choose_window opt) fe optimize b0 ->
  forall calls, bytes (offered calls) -> Forall (fun c => 0 <= snd c) calls ->
  exists fuel0 n0, forall fuel n rooms T, (fuel0 <= fuel)%nat -> (n0 <= n)%nat -> Forall (fun r => 0 <= r) rooms ->
  hsession (hybrid_processor dict wl D g fe optimize n fuel) (hybrid_new D b0 opt) [] calls rooms = Some (T, HFinished) ->
  forall dcalls future, offered dcalls ++ future = T -> Forall (fun c => 0 <= snd c) dcalls ->
    exists o rest v, dsession dict wl D skip fuel decompressor_new [] dcalls = Some (o, rest, v) /\ v <> Broken /\
      (exists more, offered calls = o ++ more) /\
      (v = Finished -> o = offered calls /\ future = [] /\ rest = []) /\
      (forall calls1 calls2, dcalls = calls1 ++ calls2 -> offered calls1 = T -> Forall (fun c => 1 <= snd c) calls2 -> zlen (offered calls) < zlen calls2 -> v = Finished).
Proof.
  intros dict wl D g opt B fe optimize b0 skip BG G GF FF calls BX RC. set (ws := choose_window opt) in *. assert (WS : 10 <= ws <= 24) by (unfold ws, choose_window; lia).
  destruct (hybrid_file dict wl D g opt fe optimize b0 BG G GF calls BX RC) as (cmds & a & b & x & b' & left & fuel0 & n0 & R & ST & XI & EG & K). fold ws in ST, K.
  pose proof (gf_says _ _ _ _ _ _ _ _ GF _ _ _ R) as AC. destruct (C27_decode_any_file dict wl D g _ _ a b skip BG G WS AC ST) as (f2 & H2).
  exists (max fuel0 f2), n0. intros fuel n rooms T LE LN R0 S dcalls future EI RD. destruct (K fuel n rooms ltac:(lia) LN R0) as (o0 & v0 & S0 & V1 & V2).
  assert (o0 = T /\ v0 = HFinished) by (split; congruence). destruct H as (-> & ->). destruct left; [specialize (V1 eq_refl); discriminate V1|]. destruct (V2 eq_refl) as (_ & V4 & _). destruct (XI eq_refl) as (-> & F').
  rewrite (FF _ _ _ R F') in H2.
  destruct (H2 T [] fuel dcalls future ltac:(lia) (V4 eq_refl) ltac:(constructor) ltac:(rewrite app_nil_r; exact EI) RD) as (o & rest & v2 & E2 & NB2 & P2 & F2 & L2).
  exists o, rest, v2. split; [exact E2|]. split; [exact NB2|]. split; [exact P2|]. split.
  - intros Q. destruct (F2 Q) as (O & OT). split; [exact O|]. rewrite OT, <- app_assoc in EI. rewrite <- (app_nil_r T) in EI at 2. apply app_inv_head in EI. apply app_eq_nil in EI. destruct EI as (R1 & FU). split; [exact FU|exact R1].
  - intros calls1 calls2 EC EO R1 LL. apply (L2 calls1 calls2 [] EC); [rewrite app_nil_r; exact EO|exact R1|exact LL].
Qed.

(** ** An encoder that keeps the contract: it collects the input in pieces of at most 1000
    bytes, one per call, filling its output buffer when it does not take everything, and
    hands all of it over when it is finished. *)
Definition store_step (s : list (list Z) * bool) (fin : bool) (input : list Z) (room : Z) : option (Z * Z * list metablock * (list (list Z) * bool)) :=
  if fin then Some (0, 0, [(raw_pm real_dims, map (fun d => Literal d false) (fst s))], (fst s, true))
  else let k := Z.min 1000 (zlen input) in Some (k, if k <? zlen input then room else 0, [], (fst s ++ (if k =? 0 then [] else [zfirst k input]), false)).
Definition store : frontend (list (list Z) * bool) := FE store_step snd.
Lemma store_reaches b x cs : reaches store Some ([], false) b x cs ->
  concat (fst b) = x /\ Forall (fun d => bytes d /\ 1 <= zlen d <= 1000) (fst b) /\ cs = if snd b then PredictionMode (raw_pm real_dims) :: map (fun d => Literal d false) (fst b) else [].
Proof.
  induction 1 as [|b x cs fin input room k w ms b' R IH NF FI BI RM ST]; [repeat split; constructor|]. destruct IH as (IX & IF & IC). cbn [store b_finished] in NF. rewrite NF in IC. cbn [store b_step] in ST. unfold store_step in ST. destruct fin.
  - specialize (FI eq_refl). subst input. assert (Q : k = 0 /\ ms = [(raw_pm real_dims, map (fun d => Literal d false) (fst b))] /\ b' = (fst b, true)) by (repeat split; congruence). destruct Q as (-> & -> & ->). cbn [fst snd zfirst firstn]. change (zfirst 0 (@nil Z)) with (@nil Z). rewrite app_nil_r, IC. cbn [map concat block app]. rewrite app_nil_r. auto.
  - set (k1 := Z.min 1000 (zlen input)) in *. assert (Q : k = k1 /\ ms = [] /\ b' = (fst b ++ (if k1 =? 0 then [] else [zfirst k1 input]), false)) by (repeat split; congruence). destruct Q as (-> & -> & ->). clear ST. cbn [fst snd map concat]. pose proof (zlen_nonneg input). rewrite IC, concat_app, IX, Forall_app. split; [|split; [split; [exact IF|]|reflexivity]].
    + f_equal. destruct (Z.eqb_spec k1 0) as [Q|Q]; [rewrite Q; reflexivity|]. cbn [concat]. apply app_nil_r.
    + destruct (Z.eqb_spec k1 0) as [Q|Q]; constructor; [|constructor]. split; [apply bytes_firstn, BI|]. rewrite zlen_first by lia. lia.
Qed.
Lemma store_meaning dict : forall ds h, meaning dict h (map (fun d => Literal d false) ds) = concat ds.
Proof. induction ds as [|d ds IH]; intros h; [reflexivity|]. cbn [map concat meaning meaning1]. rewrite IH. reflexivity. Qed.
Lemma store_good dict wl g ws : cfg_ok g -> good_frontend dict wl real_dims g ws store Some ([], false).
Proof.
  intros G. split.
  - reflexivity.
  - intros b x cmds fin input room R NF FI BI RM. cbn [store b_step]. unfold store_step. pose proof (zlen_nonneg input). destruct fin.
    + eexists 0, 0, _, _. split; [reflexivity|]. split; [lia|]. split; [lia|]. split; [constructor; [discriminate|constructor]|]. split; [discriminate|left; reflexivity].
    + eexists _, _, _, _. split; [reflexivity|]. split; [lia|]. split; [destruct (_ <? _); lia|]. split; [constructor|]. split; [|discriminate]. intros _. split; [reflexivity|]. destruct (Z.ltb_spec (Z.min 1000 (zlen input)) (zlen input)); [right; reflexivity|left; lia].
  - intros b x cmds R. destruct (store_reaches _ _ _ R) as (_ & IF & ->). destruct (snd b); [|split; constructor]. split.
    + constructor; [cbn [encodable]; apply raw_pm_ok, G|]. apply Forall_forall. intros c IN. apply in_map_iff in IN. destruct IN as (d & <- & IN). rewrite Forall_forall in IF. destruct (IF d IN) as (BD & LD). cbn [encodable]. split; [exact BD|]. lia.
    + cbn [coded_all coded]. constructor; [exact Logic.I|]. assert (TL : forall ds pm, Forall (replayable dict (2 ^ ws)) (coded_all wl real_dims g pm (map (fun d => Literal d false) ds))); [|apply TL].
      induction ds as [|d ds IH]; intros pm; cbn [map coded_all coded]; constructor; [exact Logic.I|apply IH].
  - intros b x cmds R. exists 1%nat. right. intros room k w ms b' RM ST. cbn [store b_step] in ST. unfold store_step in ST. left. assert (Q : b' = (fst b, true)) by congruence. rewrite Q. reflexivity.
Qed.
Lemma store_faithful dict ws : faithful dict ws store Some ([], false).
Proof. intros b x cmds R F. destruct (store_reaches _ _ _ R) as (<- & _ & ->). cbn [store b_finished] in F. rewrite F. cbn [meaning meaning1 app]. apply store_meaning. Qed.
Lemma store_eager : eager store.
Proof. intros b input room k w ms b' NE ST. cbn [store b_step] in ST. unfold store_step in ST. assert (Q : k = Z.min 1000 (zlen input)) by congruence. destruct input as [|z input]; [contradiction NE; reflexivity|]. rewrite zlen_cons in Q. pose proof (zlen_nonneg input). lia. Qed.
(** A case: with it, a session on 1500 bytes finishes. *)
Example C61_case : forall dict wl, exists fuel n rooms o cmds a b,
  hsession (hybrid_processor dict wl real_dims demo_cfg store Some n fuel) (hybrid_new real_dims ([], false) None) [] ((repeat 65 1500, 0) :: repeat ([], 0) 1500) rooms = Some (o, HFinished) /\
  meaning dict (window 22) cmds = repeat 65 1500 /\ is_file 22 a b o.
Proof.
  intros dict wl. assert (G : cfg_ok demo_cfg) by apply C20_case. set (calls := (repeat 65 1500, 0) :: repeat ([], 0) 1500). assert (OF : forall k, offered (repeat ([], 0) k) = []) by (induction k as [|k IH]; [reflexivity|exact IH]).
  assert (OC : offered calls = repeat 65 1500) by (change (offered calls) with (repeat 65 1500 ++ offered (repeat ([], 0) 1500)); rewrite OF; apply app_nil_r).
  destruct (C61_default_file dict wl real_dims demo_cfg None _ store Some ([], false) ltac:(vm_compute; intuition congruence) G (store_good dict wl demo_cfg 22 G) (store_faithful dict 22) calls) as (fuel & n & m0 & K).
  { rewrite OC. apply Forall_forall. intros z Q. apply repeat_spec in Q. subst z. unfold byte. lia. }
  { constructor; [cbn [snd]; lia|]. apply Forall_forall. intros z Q. apply repeat_spec in Q. subst z. cbn [snd]. lia. }
  set (rooms := repeat 1 (S (Z.to_nat m0))). assert (RR : Forall (fun r => 1 <= r) rooms) by (apply Forall_forall; intros z Q; apply repeat_spec in Q; lia).
  destruct (K fuel n rooms ltac:(lia) ltac:(lia) ltac:(eapply Forall_impl; [|exact RR]; cbn beta; lia)) as (o & v & S & _ & V1 & V2 & V3).
  assert (v = HFinished) as ->. { apply V2; [|exact RR|unfold rooms, zlen; rewrite repeat_length; clear; lia]. apply (V3 store_eager [(repeat 65 1500, 0)] (repeat ([], 0) 1500) eq_refl (OF _)). unfold zlen, offered. cbn [map fst concat]. rewrite app_nil_r, !repeat_length. apply Z.le_refl. }
  destruct (V1 eq_refl) as (cmds & a & b & _ & M & _ & IF). exists fuel, n, rooms, o, cmds, a, b. rewrite OC in M. auto.
Qed.

(** ** Where the expectations fail *)
(** The contract cannot do without an optimiser that never fails: its error is dropped if
    the encoder has consumed everything and has room left.  With [loud], an encoder that
    hands over each piece at once, and an optimiser that always fails, a session in which
    one byte was taken ends in success, and the file stands for no commands at all. *)
Definition quiet_step (ms : list metablock) (b : bool) (fin : bool) (input : list Z) (room : Z) : option (Z * Z * list metablock * bool) :=
  if fin then Some (0, 0, [], true) else Some (zlen input, 0, ms, false).
Definition mute : frontend bool := FE (quiet_step []) (fun b => b).
Definition loud (m : metablock) : frontend bool := FE (quiet_step [m]) (fun b => b).
Definition failing : metablock -> option metablock := fun _ => None.
Lemma mute_good dict wl D g ws : good_frontend dict wl D g ws mute failing false.
Proof.
  assert (RE : forall b x cs, reaches mute failing false b x cs -> cs = []).
  { induction 1 as [|b x cs fin input room k w ms b' R IH NF FI BI RM ST]; [reflexivity|]. subst cs. cbn [mute b_step] in ST. unfold quiet_step in ST. assert (Q : ms = []) by (destruct fin; congruence). rewrite Q. reflexivity. }
  split.
  - reflexivity.
  - intros b x cmds fin input room R NF FI BI RM. cbn [mute b_step b_finished]. unfold quiet_step. pose proof (zlen_nonneg input). destruct fin; eexists _, _, _, _; (split; [reflexivity|]); (split; [lia|]); (split; [lia|]); (split; [constructor|]); split; try discriminate; auto.
  - intros b x cmds R. rewrite (RE _ _ _ R). split; constructor.
  - intros b x cmds R. exists 1%nat. right. intros room k w ms b' RM ST. cbn [mute b_step] in ST. unfold quiet_step in ST. left. assert (Q : b' = true) by congruence. rewrite Q. reflexivity.
Qed.
Lemma loud_drive dict wl D g m fuel F : forall n s, drive dict wl D g (loud m) failing n fuel F s = drive dict wl D g mute failing n fuel F s.
Proof. induction n as [|n IH]; intros s; [reflexivity|]. cbn [drive]. unfold internal_encode_stream. cbn [loud mute b_step b_finished]. unfold quiet_step. destruct ((zlen (@nil Z) =? 0) && h_b s); [reflexivity|]. cbn [callbacks bind negb]. rewrite andb_false_r. cbn [andb]. destruct (flush_codec dict wl D g fuel F (h_cm s) (h_data s) (h_cap s)) as [(((cm & data) & cap) & r)|]; [|reflexivity]. cbn [bind]. destruct r; reflexivity. Qed.
Theorem C61_optimizer_error_refuted : forall dict wl D g m, big D -> cfg_ok g ->
  exists fuel n rooms o a b, hsession (hybrid_processor dict wl D g (loud m) failing n fuel) (hybrid_new D false None) [] [([65], 0)] rooms = Some (o, HFinished) /\
    streams_of dict wl D g 22 [] a b /\ is_file 22 a b o.
Proof.
  intros dict wl D g m BG G. destruct (hybrid_file dict wl D g None mute failing false BG G (mute_good dict wl D g 22) [([65], 0)]) as (cmds & a & b & x & b' & left & fuel & n & R & ST & XI & EG & K).
  { repeat constructor; lia. } { repeat constructor; cbn [snd]; lia. }
  set (rooms := repeat 1 (S (Z.to_nat (4 * (zlen a + zlen b) + 27)))). assert (RR : Forall (fun r => 1 <= r) rooms) by (apply Forall_forall; intros z Q; apply repeat_spec in Q; lia).
  destruct (K fuel n rooms ltac:(lia) ltac:(lia) ltac:(eapply Forall_impl; [|exact RR]; cbn beta; lia)) as (o & v & S & V1 & V2).
  assert (CM : cmds = []). { pose proof (gf_says _ _ _ _ _ _ _ _ (mute_good dict wl D g 22) _ _ _ R). clear - R. induction R as [|b x cs fin input room k w ms b' R IH NF FI BI RM ST]; [reflexivity|]. subst cs. cbn [mute b_step] in ST. unfold quiet_step in ST. assert (Q : ms = []) by (destruct fin; congruence). rewrite Q. reflexivity. }
  assert (HF : forall rooms s, hfinish (hybrid_processor dict wl D g (loud m) failing n fuel) s rooms = hfinish (hybrid_processor dict wl D g mute failing n fuel) s rooms).
  { induction rooms0 as [|r rs IH]; intros s; [reflexivity|]. cbn [hfinish close hybrid_processor]. unfold hybrid_flush. destruct (start_call (h_cm s) r) as ((h & cm) & ok). destruct ok; cbn [negb bind]; [|rewrite IH; reflexivity]. rewrite loud_drive.
    destruct (drive _ _ _ _ _ _ _ _ _ _) as [(s2 & fine)|]; [|reflexivity]. cbn [bind]. destruct (negb fine); cbn [bind]; [reflexivity|]. rewrite IH. reflexivity. }
  assert (HS : hsession (hybrid_processor dict wl D g (loud m) failing n fuel) (hybrid_new D false None) [] [([65], 0)] rooms = hsession (hybrid_processor dict wl D g mute failing n fuel) (hybrid_new D false None) [] [([65], 0)] rooms).
  { cbn [hsession process hybrid_processor app]. unfold hybrid_encode, internal_encode_stream. cbn [hybrid_new h_b h_cm h_bsize h_bcap h_data h_cap h_off loud mute b_step b_finished]. unfold quiet_step. rewrite andb_false_r. cbn [callbacks callback failing bind orb].
    change (negb (grown 0 0 256 - 0 - 0 =? 0)) with true. change (zlen [65] - zlen [65] =? 0) with true. cbn [andb negb bind]. change (zskip (zlen [65]) [65]) with (@nil Z). cbn [hsession]. rewrite HF. reflexivity. }
  assert (LF : left = false). { destruct left; [|reflexivity]. exfalso. specialize (V1 eq_refl). subst v. revert S. cbn [hsession process hybrid_processor app]. unfold hybrid_encode, internal_encode_stream. cbn [hybrid_new h_b h_cm h_bsize h_bcap h_data h_cap h_off mute b_step b_finished]. unfold quiet_step. rewrite andb_false_r. cbn [callbacks bind orb].
    change (negb (grown 0 0 256 - 0 - 0 =? 0)) with true. change (zlen [65] - zlen [65] =? 0) with true. cbn [andb negb bind]. change (zskip (zlen [65]) [65]) with (@nil Z). cbn [hsession].
    change ((0 <? zlen (@nil Z)) || (zlen [65] <? 0) || (zlen [65] <? zlen [65])) with false. cbn iota.
    assert (NL : forall rooms s o, hfinish (hybrid_processor dict wl D g mute failing n fuel) s rooms <> Some (o, HLeft)).
    { clear. induction rooms as [|r rs IH]; intros s o; cbn [hfinish]; [congruence|]. destruct (close _ s r) as [((o1 & s1) & r1)|]; cbn [bind]; [|congruence]. destruct (r <? zlen o1); [congruence|]. destruct r1; try congruence. destruct (zlen o1 <? r); [congruence|]. specialize (IH s1). destruct (hfinish _ s1 rs) as [(o2 & v2)|]; cbn [bind]; [|congruence]. specialize (IH o2). congruence. }
    specialize (NL rooms). match goal with |- context [hfinish ?p ?s rooms] => specialize (NL s); destruct (hfinish p s rooms) as [(o2 & v2)|] end; cbn [bind]; [|congruence]. specialize (NL o2). congruence. }
  destruct (V2 LF) as (_ & V4 & V5). rewrite (V5 RR ltac:(unfold rooms, zlen; rewrite repeat_length; lia)) in *. exists fuel, n, rooms, o, a, b. rewrite HS, <- CM. split; [exact S|]. split; [exact ST|exact (V4 eq_refl)].
Qed.

(** A failure of flush is not final.  If the optimiser fails in the last metablock, flush
    reports a failure; called once more it reports success, although the codec has never
    been flushed: all that was put out is the header. *)
Definition late : frontend bool := FE (fun b fin input room => if fin then Some (0, 0, [(raw_pm real_dims, [])], true) else Some (zlen input, 0, [], false)) (fun b => b).
Theorem C61_failure_is_final_refuted : forall dict wl D g opt n fuel room, (1 <= n)%nat -> 16 <= room ->
  exists s h, hybrid_flush dict wl D g late failing n fuel (hybrid_new D false opt) room = Some (h, s, PFail) /\ zlen h = 16 /\
    forall room2, 0 <= room2 -> exists s2, hybrid_flush dict wl D g late failing n fuel s room2 = Some ([], s2, PSuccess).
Proof.
  intros dict wl D g opt n fuel room LN RM. destruct n as [|n]; [lia|]. unfold hybrid_flush at 1. cbn [hybrid_new h_b h_cm h_bsize h_bcap h_data h_cap h_off].
  destruct (start_full (compressor_new D opt) room RM) as (h & cm & ES & HD). rewrite ES. cbn [negb drive]. unfold internal_encode_stream at 1. cbn [h_b h_cm h_bsize h_bcap h_data h_cap h_off late b_step b_finished]. rewrite andb_false_r. cbn [callbacks callback failing bind orb negb]. rewrite andb_false_r. cbn [bind negb].
  eexists _, h. split; [reflexivity|]. split.
  { unfold start_call in ES. cbn [compressor_new cm_hdr Nat.eqb HEADER_LENGTH] in ES. unfold write_header, HEADER_LENGTH in ES. destruct (Nat.ltb_spec (Z.to_nat room + 0) 16); [lia|]. apply (f_equal (fun t => fst (fst t))) in ES. cbn [fst skipn compressor_new cm_ws] in ES. rewrite <- ES. reflexivity. }
  intros room2 R2. unfold hybrid_flush. cbn [h_b h_cm h_bsize h_bcap h_data h_cap h_off]. rewrite (start_none _ _ HD). cbn [negb drive]. unfold internal_encode_stream. cbn [h_b h_cm h_bsize h_bcap h_data h_cap h_off late b_finished]. change (zlen (@nil Z) =? 0) with true. cbn [andb bind negb h_b h_cm h_bsize h_bcap h_data h_cap h_off].
  change (zskip 0 (@nil Z)) with (@nil Z). change (zlen (@nil Z)) with 0. rewrite Z.sub_0_r, Z.min_l by lia. eexists. reflexivity.
Qed.

(** The writer over the default compressor refuses a buffer although nothing is wrong: an
    encoder that keeps the contract may stop when its own output buffer is full, encode
    then asks for more input, and the writer takes the rest of the buffer for an error. *)
Theorem C61_writer_takes_all_refuted : forall dict wl g opt n fuel fuel2 cap k, cfg_ok g -> 1 <= cap ->
  good_frontend dict wl real_dims g (choose_window opt) store Some ([], false) /\
  exists w, gwrite (hybrid_processor dict wl real_dims g store Some n fuel) cap (S fuel2) (gwriter_new (hybrid_new real_dims ([], false) opt) k true) (repeat 65 1001) = WErr w /\ gw_sink w = k.
Proof.
  intros dict wl g opt n fuel fuel2 cap k G C. split; [apply store_good, G|]. unfold gwrite. cbn [write_loop gwriter_new gw_p gw_sink gw_flushed process hybrid_processor]. unfold hybrid_encode, internal_encode_stream. cbn [hybrid_new h_b h_cm h_bsize h_bcap h_data h_cap h_off store b_step b_finished snd]. rewrite andb_false_r.
  unfold store_step. cbn [fst]. assert (ZL : zlen (repeat 65 1001) = 1001) by (unfold zlen; rewrite repeat_length; reflexivity). rewrite ZL. change (Z.min 1000 1001) with 1000. change (1000 <? 1001) with true. cbn iota. cbn [callbacks bind]. rewrite Z.sub_diag. change (0 =? 0) with true. cbn [negb andb bind].
  change (1001 <? 1000) with false. change (zlen (@nil Z)) with 0. destruct (Z.ltb_spec cap 0); [lia|]. cbn [orb write_all negb].
  assert (ZS : zlen (zskip 1000 (repeat 65 1001)) = 1) by (rewrite zlen_skip, ZL by lia; reflexivity). rewrite ZS. change (1 =? 0) with false. cbn [negb]. eexists. split; reflexivity.
Qed.
Print Assumptions C61_default_file.
Print Assumptions C61_default_round_trip.
Print Assumptions C61_optimizer_error_refuted.
Print Assumptions C61_failure_is_final_refuted.
Print Assumptions C61_writer_takes_all_refuted.
