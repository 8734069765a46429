(** C28, C30: the compressor under every schedule of output buffers. *)
From Verif Require Import Prelude ProofList ModelAns SpecAns ProofAnsRt ModelCdf SpecCdf ModelMux SpecMux ProofZlist ProofMux ProofMuxW ProofMuxR ModelCmd ModelCrc SpecCrc ProofCrc ModelHeader SpecHeader ProofHeader ThmHeader ModelRecode SpecLz ModelPriors ModelCodec ModelLit ModelPm ModelTop SpecCodec SpecReplay ProofCodecInv ProofCodecInv2 ProofRun ProofCopy ProofTop ThmCodec ModelEnc SpecEnc SpecFile ProofEnc ProofEnc2 ProofEnc3 ProofEnc4 ProofSim.

Lemma framed_carries a b W : framed a b W -> bytes a -> bytes b -> carries W a b.
Proof.
  intros (fs & G & -> & P0 & P1) B0 B1 rops tail BT F.
  assert (BF : bytes (fed rops)).
  { rewrite F. apply bytes_app; [|exact BT]. apply bytes_app; [|repeat constructor; unfold byte; lia].
    apply enc_bytes; [exact G|rewrite P0; exact B0|rewrite P1; exact B1]. }
  destruct (reader_total rops BF) as (r & d & D0 & D1 & c & ER & (R & S & A0 & A1 & C) & DR).
  rewrite F, (drun_closed fs tail G) in DR. injection DR as <- <- <- <-.
  exists r. split; [exact ER|]. split; [congruence|]. split; [congruence|]. split; [|exact C]. unfold st in S. injection S as _ S. exact S.
Qed.
Lemma framed_framing a b W : framed a b W -> framing a b W.
Proof.
  intros (fs & G & -> & <- & <-). induction G as [|f fs (S & F) G IH]; [exact frame_end|]. cbn [enc payl].
  assert (E : exists s, f_s f = sid s /\ (sel (f_s f) 0 (f_data f) = if stream_eqb s Cmd then f_data f else []) /\ (sel (f_s f) 1 (f_data f) = if stream_eqb s Lit then f_data f else [])).
  { destruct S as [E|E]; rewrite E; [exists Cmd|exists Lit]; repeat split. }
  destruct E as (s & E & E0 & E1). unfold sel in E0, E1. rewrite E0, E1, E in *. clear E0 E1. rewrite <- !app_assoc. destruct F as [(lo & hi & L & H & -> & N)|[(-> & N)|[(-> & N)|(-> & N)]]].
  - apply frame_short; assumption.
  - apply (frame_long s 1); [lia|exact N|exact IH].
  - apply (frame_long s 2); [lia|exact N|exact IH].
  - apply (frame_long s 3); [lia|exact N|exact IH].
Qed.
Lemma header_bytes ws : byte ws -> bytes (make_header ws) /\ length (make_header ws) = 16%nat.
Proof. intros B. split; [|reflexivity]. unfold make_header, MAGIC_NUMBER. cbn [app repeat]. repeat (apply Forall_cons; [first [exact B|unfold byte; lia]|]). apply Forall_nil. Qed.
Lemma crc0_spec l : bytes l -> crc0 l = crc32c 0 l.
Proof. intros B. unfold crc0. pose proof (crc_update_concat [l] 0 ltac:(repeat constructor; exact B) ltac:(lia)) as H. cbn [fold_left concat] in H. rewrite app_nil_r in H. exact H. Qed.
Lemma window_len ws : 0 <= ws -> zlen (window ws) = 2 ^ ws.
Proof. intros H. unfold window, zlen. rewrite repeat_length. rewrite Z2Nat.id; [reflexivity|]. apply Z.pow_nonneg. lia. Qed.

(** The streams of the file exist and are determined by the commands. *)
Theorem C28_streams_exist : forall dict wl D g ws cmds, big D -> cfg_ok g -> acceptable dict wl D g ws cmds ->
  exists a b, streams_of dict wl D g ws cmds a b /\ forall a2 b2, streams_of dict wl D g ws cmds a2 b2 -> a2 = a /\ b2 = b.
Proof.
  intros dict wl D g ws cmds B G (F & RP).
  destruct (C26_stream_roundtrip _ (lz_replayer dict (2 ^ ws)) wl D g (window ws) cmds _ B G F (replay_lz dict (2 ^ ws) _ (window ws) RP)) as (fuel & c & es & E & W & _ & DEC).
  pose proof (ans_encode_ok (sfs_of CMD es) (sfs_legal CMD es W)) as EA. pose proof (ans_encode_ok (sfs_of LIT es) (sfs_legal LIT es W)) as EB.
  eexists _, _. split; [exists fuel, c, es; split; [exact E|split; [exact W|split; [exact EA|exact EB]]]|].
  intros a2 b2 (fuel2 & c2 & es2 & E2 & W2 & EA2 & EB2).
  assert (es2 = es).
  { clear - E E2. revert c c2 es es2 E E2. generalize (codec_new D (window ws)). generalize (coded_all wl D g (pm_new D) cmds). intros xs c0.
    revert xs c0. induction cmds as [|cmd cmds IH]; intros xs c0 c c2 es es2 E E2; cbn [enc_all] in *.
    - destruct (enc_cmd _ wl D fuel g _ true c0) as [((p, x), y)|] eqn:P; [|discriminate]. destruct x; [discriminate|].
      destruct (enc_cmd _ wl D fuel2 g _ true c0) as [((p2, x2), y2)|] eqn:P2; [|discriminate]. destruct x2; [discriminate|].
      pose proof (enc_det _ _ _ _ _ _ _ _ _ _ _ P P2) as Q. congruence.
    - destruct (enc_cmd _ wl D fuel g _ false c0) as [((p, x), y)|] eqn:P; [|discriminate]. destruct x as [x|]; [|discriminate].
      destruct (enc_cmd _ wl D fuel2 g _ false c0) as [((p2, x2), y2)|] eqn:P2; [|discriminate]. destruct x2 as [x2|]; [|discriminate].
      pose proof (enc_det _ _ _ _ _ _ _ _ _ _ _ P P2) as Q. injection Q as <- <- <-.
      destruct (enc_all _ wl D fuel g cmds p) as [((u, v), w)|] eqn:U; [|discriminate]. destruct (enc_all _ wl D fuel2 g cmds p) as [((u2, v2), w2)|] eqn:U2; [|discriminate].
      cbn [bind] in *. assert (v2 = v) by congruence. subst v2. injection E as _ _ <-. injection E2 as _ _ <-. f_equal. exact (IH v p u u2 w w2 U U2). }
  subst es2. change (intervals CMD es) with (sfs_of CMD es) in EA2. change (intervals LIT es) with (sfs_of LIT es) in EB2. split; congruence.
Qed.

(** C28.  For acceptable commands, however they are divided over calls and whatever the
    sizes of the output buffers, the compressor does not panic, fail, overrun a buffer or
    report a success that left commands behind.  When flush reports success, the output
    is a file carrying the two streams of these commands.  It does so after at most [n]
    calls, beyond one per batch, that offer at least one byte each. *)
Theorem C28_every_schedule : forall dict wl D g opt cmds a b,
  big D -> cfg_ok g -> acceptable dict wl D g (choose_window opt) cmds -> streams_of dict wl D g (choose_window opt) cmds a b ->
  exists fuel0, forall fuel batches rooms, (fuel0 <= fuel)%nat ->
    concat batches = cmds -> Forall (fun b => b <> []) batches -> Forall (fun r => 0 <= r) rooms ->
  exists o v, session dict wl D g fuel (compressor_new D opt) batches rooms = Some (o, v) /\ v <> Broken /\
    (v = Finished -> is_file (choose_window opt) a b o) /\
    (Forall (fun r => 1 <= r) rooms -> 4 * (zlen a + zlen b) + 27 + Z.of_nat (length batches) < Z.of_nat (length rooms) -> v = Finished).
Proof.
  intros dict wl D g opt cmds a b B G AC (fuel0 & c & es & E & W & EA & EB). set (ws := choose_window opt) in *.
  pose proof (choose_window_range opt) as WR. fold ws in WR.
  destruct (enc_ring dict ws (window ws) wl D g fuel0 cmds c _ es ltac:(lia) (window_len ws ltac:(lia)) E) as (c' & E').
  destruct (header_bytes ws (choose_window_byte opt)) as (BH & HL).
  pose proof (BA es a W EA) as BA. pose proof (ProofEnc4.BB es b W EB) as BB.
  exists fuel0. intros fuel batches rooms LE CC NB RR0.
  destruct (session_spec dict wl D g es a b (make_header ws) W EA EB BH HL fuel fuel0 LE rooms batches (compressor_new D opt) []) as (o & v & S & NBR & FI & LV); auto.
  - exists []. cbn [compressor_new cm_hdr cm_codec cm_ws firstn app ecodec_new ec_phase]. split; [reflexivity|]. split; [lia|]. split; [split; reflexivity|]. split; [reflexivity|]. split; [|split; [|constructor]].
    + unfold phinv. cbn [ec_phase ec_parts ec_codec]. exists [], es. split; [reflexivity|]. split; [apply einv_new|]. split; [|reflexivity]. rewrite CC. eexists _, _. exact E'.
    + unfold crcok. cbn [ec_phase ec_frozen ec_crc]. split; reflexivity.
  - cbn [compressor_new cm_codec ecodec_new ec_phase]. discriminate.
  - exists o, v. split; [exact S|]. split; [exact NBR|]. split.
    + intros F. destruct (FI F) as (X & FR & EO). cbn [app] in EO. exists X. split; [apply framed_framing, FR|]. split; [apply framed_carries; assumption|]. rewrite EO.
      assert (BX : bytes X). { destruct FR as (fs & GG & -> & P0 & P1). apply bytes_app; [apply enc_bytes; [exact GG|rewrite P0; exact BA|rewrite P1; exact BB]|]. repeat constructor; unfold byte; lia. }
      rewrite checksum_bytes_trailer, crc0_spec by (apply bytes_app; assumption). reflexivity.
    + intros R1 L. apply LV; [exact R1|]. unfold bound. change (zlen (@nil Z)) with 0. lia.
Qed.

(** Two complete files made from the same commands, whatever the schedules, deliver the
    same two streams to every reader; only the framing between them may differ. *)
Theorem C28_same_streams : forall dict wl D g opt cmds, big D -> cfg_ok g -> acceptable dict wl D g (choose_window opt) cmds ->
  exists fuel0 a b, forall fuel1 fuel2 batches1 batches2 rooms1 rooms2 o1 o2, (fuel0 <= fuel1)%nat -> (fuel0 <= fuel2)%nat ->
    concat batches1 = cmds -> concat batches2 = cmds -> Forall (fun b => b <> []) batches1 -> Forall (fun b => b <> []) batches2 ->
    Forall (fun r => 0 <= r) rooms1 -> Forall (fun r => 0 <= r) rooms2 ->
    session dict wl D g fuel1 (compressor_new D opt) batches1 rooms1 = Some (o1, Finished) ->
    session dict wl D g fuel2 (compressor_new D opt) batches2 rooms2 = Some (o2, Finished) ->
    is_file (choose_window opt) a b o1 /\ is_file (choose_window opt) a b o2.
Proof.
  intros dict wl D g opt cmds B G AC. destruct (C28_streams_exist dict wl D g _ cmds B G AC) as (a & b & ST & _).
  destruct (C28_every_schedule dict wl D g opt cmds a b B G AC ST) as (fuel0 & H). exists fuel0, a, b.
  intros f1 f2 b1 b2 r1 r2 o1 o2 L1 L2 C1 C2 N1 N2 R1 R2 S1 S2.
  destruct (H f1 b1 r1 L1 C1 N1 R1) as (x1 & v1 & X1 & _ & F1 & _). destruct (H f2 b2 r2 L2 C2 N2 R2) as (x2 & v2 & X2 & _ & F2 & _).
  rewrite S1 in X1. rewrite S2 in X2. injection X1 as <- <-. injection X2 as <- <-. auto.
Qed.

(** C30.  Once flush has reported success the file is final: flushing again reports
    success and adds nothing, and further commands are not taken and add nothing ... *)
Lemma flush_success_done dict wl D g fuel s room o s' : flush dict wl D g fuel s room = Some (o, s', RSuccess) ->
  cm_hdr s' = HEADER_LENGTH /\ ec_phase (cm_codec s') = PDone.
Proof.
  assert (IF : forall steps s room done o s', internal_flush dict wl D g steps fuel s room done = Some (o, s', RSuccess) -> ec_phase s' = PDone).
  { induction steps as [|n IH]; [discriminate|]. intros s0 room0 done o0 s0'. cbn [internal_flush]. destruct (ec_phase s0) eqn:P.
    - destruct (k_st (ec_codec s0)); try discriminate. destruct (one_command _ _ _ _ _ _ _ _ _ _) as [(((o1, c1), p1), r1)|]; [|discriminate]. cbn [bind]. destruct r1; try discriminate. apply IH.
    - destruct (drain_list _ _ _) as [((o1, p1), ok)|]; [|discriminate]. cbn [bind]. destruct ok; [apply IH|discriminate].
    - destruct (enc_flush _) as [e|]; [|discriminate]. cbn [bind]. apply IH.
    - destruct (drain_list _ _ _) as [((o1, p1), ok)|]; [|discriminate]. cbn [bind]. destruct ok; [apply IH|discriminate].
    - destruct (mux_drain _ _ _) as [((o1, p1), ok)|]; [|discriminate]. cbn [bind]. destruct ok; [apply IH|discriminate].
    - destruct (match ec_frozen s0 with None => _ | Some x => _ end) as (crc, fz). destruct (write_checksum _ _ _) as ((o1, n1), r). intros [= <- <- R]. destruct r; [reflexivity|discriminate].
    - intros [= <- <-]. exact P. }
  assert (CF : forall c r0 o1 c1, codec_flush dict wl D g fuel c r0 = Some (o1, c1, RSuccess) -> ec_phase c1 = PDone).
  { intros c r0 o1 c1. unfold codec_flush. destruct (internal_flush _ _ _ _ _ _ _ _ _) as [((o2, c2), r2)|] eqn:I; [|discriminate]. cbn [bind]. intros [= <- <- ->]. cbn [ec_phase].
    exact (IF _ _ _ _ _ _ I). }
  clear IF. unfold flush. revert CF. generalize (codec_flush dict wl D g fuel). intros cf CF.
  destruct (start_call s room) as ((h, s1), ok) eqn:ST. destruct ok; cbn [negb]; [|discriminate].
  destruct (cf (cm_codec s1) (room - zlen h)) as [((o1, c1), r1)|] eqn:C; [|discriminate]. cbn [bind]. intros [= <- <- ->]. cbn [cm_hdr cm_codec].
  split; [|exact (CF _ _ _ _ C)]. revert ST. unfold start_call. destruct (Nat.eqb_spec (cm_hdr s) HEADER_LENGTH) as [HH|HH]; [intros [= <- <-]; exact HH|].
  unfold write_header. destruct (Nat.ltb _ _); intros [= _ <-]; reflexivity.
Qed.
Lemma flush_done_step dict wl D g n fuel s room done : ec_phase s = PDone -> internal_flush dict wl D g (S n) fuel s room done = Some (done, s, RSuccess).
Proof. intros P. cbn [internal_flush]. rewrite P. reflexivity. Qed.
Lemma codec_flush_done dict wl D g fuel s room : ec_phase s = PDone -> exists s2, codec_flush dict wl D g fuel s room = Some ([], s2, RSuccess).
Proof. intros P. unfold codec_flush. rewrite (flush_done_step dict wl D g 9 fuel s room [] P). cbn [bind]. eexists. reflexivity. Qed.
Lemma flush_mid_step dict wl D g n fuel s room : ec_phase s = PRun -> k_st (ec_codec s) <> TBegin ->
  internal_flush dict wl D g (S n) fuel s room [] = Some ([], EC (ec_codec s) (ec_parts s) (ec_crc s) (ec_frozen s) PRun, RFailure NotAllowedToEncodeAfterFlush).
Proof. intros P K. cbn [internal_flush]. rewrite P. destruct (k_st (ec_codec s)); [contradiction|reflexivity..]. Qed.
Theorem C30_final_after_flush : forall dict wl D g fuel s room o s', flush dict wl D g fuel s room = Some (o, s', RSuccess) ->
  forall fuel2 room2, exists s2, flush dict wl D g fuel2 s' room2 = Some ([], s2, RSuccess) /\
  forall cmds, cmds <> [] -> exists r, encode_commands dict wl D g fuel2 s' cmds room2 = Some ([], s', cmds, r).
Proof.
  intros dict wl D g fuel s room o s' E fuel2 room2. destruct (flush_success_done _ _ _ _ _ _ _ _ _ E) as (HH & PH).
  destruct (codec_flush_done dict wl D g fuel2 (cm_codec s') (room2 - 0) PH) as (c2 & CF).
  unfold flush, encode_commands, start_call, codec_encode. rewrite HH, Nat.eqb_refl. cbn [negb]. change (zlen (@nil Z)) with 0. rewrite CF, PH. cbn [bind app].
  eexists. split; [reflexivity|]. intros cmds N. destruct cmds; [contradiction|]. cbn [bind app]. exists RSuccess. destruct s' as [x y z]. cbn [cm_hdr cm_ws cm_codec] in *. rewrite HH. reflexivity.
Qed.
(** ... but that refusal is reported as success, not as a failure. *)
Theorem C30_refusal_reported_refuted : ~ (forall dict wl D g fuel s room o s' cmds fuel2 room2 o2 s2 rest,
  flush dict wl D g fuel s room = Some (o, s', RSuccess) -> encode_commands dict wl D g fuel2 s' cmds room2 = Some (o2, s2, rest, RSuccess) -> rest = []).
Proof.
  intros H.
  pose (s := CM 16 10 (EC (codec_new (DIMS 4 4 4) (rc_new [])) eparts_new 0 None PDone)).
  specialize (H (fun _ _ _ => None) (fun _ _ _ => 0) (DIMS 4 4 4) (CFG 2 None true 9 4) 1%nat s 5 [] s [Copy 1 1] 1%nat 5 [] s [Copy 1 1] eq_refl eq_refl). discriminate.
Qed.
(** Between the end marker and the trailer a command is refused with a failure and
    changes nothing; in the middle of a command flush is refused.  A command given while
    the trailer is being written, or an empty command array, is a panic. *)
Definition shutting_down (p : phase) : Prop := match p with PNode | PShut _ | PCoders | PMux => True | _ => False end.
Theorem C30_refused_while_closing : forall dict wl D g fuel s cmds room, cm_hdr s = HEADER_LENGTH -> cmds <> [] -> shutting_down (ec_phase (cm_codec s)) ->
  encode_commands dict wl D g fuel s cmds room = Some ([], s, cmds, RFailure NotAllowedToEncodeAfterFlush).
Proof.
  intros dict wl D g fuel s cmds room HH N SD. unfold encode_commands, start_call, codec_encode. rewrite HH, Nat.eqb_refl. cbn [negb].
  destruct (ec_phase (cm_codec s)); try contradiction; (destruct cmds; [contradiction|]); cbn [bind app]; destruct s as [x y z]; cbn [cm_hdr cm_ws cm_codec] in *; rewrite HH; reflexivity.
Qed.
Theorem C30_flush_inside_command_refused : forall dict wl D g fuel s room, cm_hdr s = HEADER_LENGTH -> ec_phase (cm_codec s) = PRun -> k_st (ec_codec (cm_codec s)) <> TBegin ->
  exists s' e, flush dict wl D g fuel s room = Some ([], s', RFailure e) /\ ec_codec (cm_codec s') = ec_codec (cm_codec s) /\ ec_parts (cm_codec s') = ec_parts (cm_codec s) /\ ec_phase (cm_codec s') = PRun.
Proof.
  intros dict wl D g fuel s room HH P T. unfold flush, start_call, codec_flush. rewrite HH, Nat.eqb_refl. cbn [negb].
  rewrite (flush_mid_step dict wl D g 9 fuel _ _ P T). cbn [bind app]. eexists _, _. split; [reflexivity|]. cbn [cm_codec ec_codec ec_parts ec_phase]. auto.
Qed.
Theorem C30_empty_batch_panics_refuted : forall dict wl D g fuel s room, cm_hdr s = HEADER_LENGTH -> encode_commands dict wl D g fuel s [] room = None.
Proof.
  intros dict wl D g fuel s room HH. unfold encode_commands, start_call, codec_encode. rewrite HH, Nat.eqb_refl. cbn [negb run_commands]. destruct (ec_phase (cm_codec s)); reflexivity.
Qed.

(** ** A case: three batches, output in pieces of five bytes, window 2^10 *)
Definition demo_batches : list (list command) := [firstn 1 demo_cmds; firstn 4 (skipn 1 demo_cmds); skipn 5 demo_cmds].
Example C28_case : big real_dims /\ cfg_ok demo_cfg /\ acceptable demo_dict demo_wl real_dims demo_cfg (choose_window (Some 3)) (concat demo_batches) /\ Forall (fun b => b <> []) demo_batches.
Proof.
  destruct C20_case as (B & G & E & _ & U & R). split; [exact B|]. split; [exact G|]. change (choose_window (Some 3)) with 10. change (concat demo_batches) with demo_cmds. split; [split; [exact E|]|].
  - rewrite (coded_unchanged demo_wl real_dims demo_cfg demo_cmds _ U). revert R. apply Forall_impl. intros x. destruct x; cbn [replayable]; auto; [lia|]. intros (w & W1 & W2 & W3). exists w. split; [exact W1|]. split; [lia|exact W3].
  - repeat constructor; discriminate.
Qed.
Example C28_run : exists o, session demo_dict demo_wl (DIMS 4 4 4) demo_cfg 200 (compressor_new (DIMS 4 4 4) (Some 3)) demo_batches (repeat 5 40) = Some (o, Finished) /\ zlen o = 77.
Proof. eexists. split; [vm_compute; reflexivity|reflexivity]. Qed.
Print Assumptions C28_streams_exist.
Print Assumptions C28_every_schedule.
Print Assumptions C28_same_streams.
Print Assumptions C30_final_after_flush.
Print Assumptions C30_refusal_reported_refuted.
Print Assumptions C30_refused_while_closing.
Print Assumptions C30_flush_inside_command_refused.
Print Assumptions C30_empty_batch_panics_refuted.
