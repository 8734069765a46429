(** C38, C39: the std::io adapters. *)
From Verif Require Import Prelude ProofList ModelAns SpecAns ProofAnsRt ModelCdf SpecCdf ModelMux SpecMux ProofZlist ProofMux ProofMuxW ProofMuxR ModelCmd ModelCrc SpecCrc ProofCrc ModelHeader SpecHeader ProofHeader ThmHeader ModelRecode SpecLz ModelPriors ModelCodec ModelLit ModelPm ModelTop SpecCodec SpecReplay ProofCodecInv ProofCodecInv2 ProofRun ProofCopy ProofTop ThmCodec ModelEnc SpecEnc SpecFile ProofEnc ProofEnc2 ProofEnc3 ProofEnc4 ProofSim ThmEnc ModelDec SpecDec ProofDec6 ProofDec7 ThmDec ModelRaw ModelRawEnc SpecRawEnc ProofRecode ThmRaw ProofRawEnc ProofRawEnc2 ThmRawEnc ModelIo SpecIo ProofIo ProofIo2.

(** ** Starting points *)
Lemma file_starts dict wl D g ws cmds a b skip : big D -> cfg_ok g -> 10 <= ws <= 24 -> acceptable dict wl D g ws cmds -> streams_of dict wl D g ws cmds a b ->
  exists N, forall T, is_file ws a b T -> exists W Tr, Tr = trailer (crc32c 0 (make_header ws ++ W)) /\ starts dict wl D skip ws W Tr (meaning dict (window ws) cmds) N /\
    dinv dict wl D skip ws W Tr (meaning dict (window ws) cmds) N decompressor_new T [] /\ bytes T.
Proof.
  intros B G WS AC ST.
  assert (BAB : bytes a /\ bytes b). { destruct ST as (f & c & es & _ & W & EA & EB). split; [exact (BA es a W EA)|exact (ProofEnc4.BB es b W EB)]. }
  destruct (start dict wl D skip ws WS g cmds a b B G AC ST) as (N & H). exists N. intros T (W & FRM & _ & ->).
  assert (BH : bytes (make_header ws)) by (apply header_bytes; unfold byte; lia).
  pose proof (framing_framed _ _ _ FRM) as FR.
  assert (BW : bytes W). { destruct FR as (fs & GG & -> & P0 & P1). apply bytes_app; [apply enc_bytes; [exact GG|rewrite P0; apply BAB|rewrite P1; apply BAB]|]. apply Forall_cons; [unfold byte; lia|]. apply Forall_cons; [unfold byte; lia|]. apply Forall_cons; [unfold byte; lia|]. apply Forall_nil. }
  destruct (H W FR BW _ eq_refl) as (n & ci & ces & outsW & les & PV & CO). set (Tr := trailer (crc32c 0 (make_header ws ++ W))) in *.
  assert (BTr : bytes Tr).
  { unfold Tr, trailer. apply Forall_app. split; [apply le_bytes|]. apply Forall_cons; [unfold byte; lia|]. apply Forall_cons; [unfold byte; lia|]. apply Forall_cons; [unfold byte; lia|]. apply Forall_cons; [unfold byte; lia|]. apply Forall_nil. }
  exists W, Tr. split; [reflexivity|]. split; [|split].
  - exists n, (pm_new D), ci, ces, outsW, a, b, les. split; [exact PV|exact CO].
  - exists [], (make_header ws). split; [exact hp_new_inv|]. repeat split.
  - apply bytes_app; [exact BH|]. apply bytes_app; [exact BW|exact BTr].
Qed.
Lemma raw_starts dict wl g opt X a b : zlen X < 2 * 2 ^ choose_window opt - 1 -> streams_of dict wl real_dims g (choose_window opt) (raw_cmds real_dims (choose_window opt) X) a b ->
  exists f0 es, writable es /\ ans_encode (sfs_of CMD es) = Some a /\ ans_encode (sfs_of LIT es) = Some b /\
    rinv dict wl real_dims g es a b (make_header (choose_window opt)) (choose_window opt) X f0 (rawc_new real_dims opt) [] [] /\
    (forall o, complete a b (make_header (choose_window opt)) o -> is_file (choose_window opt) a b o).
Proof.
  intros LX (fuel0 & c & es & E & W & EA & EB). set (ws := choose_window opt) in *.
  pose proof (choose_window_range opt) as WR. fold ws in WR. assert (L10 : 2 ^ 10 <= 2 ^ ws) by (apply Z.pow_le_mono_r; lia).
  destruct (enc_ring dict ws (window ws) wl real_dims g fuel0 _ c _ es ltac:(lia) (window_len ws ltac:(lia)) E) as (c' & E').
  destruct (header_bytes ws (choose_window_byte opt)) as (BH & HL).
  pose proof (BA es a W EA) as BA. pose proof (ProofEnc4.BB es b W EB) as BB.
  exists fuel0, es. split; [exact W|]. split; [exact EA|]. split; [exact EB|]. split.
  - unfold rinv, rawc_new. cbn [rw_asm rw_cm rw_frz app]. fold ws. split; [exact (window_len ws ltac:(lia))|]. split; [|split; [|split; [reflexivity|split; [reflexivity|]]]].
    + apply AF; cbn [raw_new roi rdi produced_header rring]; try reflexivity. change (zlen (@nil Z)) with 0. lia.
    + unfold pending. change (zlen (@nil Z)) with 0. destruct (Z.ltb_spec 0 (2 ^ ws)); [|lia].
      exists []. cbn [compressor_new cm_hdr cm_codec cm_ws firstn app ecodec_new ec_phase]. split; [reflexivity|]. split; [lia|]. split; [split; reflexivity|]. split; [reflexivity|]. split; [|split; [|constructor]].
      * unfold phinv. cbn [ec_phase ec_parts ec_codec]. exists [], es. split; [reflexivity|]. split; [apply einv_new|]. split; [|reflexivity]. eexists _, _. exact E'.
      * unfold crcok. cbn [ec_phase ec_frozen ec_crc]. split; reflexivity.
    + intros _. split; [reflexivity|]. split; [eexists; reflexivity|reflexivity].
  - intros o (Y & FR & EO). exists Y. split; [apply framed_framing, FR|]. split; [apply framed_carries; assumption|]. rewrite EO.
    assert (BY : bytes Y). { destruct FR as (fs & GG & -> & P0 & P1). apply bytes_app; [apply enc_bytes; [exact GG|rewrite P0; exact BA|rewrite P1; exact BB]|]. repeat constructor; unfold byte; lia. }
    rewrite checksum_bytes_trailer, crc0_spec by (apply bytes_app; assumption). reflexivity.
Qed.

(** ** C38: the readers *)

(** C38, decompressing.  [T] is a complete file for [cmds]; the source delivers it, or the
    part of it before [missing], in any pieces, with any interruptions, and may fail.
    The reader has a buffer of any size [cap] and is read with buffers of any sizes but
    zero.  No read hangs or panics, and what the reads return, in order, is a beginning
    of the original bytes.  A read fails only if the source failed or was cut short.  A
    read returns no bytes (the end, for the caller) only if the source delivered the
    whole file and did not fail; then the reads before it returned all the original
    bytes, and the reads after it return nothing.  The end, or an error, comes after at
    most as many reads as there are bytes. *)
Theorem C38_decompressing_reader : forall dict wl D g ws cmds a b skip,
  big D -> cfg_ok g -> 10 <= ws <= 24 -> acceptable dict wl D g ws cmds -> streams_of dict wl D g ws cmds a b ->
  exists fuel0, forall fuel T src missing cap, (fuel0 <= fuel)%nat ->
    is_file ws a b T -> Forall honest src -> content src ++ missing = T -> 1 <= cap ->
  exists n0, forall n rooms, (n0 <= n)%nat -> Forall (fun r => 1 <= r) rooms ->
  exists chunks h, reads (decompressing dict wl D skip fuel) cap n (greader_new decompressor_new src false) rooms = (chunks, h) /\
    (exists more, meaning dict (window ws) cmds = concat chunks ++ more) /\
    (h = Fine \/ (h = Failed /\ (missing <> [] \/ faulty src = true))) /\
    (reached_end chunks -> missing = [] /\ faulty src = false) /\
    (forall c1 c2, chunks = c1 ++ [] :: c2 -> concat c1 = meaning dict (window ws) cmds /\ concat c2 = []) /\
    (zlen (meaning dict (window ws) cmds) < zlen rooms -> reached_end chunks \/ h = Failed).
Proof.
  intros dict wl D g ws cmds a b skip B G WS AC ST. destruct (file_starts dict wl D g ws cmds a b skip B G WS AC ST) as (N & H). exists N.
  intros fuel T src missing cap LE IF HO ET CAP. exists (weight src + 3)%nat. intros n rooms LN RM.
  destruct (H T IF) as (W & Tr & TRE & AS & DI & BT).
  pose proof (dec_contract dict wl D skip ws WS W Tr _ N TRE AS fuel LE) as C.
  destruct (reads_spec _ cap CAP _ _ _ _ _ _ _ _ _ C eq_refl missing (faulty src) (or_intror eq_refl) (weight src) n LN rooms (greader_new decompressor_new src false) []) as (cs & h & E & PA & HH & FF & GO & LV).
  - unfold RI, shape, greader_new. cbn [g_off g_data g_src g_p]. change (zlen (@nil Z)) with 0. split; [lia|]. left. split; [|intros Q; contradiction Q; reflexivity].
    unfold opened. cbn [g_eof g_err g_p g_off g_data g_src]. change (zskip 0 (@nil Z)) with (@nil Z). cbn [app]. rewrite ET. change (zlen (@nil Z)) with 0. split; [reflexivity|]. split; [reflexivity|]. split; [split; [exact DI|exact BT]|]. split; [exact HO|]. split; [reflexivity|lia].
  - exact RM.
  - exists cs, h. split; [exact E|]. split; [exact PA|]. split; [exact HH|]. split; [intros Q; destruct (FF Q); auto|]. split; [exact GO|]. intros L. apply LV. change (zlen (@nil Z)) with 0. lia.
Qed.

(** C38, compressing.  The same for the compressor on raw bytes, for inputs [X] shorter
    than the window: every error is the source's, and when a read returns no bytes the
    reads before it have returned a complete file for [X]. *)
Theorem C38_compressing_reader : forall dict wl g opt X a b,
  cfg_ok g -> bytes X -> zlen X < 2 ^ choose_window opt -> streams_of dict wl real_dims g (choose_window opt) (raw_cmds real_dims (choose_window opt) X) a b ->
  exists fuel0, forall fuel src cap, (fuel0 <= fuel)%nat -> Forall honest src -> content src = X -> 1 <= cap ->
  exists n0, forall n rooms, (n0 <= n)%nat -> Forall (fun r => 1 <= r) rooms ->
  exists chunks h, reads (compressing dict wl real_dims g fuel) cap n (greader_new (rawc_new real_dims opt) src true) rooms = (chunks, h) /\
    (h = Fine \/ (h = Failed /\ faulty src = true)) /\
    (reached_end chunks -> faulty src = false) /\
    (forall c1 c2, chunks = c1 ++ [] :: c2 -> is_file (choose_window opt) a b (concat c1) /\ concat c2 = []) /\
    (4 * (zlen a + zlen b) + 43 < zlen rooms -> reached_end chunks \/ h = Failed).
Proof.
  intros dict wl g opt X a b G BX LX ST. pose proof (choose_window_range opt) as WR. assert (L10 : 2 ^ 10 <= 2 ^ choose_window opt) by (apply Z.pow_le_mono_r; lia).
  destruct (raw_starts dict wl g opt X a b ltac:(lia) ST) as (f0 & es & W & EA & EB & RI0 & CF). set (ws := choose_window opt) in *. destruct (header_bytes ws (choose_window_byte opt)) as (BH & HL).
  exists f0. intros fuel src cap LE HO ET CAP. exists (weight src + 3)%nat. intros n rooms LN RM.
  pose proof (enc_contract dict wl real_dims g es a b (make_header ws) W EA EB BH HL ws ltac:(lia) real_fits X ltac:(lia) f0 fuel LE true (fun _ => LX)) as C.
  destruct (reads_spec _ cap CAP _ _ _ _ _ _ _ _ _ C eq_refl [] (faulty src) (or_introl eq_refl) (weight src) n LN rooms (greader_new (rawc_new real_dims opt) src true) []) as (cs & h & E & PA & HH & FF & GO & LV).
  - unfold RI, shape, greader_new. cbn [g_off g_data g_src g_p]. change (zlen (@nil Z)) with 0. split; [lia|]. left. split; [|intros Q; contradiction Q; reflexivity].
    unfold opened. cbn [g_eof g_err g_p g_off g_data g_src]. change (zskip 0 (@nil Z)) with (@nil Z). cbn [app]. rewrite app_nil_r, ET. change (zlen (@nil Z)) with 0. split; [reflexivity|]. split; [reflexivity|]. split; [exists []; split; [reflexivity|exact RI0]|]. split; [exact HO|]. split; [reflexivity|lia].
  - exact RM.
  - exists cs, h. split; [exact E|]. split; [destruct HH as [HH|(HH & [Q|Q])]; [auto|contradiction|auto]|]. split; [intros Q; destruct (FF Q); assumption|]. split.
    + intros c1 c2 EC. destruct (GO c1 c2 EC) as (Q1 & Q2). split; [apply CF, Q1|exact Q2].
    + intros L. apply LV. unfold bound. change (zlen (@nil Z)) with 0. lia.
Qed.

(** C38, round trip.  What a compressing reader has returned when it reports the end,
    read through a decompressing reader until that one reports the end, is the input. *)
Theorem C38_reader_roundtrip : forall dict wl g opt X skip, cfg_ok g -> bytes X -> zlen X < 2 ^ choose_window opt ->
  exists fuel0 len0, forall fuel src cap, (fuel0 <= fuel)%nat -> Forall honest src -> content src = X -> faulty src = false -> 1 <= cap ->
  exists n0, forall n rooms, (n0 <= n)%nat -> Forall (fun r => 1 <= r) rooms ->
  exists chunks, reads (compressing dict wl real_dims g fuel) cap n (greader_new (rawc_new real_dims opt) src true) rooms = (chunks, Fine) /\
    (len0 < zlen rooms -> reached_end chunks) /\
    forall c1 c2, chunks = c1 ++ [] :: c2 -> forall src2 cap2, Forall honest src2 -> content src2 = concat c1 -> faulty src2 = false -> 1 <= cap2 ->
    exists n1, forall n rooms, (n1 <= n)%nat -> Forall (fun r => 1 <= r) rooms ->
    exists back, reads (decompressing dict wl real_dims skip fuel) cap2 n (greader_new decompressor_new src2 false) rooms = (back, Fine) /\
      (exists more, X = concat back ++ more) /\ (zlen X < zlen rooms -> reached_end back) /\ (reached_end back -> concat back = X).
Proof.
  intros dict wl g opt X skip G BX LX. set (ws := choose_window opt) in *. assert (WS : 10 <= ws <= 24) by (unfold ws, choose_window; lia). assert (B : big real_dims) by (vm_compute; intuition congruence). assert (L10 : 2 ^ 10 <= 2 ^ ws) by (apply Z.pow_le_mono_r; lia).
  pose proof (raw_acceptable dict wl g ws X G WS BX ltac:(lia)) as AC.
  destruct (C28_streams_exist dict wl real_dims g _ _ B G AC) as (a & b & ST & _).
  destruct (C38_compressing_reader dict wl g opt X a b G BX LX ST) as (f1 & H1).
  destruct (C38_decompressing_reader dict wl real_dims g _ _ a b skip B G WS AC ST) as (f2 & H2). rewrite (raw_meaning dict ws X _ ltac:(lia)) in H2.
  exists (max f1 f2), (4 * (zlen a + zlen b) + 43). intros fuel src cap LE HO ET FA CAP. destruct (H1 fuel src cap ltac:(lia) HO ET CAP) as (n0 & H3). exists n0. intros n rooms LN RM.
  destruct (H3 n rooms LN RM) as (cs & h & E & HH & _ & GO & LV). exists cs. assert (HF : h = Fine) by (destruct HH as [HH|(_ & HH)]; [exact HH|congruence]). subst h. split; [exact E|]. split; [intros L; destruct (LV L) as [Q|Q]; [exact Q|discriminate]|].
  intros c1 c2 EC src2 cap2 HO2 ET2 FA2 CAP2. destruct (GO c1 c2 EC) as (IF & _). destruct (H2 fuel (concat c1) src2 [] cap2 ltac:(lia) IF HO2 ltac:(rewrite app_nil_r; exact ET2) CAP2) as (n1 & H4). exists n1. intros n' rooms' LN' RM'.
  destruct (H4 n' rooms' LN' RM') as (back & h & E2 & PA & HH2 & _ & GO2 & LV2). exists back. assert (HF : h = Fine) by (destruct HH2 as [HH2|(_ & [HH2|HH2])]; [exact HH2|contradiction|congruence]). subst h. split; [exact E2|]. split; [exact PA|]. split.
  - intros L. destruct (LV2 L) as [Q|Q]; [exact Q|discriminate].
  - intros (b1 & b2 & EB). destruct (GO2 b1 b2 EB) as (Q1 & Q2). rewrite EB, concat_app. cbn [concat app]. rewrite Q1, Q2. apply app_nil_r.
Qed.

(** ** C39: the writers *)

(** C39, compressing.  Raw bytes [X] written in any pieces through an adapter with a buffer
    of any size, then flushed: no call hangs or panics, every write takes its whole
    buffer, an error is the inner writer's, and when all calls succeed the inner writer
    holds a complete file for [X]. *)
Theorem C39_compressing_writer : forall dict wl g opt X a b,
  cfg_ok g -> bytes X -> zlen X < 2 * 2 ^ choose_window opt - 1 -> streams_of dict wl real_dims g (choose_window opt) (raw_cmds real_dims (choose_window opt) X) a b ->
  exists fuel0 n0, forall fuel n bufs cap faults, (fuel0 <= fuel)%nat -> (n0 <= n)%nat -> concat bufs = X -> 1 <= cap ->
  exists w h, flushed (compressing dict wl real_dims g fuel) cap n (writes (compressing dict wl real_dims g fuel) cap n (gwriter_new (rawc_new real_dims opt) (SK [] faults) true) bufs) = (w, h) /\
    (h = Fine \/ (h = Failed /\ faults <> [])) /\
    (h = Fine -> is_file (choose_window opt) a b (k_got (gw_sink w))).
Proof.
  intros dict wl g opt X a b G BX LX ST. pose proof (choose_window_range opt) as WR. assert (L10 : 2 ^ 10 <= 2 ^ choose_window opt) by (apply Z.pow_le_mono_r; lia).
  destruct (raw_starts dict wl g opt X a b LX ST) as (f0 & es & W & EA & EB & RI0 & CF). set (ws := choose_window opt) in *. destruct (header_bytes ws (choose_window_byte opt)) as (BH & HL).
  exists f0, (S (Z.to_nat (ProofEnc4.bound a b + 16))). intros fuel n bufs cap faults LE LN ET CAP.
  pose proof (enc_contract dict wl real_dims g es a b (make_header ws) W EA EB BH HL ws ltac:(lia) real_fits X LX f0 fuel LE false ltac:(discriminate)) as C.
  destruct (writes_spec _ cap CAP _ _ _ _ _ _ _ _ _ C false ltac:(discriminate) [] n ltac:(lia) bufs (gwriter_new (rawc_new real_dims opt) (SK [] faults) true) []) as (w & h & E & K).
  - cbn [gwriter_new gw_p]. rewrite app_nil_r, ET. exists []. split; [reflexivity|exact RI0].
  - reflexivity.
  - rewrite E. destruct K as [(-> & o2 & (I & GT & FL & FA) & _)|(-> & Q & _)]; cbn [flushed]; [|exists w, Failed; split; [reflexivity|]; split; [right; split; [reflexivity|exact Q]|discriminate]].
    cbn [app] in *. pose proof (gflush_spec _ cap CAP _ _ _ _ _ _ _ _ _ C false ltac:(discriminate) n w o2 (ct_turn _ _ _ _ _ _ _ _ _ _ C _ _ _ I (or_introl eq_refl)) GT FL) as GF.
    assert (LF : (Z.to_nat (ProofEnc4.bound a b + 16 - zlen o2) < n)%nat) by (pose proof (zlen_nonneg o2); lia). specialize (GF LF).
    destruct (gflush (compressing dict wl real_dims g fuel) cap n w) as [m w'|w'| |]; [| |contradiction|contradiction].
    + exists w', Fine. split; [reflexivity|]. split; [auto|]. intros _. apply CF, GF.
    + exists w', Failed. split; [reflexivity|]. split; [|discriminate]. right. split; [reflexivity|]. destruct GF as (Q & _). cbn [gwriter_new gw_sink k_faults] in FA. intros Q2. apply Q, FA, Q2.
Qed.

(** C39, decompressing.  A complete file [T], or the part of it before [missing], written
    in any pieces: no write hangs or panics, every write takes its whole buffer, an error
    is the inner writer's.  The inner writer always holds a beginning of the original
    bytes, and all of them once the whole file is written. *)
Theorem C39_decompressing_writer : forall dict wl D g ws cmds a b skip,
  big D -> cfg_ok g -> 10 <= ws <= 24 -> acceptable dict wl D g ws cmds -> streams_of dict wl D g ws cmds a b ->
  exists fuel0 n0, forall fuel n T bufs missing cap faults, (fuel0 <= fuel)%nat -> (n0 <= n)%nat ->
    is_file ws a b T -> concat bufs ++ missing = T -> 1 <= cap ->
  exists w h, writes (decompressing dict wl D skip fuel) cap n (gwriter_new decompressor_new (SK [] faults) false) bufs = (w, h) /\
    (h = Fine \/ (h = Failed /\ faults <> [])) /\
    (exists more, meaning dict (window ws) cmds = k_got (gw_sink w) ++ more) /\
    (h = Fine -> missing = [] -> k_got (gw_sink w) = meaning dict (window ws) cmds).
Proof.
  intros dict wl D g ws cmds a b skip B G WS AC ST. destruct (file_starts dict wl D g ws cmds a b skip B G WS AC ST) as (N & H). exists N, (S (Z.to_nat (zlen (meaning dict (window ws) cmds)))).
  intros fuel n T bufs missing cap faults LE LN IF ET CAP. destruct (H T IF) as (W & Tr & TRE & AS & DI & BT).
  pose proof (dec_contract dict wl D skip ws WS W Tr _ N TRE AS fuel LE) as C.
  destruct (writes_spec _ cap CAP _ _ _ _ _ _ _ _ _ C true (fun _ => dec_self dict wl D skip ws WS W Tr _ N TRE AS fuel LE) missing n ltac:(lia) bufs (gwriter_new decompressor_new (SK [] faults) false) []) as (w & h & E & K).
  - cbn [gwriter_new gw_p]. rewrite ET. split; assumption.
  - reflexivity.
  - exists w, h. split; [exact E|]. destruct K as [(-> & o2 & (I & GT & FL & FA) & DN)|(-> & Q & x & y & Q2 & Q3)]; cbn [app] in *.
    + split; [auto|]. rewrite GT. split; [exact (proj1 (ct_part _ _ _ _ _ _ _ _ _ _ C _ _ _ (or_introl I)))|]. intros _ M0. destruct (DN eq_refl M0) as (_ & DN'); [|exact DN'].
      intros ->. rewrite M0 in ET. cbn [concat app] in ET. destruct IF as (WW & _ & _ & TT). rewrite TT in ET. discriminate ET.
    + split; [right; split; [reflexivity|exact Q]|]. rewrite Q2. split; [|discriminate]. destruct Q3 as (m & Q3). exists (y ++ m). rewrite Q3, <- app_assoc. reflexivity.
Qed.

(** ** What does not hold *)
Lemma exit_now {P} (pr : processor P) cap n g room av needs o : o <> [] -> read_loop pr cap (S n) g room av needs o = ROk o g.
Proof.
  intros K. cbn [read_loop]. assert (0 < zlen o) by (destruct o; [contradiction|unfold zlen; cbn [length]; lia]). destruct (Z.eqb_spec (room - zlen o) room); [lia|reflexivity].
Qed.
Section Spin.
Context (dict : dict_fn) (wl : word_len_fn) (D : dims) (skip : bool) (ws : Z) (WS : 10 <= ws <= 24) (W Tr out : list Z) (N : nat).
Context (TRE : Tr = trailer (crc32c 0 (make_header ws ++ W))) (START : starts dict wl D skip ws W Tr out N) (fuel : nat) (LE : (N <= fuel)%nat).
Local Notation DI := (dinv dict wl D skip ws W Tr out N).
(** after the file: success, nothing read, nothing put out *)
Lemma decode_after d tail room : DI d [] out -> bytes tail -> 1 <= room -> exists d', decode dict wl D skip fuel d tail room = Some (0, [], d', DSuccess) /\ DI d' [] out.
Proof.
  intros I BT R. destruct (decode_good dict wl D skip ws WS W Tr out N TRE START fuel d [] out tail [] tail room I BT ltac:(rewrite app_nil_r; reflexivity) ltac:(lia) LE) as (pre & suf & o2 & d' & r & rest' & E & EI & ER & LO & I' & K).
  symmetry in ER. apply app_eq_nil in ER. destruct ER as (-> & ->). destruct (dinv_prefix _ _ _ _ _ _ _ _ _ _ _ _ I') as (y & Y). rewrite <- app_assoc in Y. apply full_nil, app_eq_nil in Y. destruct Y as (-> & _). rewrite app_nil_r in *.
  change (zlen (@nil Z)) with 0 in *. exists d'. destruct r; [auto|destruct K as (K & _); contradiction K; reflexivity|destruct K as (K & _); lia|contradiction].
Qed.
Lemma trailing_spins cap tail room : bytes tail -> tail <> [] -> 1 <= room -> forall n g, DI (g_p g) [] out -> g_eof g = true -> 0 <= g_off g -> zskip (g_off g) (g_data g) = tail -> zlen (g_data g) - g_off g = zlen tail ->
  read_loop (decompressing dict wl D skip fuel) cap n g room (zlen tail) false [] = RSpin.
Proof.
  intros BT TN R. assert (TP : 0 < zlen tail) by (destruct tail; [contradiction TN; reflexivity|unfold zlen; cbn [length]; lia]).
  induction n as [|n IH]; intros g I E O U A; [reflexivity|]. rewrite read_loop_eq. cbn [negb orb]. change (zlen (@nil Z)) with 0. rewrite Z.sub_0_r, Z.eqb_refl. cbn [andb negb].
  unfold fetch. rewrite E. cbn [negb]. rewrite andb_false_r. cbn beta iota. unfold after. destruct (Z.eqb_spec (zlen tail) 0) as [Q|_]; [lia|]. rewrite U. change (zlen (@nil Z)) with 0. rewrite Z.sub_0_r.
  replace (zfirst (zlen tail) tail) with tail by (unfold zfirst, zlen; rewrite Nat2Z.id, firstn_all; reflexivity).
  destruct (decode_after (g_p g) tail room I BT R) as (d' & ED & I'). cbn [process decompressing]. rewrite ED. cbn [bind dec_pres]. destruct (Z.ltb_spec (zlen tail) 0); [lia|]. change (zlen (@nil Z)) with 0. destruct (Z.ltb_spec room 0); [lia|]. cbn [orb app].
  rewrite Z.sub_0_r. destruct (Z.eqb_spec (zlen tail) 0) as [Q|_]; [lia|]. cbn [andb g_err g_eof g_flushed]. rewrite andb_false_r. cbn [andb]. apply IH; cbn [g_p g_eof g_off g_data]; [exact I'|exact E|lia|rewrite Z.add_0_r; exact U|lia].
Qed.
Lemma decode_whole T tail room : DI decompressor_new T [] -> bytes (T ++ tail) -> zlen out < room -> exists d', decode dict wl D skip fuel decompressor_new (T ++ tail) room = Some (zlen T, out, d', DSuccess) /\ DI d' [] out.
Proof.
  intros I BT R. pose proof (zlen_nonneg out) as NO. destruct (decode_good dict wl D skip ws WS W Tr out N TRE START fuel decompressor_new T [] (T ++ tail) [] tail room I BT ltac:(rewrite app_nil_r; reflexivity) ltac:(lia) LE) as (pre & suf & o2 & d' & r & rest' & E & EI & ER & LO & I' & K).
  cbn [app] in *. destruct (dinv_prefix _ _ _ _ _ _ _ _ _ _ _ _ I') as (y & Y). assert (LY : zlen o2 <= zlen out) by (rewrite Y, zlen_app; pose proof (zlen_nonneg y); lia).
  destruct r; [|destruct K as (K & S0)|destruct K as (K & _); lia|contradiction].
  - destruct K as (-> & K). rewrite K in *. rewrite app_nil_r in ER. rewrite ER in *. exists d'. auto.
  - exfalso. rewrite ER, S0, app_nil_r in EI. rewrite <- app_assoc in EI. rewrite <- (app_nil_r pre) in EI at 2. apply app_inv_head in EI. apply app_eq_nil in EI. apply K, EI.
Qed.
End Spin.

(** Bytes after the file make the decompressing reader hang: the read after the one that
    returned the last original byte does not return, however many rounds its loop is
    given. *)
Theorem C38_trailing_bytes_refuted : forall dict wl D g ws cmds a b skip,
  big D -> cfg_ok g -> 10 <= ws <= 24 -> acceptable dict wl D g ws cmds -> streams_of dict wl D g ws cmds a b -> meaning dict (window ws) cmds <> [] ->
  exists fuel0, forall fuel T tail cap room1 room2 n, (fuel0 <= fuel)%nat -> is_file ws a b T -> bytes tail -> tail <> [] -> zlen (T ++ tail) < cap ->
    zlen (meaning dict (window ws) cmds) < room1 -> 1 <= room2 -> (2 <= n)%nat ->
    reads (decompressing dict wl D skip fuel) cap n (greader_new decompressor_new [SData (T ++ tail)] false) [room1; room2] = ([meaning dict (window ws) cmds], Hung).
Proof.
  intros dict wl D g ws cmds a b skip B G WS AC ST NE. destruct (file_starts dict wl D g ws cmds a b skip B G WS AC ST) as (N & H). exists N.
  intros fuel T tail cap room1 room2 n LE IF BTL TN CAP R1 R2 LN. destruct (H T IF) as (W & Tr & TRE & AS & DI & BT). set (Y := meaning dict (window ws) cmds) in *.
  assert (BTT : bytes (T ++ tail)) by (apply Forall_app; auto). pose proof (zlen_nonneg Y) as NY. pose proof (zlen_nonneg T) as NT. assert (TP : 0 < zlen tail) by (destruct tail; [contradiction TN; reflexivity|unfold zlen; cbn [length]; lia]).
  destruct (decode_whole dict wl D skip ws WS W Tr Y N TRE AS fuel LE T tail room1 DI BTT R1) as (d' & ED & DI').
  destruct n as [|[|n]]; [lia|lia|]. cbn [reads]. unfold gread at 1. cbn [g_data g_off greader_new]. change (zlen (@nil Z) - 0) with 0.
  assert (F1 : read_loop (decompressing dict wl D skip fuel) cap (S (S n)) (greader_new decompressor_new [SData (T ++ tail)] false) room1 0 false [] = ROk Y (GR d' (T ++ tail) (zlen T) false true false [])).
  { rewrite read_loop_eq. cbn [negb orb]. change (zlen (@nil Z)) with 0. rewrite Z.sub_0_r, Z.eqb_refl. cbn [andb negb]. unfold fetch, greader_new. cbn [g_data g_eof g_src g_p g_off g_flushed g_err negb]. change (zlen (@nil Z)) with 0.
    rewrite zlen_app in *. destruct (Z.ltb_spec 0 cap); [|lia]. cbn [andb source_read]. rewrite Z.sub_0_r.
    assert (FA : zfirst cap (T ++ tail) = T ++ tail) by (unfold zfirst; apply firstn_all2; rewrite app_length; unfold zlen in *; lia). rewrite FA. rewrite !zlen_app. destruct (Z.ltb_spec cap (zlen T + zlen tail)); [lia|]. destruct (Z.eqb_spec (zlen T + zlen tail) 0); [lia|]. cbn beta iota. cbn [app].
    replace (0 + (zlen T + zlen tail) - 0) with (zlen T + zlen tail) by lia. unfold after. destruct (Z.eqb_spec (zlen T + zlen tail) 0); [lia|]. cbn [g_off g_data g_p g_eof g_flushed g_err g_src].
    change (zskip 0 (T ++ tail)) with (T ++ tail). rewrite <- zlen_app. replace (zfirst (zlen (T ++ tail)) (T ++ tail)) with (T ++ tail) by (unfold zfirst, zlen; rewrite Nat2Z.id, firstn_all; reflexivity). change (zlen (@nil Z)) with 0. rewrite Z.sub_0_r.
    cbn [process decompressing]. rewrite ED. cbn [bind dec_pres]. rewrite zlen_app. destruct (Z.ltb_spec (zlen T + zlen tail) (zlen T)); [lia|]. destruct (Z.ltb_spec room1 (zlen Y)); [lia|]. cbn [orb app].
    replace (zlen T + zlen tail - zlen T) with (zlen tail) by lia. destruct (Z.eqb_spec (zlen tail) 0); [lia|]. cbn [andb g_eof]. rewrite Z.add_0_l. apply exit_now. exact NE. }
  rewrite F1. unfold gread. cbn [g_data g_off].
  assert (F2 : read_loop (decompressing dict wl D skip fuel) cap (S (S n)) (GR d' (T ++ tail) (zlen T) false true false []) room2 (zlen (T ++ tail) - zlen T) false [] = RSpin); [|rewrite F2; reflexivity].
  rewrite zlen_app in *. replace (zlen T + zlen tail - zlen T) with (zlen tail) by lia.
  assert (U : zskip (zlen T) (T ++ tail) = tail) by (apply zskip_app_exact; reflexivity).
  rewrite <- (trailing_spins dict wl D skip ws WS W Tr Y N TRE AS fuel LE cap tail room2 BTL TN R2 (S (S n)) (GR d' (T ++ tail) (zlen T) true true false []) DI' eq_refl NT U ltac:(cbn [g_data g_off]; rewrite zlen_app; lia)).
  rewrite !read_loop_eq. cbn [negb orb g_eof]. change (zlen (@nil Z)) with 0. rewrite Z.sub_0_r, Z.eqb_refl. cbn [andb negb].
  unfold fetch. cbn [g_data g_eof g_src g_p g_off g_flushed g_err negb]. rewrite zlen_app. destruct (Z.ltb_spec (zlen T + zlen tail) cap); [|lia]. cbn [andb source_read]. change (zlen (@nil Z)) with 0. change (0 =? 0) with true. cbn beta iota. reflexivity.
Qed.

(** A read with an empty buffer makes the compressing reader hang if its source has
    something to deliver: the header cannot be written, nothing is consumed. *)
Theorem C38_empty_buffer_refuted : forall dict wl D g opt data src cap fuel n, data <> [] -> 1 <= cap ->
  gread (compressing dict wl D g fuel) cap n (greader_new (rawc_new D opt) (SData data :: src) true) 0 = RSpin.
Proof.
  intros dict wl D g opt data src cap fuel n DN CAP.
  assert (EN : forall i, encode_raw dict wl D g fuel (rawc_new D opt) i 0 = Some (0, [], rawc_new D opt, RNeedsMoreOutput)) by (intros i; unfold encode_raw; cbn; reflexivity).
  set (pr := compressing dict wl D g fuel).
  assert (ST : forall n, (forall r, g_p r = rawc_new D opt -> 0 < zlen (g_data r) - g_off r -> read_loop pr cap n r 0 (zlen (g_data r) - g_off r) false [] = RSpin) ->
    forall r, g_p r = rawc_new D opt -> 0 < zlen (g_data r) - g_off r -> after pr cap n r 0 (zlen (g_data r) - g_off r) false [] = RSpin).
  { intros m IH r EP AV. unfold after. destruct (Z.eqb_spec (zlen (g_data r) - g_off r) 0) as [Q|_]; [lia|]. cbn [process compressing pr]. rewrite EP, EN. cbn [bind enc_pres]. destruct (Z.ltb_spec (zlen (g_data r) - g_off r) 0); [lia|].
    change (0 - zlen (@nil Z) <? zlen (@nil Z)) with false. cbn [orb app]. rewrite Z.sub_0_r. destruct (Z.eqb_spec (zlen (g_data r) - g_off r) 0) as [Q|_]; [lia|]. cbn [andb].
    specialize (IH (GR (rawc_new D opt) (g_data r) (g_off r + 0) (g_eof r) (g_flushed r) (g_err r) (g_src r)) eq_refl). cbn [g_data g_off] in IH. rewrite Z.add_0_r in *. apply IH. exact AV. }
  assert (SPIN : forall n r, g_p r = rawc_new D opt -> 0 < zlen (g_data r) - g_off r -> read_loop pr cap n r 0 (zlen (g_data r) - g_off r) false [] = RSpin).
  { induction n0 as [|m IH]; intros r EP AV; [reflexivity|]. rewrite read_loop_eq. cbn [negb orb]. change (0 - zlen (@nil Z) =? 0) with true. cbn [andb negb].
    unfold fetch. destruct ((zlen (g_data r) <? cap) && negb (g_eof r)); [|apply ST; assumption]. destruct (source_read (g_src r) (cap - zlen (g_data r))) as [l s|s|s].
    - pose proof (zlen_nonneg l). destruct (Z.eqb_spec (zlen l) 0).
      + apply (ST m IH (GR (g_p r) (g_data r) (g_off r) true (g_flushed r) (g_err r) s)); assumption.
      + rewrite <- zlen_app. apply (ST m IH (GR (g_p r) (g_data r ++ l) (g_off r) (g_eof r) (g_flushed r) (g_err r) s)); [exact EP|]. cbn [g_data g_off]. rewrite zlen_app. lia.
    - apply (IH (GR (g_p r) (g_data r) (g_off r) (g_eof r) (g_flushed r) (g_err r) s)); assumption.
    - apply (ST m IH (GR (g_p r) (g_data r) (g_off r) true (g_flushed r) true s)); assumption. }
  unfold gread, greader_new. cbn [g_data g_off]. change (zlen (@nil Z) - 0) with 0. destruct n as [|n]; [reflexivity|]. rewrite read_loop_eq. cbn [negb orb]. change (0 - zlen (@nil Z) =? 0) with true. cbn [andb negb].
  assert (DP : 0 < zlen data) by (destruct data; [contradiction DN; reflexivity|unfold zlen; cbn [length]; lia]).
  unfold fetch. cbn [g_data g_eof g_src g_p g_off g_flushed g_err negb source_read]. change (zlen (@nil Z)) with 0. destruct (Z.ltb_spec 0 cap); [|lia]. cbn [andb]. rewrite Z.sub_0_r.
  assert (LD : zlen (zfirst cap data) = Z.min cap (zlen data)) by (rewrite zlen_first by lia; lia). destruct (Z.eqb_spec (zlen (zfirst cap data)) 0); [lia|]. cbn beta iota. cbn [app].
  apply (ST n (SPIN n) (GR (rawc_new D opt) (zfirst cap data) 0 false false false _)); [reflexivity|]. cbn [g_data g_off]. lia.
Qed.

(** An error of the source can swallow output: what the failed read had already put into
    the caller's buffer is gone, and the next read goes on after it. *)
Definition demo_file : list Z := Eval vm_compute in match session demo_dict demo_wl (DIMS 4 4 4) demo_cfg 200 (compressor_new (DIMS 4 4 4) (Some 3)) demo_batches (repeat 5 40) with Some (T, _) => T | None => [] end.
Definition demo_dec := decompressing demo_dict demo_wl (DIMS 4 4 4) false 1000.
Example C38_source_error_loses_output_refuted : let Y := meaning demo_dict (window 10) (concat demo_batches) in
  match gread demo_dec 4096 20 (greader_new decompressor_new [SData demo_file; SErr] false) 2 with
  | ROk y1 g1 => y1 = firstn 2 Y /\
      match gread demo_dec 4096 20 g1 3 with
      | RErr g2 => match gread demo_dec 4096 20 g2 3 with ROk y3 _ => y3 = firstn 3 (skipn 5 Y) /\ y3 <> firstn 3 (skipn 2 Y) | _ => False end
      | _ => False
      end
  | _ => False
  end.
Proof. vm_compute. repeat split. discriminate. Qed.

(** Flushing the decompressing writer does not report that the file is incomplete. *)
Theorem C39_truncation_refuted : forall dict wl D g ws cmds a b skip,
  big D -> cfg_ok g -> 10 <= ws <= 24 -> acceptable dict wl D g ws cmds -> streams_of dict wl D g ws cmds a b ->
  exists fuel0 n0, forall fuel n T bufs missing cap, (fuel0 <= fuel)%nat -> (n0 <= n)%nat ->
    is_file ws a b T -> concat bufs ++ missing = T -> missing <> [] -> 1 <= cap ->
  exists w, flushed (decompressing dict wl D skip fuel) cap n (writes (decompressing dict wl D skip fuel) cap n (gwriter_new decompressor_new (SK [] []) false) bufs) = (w, Fine).
Proof.
  intros dict wl D g ws cmds a b skip B G WS AC ST. destruct (file_starts dict wl D g ws cmds a b skip B G WS AC ST) as (N & H). exists N, (S (Z.to_nat (zlen (meaning dict (window ws) cmds)))).
  intros fuel n T bufs missing cap LE LN IF ET MN CAP. destruct (H T IF) as (W & Tr & TRE & AS & DI & BT).
  pose proof (dec_contract dict wl D skip ws WS W Tr _ N TRE AS fuel LE) as C.
  destruct (writes_spec _ cap CAP _ _ _ _ _ _ _ _ _ C true (fun _ => dec_self dict wl D skip ws WS W Tr _ N TRE AS fuel LE) missing n ltac:(lia) bufs (gwriter_new decompressor_new (SK [] []) false) []) as (w & h & E & K).
  - cbn [gwriter_new gw_p]. rewrite ET. split; assumption.
  - reflexivity.
  - rewrite E. destruct K as [(-> & o2 & (I & GT & FL & FA) & DN)|(-> & Q & _)]; [|contradiction Q; reflexivity]. cbn [flushed]. rewrite gflush_done by exact FL. eauto.
Qed.

(** Bytes written after the end of the file are accepted and dropped. *)
Theorem C39_trailing_bytes_refuted : forall dict wl D g ws cmds a b skip,
  big D -> cfg_ok g -> 10 <= ws <= 24 -> acceptable dict wl D g ws cmds -> streams_of dict wl D g ws cmds a b ->
  exists fuel0, forall fuel n T tail cap, (fuel0 <= fuel)%nat -> (1 <= n)%nat -> is_file ws a b T -> bytes tail -> zlen (meaning dict (window ws) cmds) < cap ->
  exists w, flushed (decompressing dict wl D skip fuel) cap n (writes (decompressing dict wl D skip fuel) cap n (gwriter_new decompressor_new (SK [] []) false) [T ++ tail]) = (w, Fine) /\
    k_got (gw_sink w) = meaning dict (window ws) cmds.
Proof.
  intros dict wl D g ws cmds a b skip B G WS AC ST. destruct (file_starts dict wl D g ws cmds a b skip B G WS AC ST) as (N & H). exists N.
  intros fuel n T tail cap LE LN IF BTL R. destruct (H T IF) as (W & Tr & TRE & AS & DI & BT). set (Y := meaning dict (window ws) cmds) in *.
  destruct (decode_whole dict wl D skip ws WS W Tr Y N TRE AS fuel LE T tail cap DI ltac:(apply Forall_app; auto) R) as (d' & ED & _). destruct n as [|n]; [lia|].
  pose proof (zlen_nonneg tail). cbn [writes]. unfold gwrite. cbn [write_loop gwriter_new gw_p process decompressing]. rewrite ED. cbn [bind dec_pres]. rewrite zlen_app. destruct (Z.ltb_spec (zlen T + zlen tail) (zlen T)); [lia|]. destruct (Z.ltb_spec cap (zlen Y)); [lia|]. cbn [orb gw_sink gw_flushed].
  assert (WA : write_all (SK [] []) Y = (SK Y [], true)) by (unfold write_all; destruct Y; reflexivity). cbn [gwriter_new gw_sink gw_flushed]. rewrite WA. cbn [negb]. rewrite Z.eqb_refl. cbn [flushed]. rewrite gflush_done by reflexivity. eexists. split; reflexivity.
Qed.

(** ** Cases *)
(** The hypotheses are those of C27 and C46; here is one read through both sizes of
    buffers, the source in three pieces with an interruption; and the file cut short. *)
Example C38_case :
  let src := [SData (firstn 20 demo_file); SIntr; SData (firstn 30 (skipn 20 demo_file)); SData (skipn 50 demo_file)] in
  Forall honest src /\ content src = demo_file /\ faulty src = false /\
  (exists c1 c2, reads demo_dec 7 100 (greader_new decompressor_new src false) (repeat 5 30) = (c1 ++ [] :: c2, Fine) /\ concat c1 = meaning demo_dict (window 10) (concat demo_batches)) /\
  (exists cs, reads demo_dec 7 100 (greader_new decompressor_new [SData (firstn 76 demo_file)] false) (repeat 5 30) = (cs, Failed)).
Proof.
  cbv zeta. split; [repeat (apply Forall_cons; [exact Logic.I|]); apply Forall_nil|]. split; [reflexivity|]. split; [reflexivity|]. split.
  - exists (map (fun i => firstn 5 (skipn (5 * i) (meaning demo_dict (window 10) (concat demo_batches)))) (seq 0 18)), (repeat [] 11). split; vm_compute; reflexivity.
  - eexists (map (fun i => firstn 5 (skipn (5 * i) (meaning demo_dict (window 10) (concat demo_batches)))) (seq 0 17)). vm_compute. reflexivity.
Qed.
Definition held_by {P} (t : @gwriter P * health) : list Z * health := let '(w, h) := t in (k_got (gw_sink w), h).
Example C39_case :
  held_by (writes demo_dec 3 100 (gwriter_new decompressor_new (SK [] []) false) [firstn 20 demo_file; []; skipn 20 demo_file]) = (meaning demo_dict (window 10) (concat demo_batches), Fine) /\
  held_by (writes demo_dec 3 100 (gwriter_new decompressor_new (SK [] [None; Some 1]) false) [firstn 20 demo_file; []; skipn 20 demo_file]) = (firstn 4 (meaning demo_dict (window 10) (concat demo_batches)), Failed).
Proof. split; vm_compute; reflexivity. Qed.
(** the compressing side, computed on the empty input with small tables *)
Definition small_comp := compressing demo_dict demo_wl (DIMS 64 4 4) demo_cfg 2000.
Example C39_empty_case : exists T, held_by (flushed small_comp 5 100 (writes small_comp 5 100 (gwriter_new (rawc_new (DIMS 64 4 4) (Some 10)) (SK [] []) true) [[]])) = (T, Fine) /\
  concat (fst (reads small_comp 4 100 (greader_new (rawc_new (DIMS 64 4 4) (Some 10)) [] true) (repeat 4 30))) = T /\ 28 < zlen T.
Proof. eexists. split; [vm_compute; reflexivity|]. split; vm_compute; reflexivity. Qed.
Print Assumptions C38_decompressing_reader.
Print Assumptions C38_compressing_reader.
Print Assumptions C38_reader_roundtrip.
Print Assumptions C38_trailing_bytes_refuted.
Print Assumptions C38_empty_buffer_refuted.
Print Assumptions C39_compressing_writer.
Print Assumptions C39_decompressing_writer.
Print Assumptions C39_truncation_refuted.
Print Assumptions C39_trailing_bytes_refuted.
