(** C62: the command line tool with its default settings. *)
From Verif Require Import Prelude ProofList ModelAns SpecAns ProofAnsRt ModelCdf SpecCdf ModelMux SpecMux ProofZlist ProofMux ProofMuxW ProofMuxR ModelCmd ModelCrc SpecCrc ProofCrc ModelHeader SpecHeader ProofHeader ThmHeader ModelRecode SpecLz ModelPriors ModelCodec ModelLit ModelPm ModelTop SpecCodec SpecReplay ProofCodecInv ProofCodecInv2 ProofRun ProofCopy ProofTop ThmCodec ModelEnc SpecEnc SpecFile ProofEnc ProofEnc2 ProofEnc3 ProofEnc4 ProofSim ThmEnc ModelDec SpecDec ThmDec ModelRaw ModelRawEnc SpecRawEnc ThmRawEnc ModelIo SpecIo ModelHybrid SpecHybrid ProofHybrid ProofHybrid2 ThmHybrid ModelTool SpecTool ProofTool ThmTool ModelToolHybrid ProofHybrid3.

Local Opaque codec_flush codec_encode.
Section Default.
Context (dict : dict_fn) (wl : word_len_fn) (g : cfg) (opt : option Z) {B : Type} (fe : frontend B) (optimize : metablock -> option metablock) (b0 : B).
Local Notation ws := (choose_window opt).
Lemma default_comp : cfg_ok g -> good_frontend dict wl real_dims g ws fe optimize b0 -> hungry fe optimize b0 ->
  forall extra src bs, Forall honest src -> Forall (at_most (real_size bs)) src -> bytes (extra ++ heard [] src) -> 0 <= bs ->
  exists cmds a b b' x fuel0 m0 n0, reaches fe optimize b0 b' x cmds /\ streams_of dict wl real_dims g ws cmds a b /\ (faulty src = false -> x = extra ++ heard [] src /\ b_finished fe b' = true) /\
    forall fuel m n evs, (fuel0 <= fuel)%nat -> (m0 <= m)%nat -> (n0 <= n)%nat ->
    exists f e, compress_raw_inner (hybrid_processor dict wl real_dims g fe optimize m fuel) (real_size bs) n (hybrid_new real_dims b0 opt) extra src (OF [] evs) = (f, e) /\
      (e = TDone /\ is_file ws a b (f_got f) /\ faulty src = false \/ e = TError /\ (~ writable_file evs \/ faulty src = true)).
Proof.
  intros G GF HG extra src bs HO AM BX BS. pose proof (proj1 C20_case) as BG. pose proof (choose_window_range opt) as WR. set (w := ws) in *. pose proof (real_size_pos bs BS) as RS.
  assert (EH : (if zlen extra =? 0 then extra else []) = []) by (destruct extra; reflexivity).
  destruct (hcloop_spec dict wl real_dims g w fe optimize b0 GF (real_size bs) HG RS (S (turns (real_size bs) extra 0 src)) extra extra 0 src b0 [] [] 0 0) as (cmds & nE & T & b' & x & R & XI & K); auto.
  { pose proof (zlen_nonneg extra). lia. }
  { apply reaches_start. }
  { exact (gf_new _ _ _ _ _ _ _ _ GF). }
  { split; [lia|left; lia]. }
  { rewrite EH. exact BX. }
  cbn [app] in R, XI. change (zskip 0 extra) with extra in XI. rewrite EH in XI.
  pose proof (gf_says _ _ _ _ _ _ _ _ GF _ _ _ R) as AC. destruct (C28_streams_exist dict wl real_dims g w cmds BG G AC) as (a & b & ST & _). pose proof ST as (fuel0 & c & es & E & W & EA & EB).
  destruct (enc_ring dict w (window w) wl real_dims g fuel0 cmds c _ es ltac:(lia) (window_len w ltac:(lia)) E) as (c' & E').
  destruct (header_bytes w (choose_window_byte opt)) as (BH & HL). pose proof (BA es a W EA) as BA. pose proof (ProofEnc4.BB es b W EB) as BB.
  exists cmds, a, b, b', x, fuel0, (Nat.max nE (S (Z.to_nat (bound a b + 16)))), (S (S (T + Z.to_nat (bound a b + 16)))). split; [exact R|]. split; [exact ST|]. split; [exact XI|].
  intros fuel m n evs LF LM LN. unfold compress_raw_inner.
  assert (Q : cpost (complete a b (make_header w)) (OF [] evs) src (cloop (hybrid_processor dict wl real_dims g fe optimize m fuel) (real_size bs) n (hybrid_new real_dims b0 opt) extra extra 0 src [] (OF [] evs))).
  { apply (K es a b (make_header w) fuel0 fuel m ltac:(repeat split; assumption || lia) ltac:(lia) n (compressor_new real_dims opt) [] 0 (OF [] evs)); [|reflexivity|split; [change (zlen (@nil Z)) with 0; lia|left; split; reflexivity]|reflexivity|lia].
    split; [|reflexivity]. exists []. cbn [compressor_new cm_hdr cm_codec cm_ws firstn app ecodec_new ec_phase]. fold w. split; [reflexivity|]. split; [lia|]. split; [split; reflexivity|]. split; [reflexivity|]. split; [|split; [|constructor]].
    + unfold phinv. cbn [ec_phase ec_parts ec_codec]. exists [], es. split; [reflexivity|]. split; [apply einv_new|]. split; [|reflexivity]. eexists _, _. exact E'.
    + unfold crcok. cbn [ec_phase ec_frozen ec_crc]. split; reflexivity. }
  destruct (cloop _ _ _ _ _ _ _ _ _ _) as (f, e). exists f, e. split; [reflexivity|]. destruct Q as [(Q1 & Q2 & Q3)|(Q1 & Q2)]; cbn [fst snd f_evs] in *; [left|right].
  - split; [exact Q1|]. split; [|exact Q3]. destruct Q2 as (X & FR & EX). exists X. split; [apply framed_framing, FR|]. split; [apply framed_carries; assumption|]. rewrite EX.
    assert (BX2 : bytes X). { destruct FR as (fs & GG & -> & P0 & P1). apply bytes_app; [apply enc_bytes; [exact GG|rewrite P0; exact BA|rewrite P1; exact BB]|]. repeat constructor; unfold byte; lia. }
    rewrite checksum_bytes_trailer, crc0_spec by (apply bytes_app; assumption). reflexivity.
  - split; [exact Q1|]. destruct Q2 as [Q2|Q2]; [left; intros NW; exact (NW Q2)|right; exact Q2].
Qed.
(** the same with the direction given or found *)
Lemma default_tool : cfg_ok g -> good_frontend dict wl real_dims g ws fe optimize b0 -> hungry fe optimize b0 ->
  forall force src bs, Forall honest src -> Forall (at_most (real_size bs)) src -> undisturbed src -> bytes (content src) -> 0 <= bs -> (force = true \/ ~ looks_compressed (content src)) ->
  exists cmds a b b' x fuel0 m0 n0, reaches fe optimize b0 b' x cmds /\ streams_of dict wl real_dims g ws cmds a b /\ (faulty src = false -> x = content src /\ b_finished fe b' = true) /\
    forall fuel m n evs, (fuel0 <= fuel)%nat -> (m0 <= m)%nat -> (n0 <= n)%nat ->
    exists f e, tool_compress_default dict wl real_dims g opt fe optimize b0 m fuel n bs force src (OF [] evs) = (f, e) /\
      (e = TDone /\ is_file ws a b (f_got f) /\ faulty src = false \/ e = TError /\ (~ writable_file evs \/ faulty src = true)).
Proof.
  intros G GF HG force src bs HO AM U BX BS D0. destruct force.
  - destruct (default_comp G GF HG [] src bs HO AM) as (cmds & a & b & b' & x & f0 & m0 & n0 & R & ST & XI & K); [rewrite heard_undisturbed by exact U; exact BX|exact BS|].
    rewrite heard_undisturbed in XI by exact U. exists cmds, a, b, b', x, f0, m0, n0. split; [exact R|]. split; [exact ST|]. split; [exact XI|exact K].
  - destruct D0 as [D0|NL]; [discriminate D0|]. destruct (sniff [] src) as [(h, src2)|] eqn:SN.
    + destruct (sniff_spec src [] h src2 HO ltac:(change (zlen (@nil Z)) with 0; lia) SN) as (E1 & E2 & E3 & E4 & E5 & E6 & _ & _). cbn [app] in E1.
      assert (ND : is_divans h = false). { destruct (is_divans h) eqn:Q; [|reflexivity]. exfalso. apply NL. apply (proj1 (is_divans_ok (content src) h (content src2) E1 ltac:(destruct E4 as [E4| ->]; auto))). exact Q. }
      destruct (default_comp G GF HG h src2 bs E2 (E6 _ AM)) as (cmds & a & b & b' & x & f0 & m0 & n0 & R & ST & XI & K); [rewrite heard_undisturbed by exact (E5 U); rewrite E1; exact BX|exact BS|].
      rewrite heard_undisturbed, E1, E3 in XI by exact (E5 U). exists cmds, a, b, b', x, f0, m0, n0. split; [exact R|]. split; [exact ST|]. split; [exact XI|]. intros fuel m n evs LF LM LN. unfold tool_compress_default. rewrite SN, ND, <- E3. exact (K fuel m n evs LF LM LN).
    + pose proof (sniff_none _ _ SN) as FA. pose proof (proj1 C20_case) as BG. pose proof (reaches_start fe optimize b0) as R. destruct (C28_streams_exist dict wl real_dims g ws [] BG G (gf_says _ _ _ _ _ _ _ _ GF _ _ _ R)) as (a & b & ST & _).
      exists [], a, b, b0, [], O, O, O. split; [exact R|]. split; [exact ST|]. split; [congruence|]. intros fuel m n evs _ _ _. unfold tool_compress_default. rewrite SN. exists (OF [] evs), TError. auto.
Qed.

(** C62, compressing.  The tool with its default settings, told to compress or given
    data that does not start with the magic number, on a source whose reads are not
    interrupted: for every way the data is cut into reads and the writes are taken, the
    tool ends; on success the output is a complete file for commands that stand for
    exactly the data; it reports an error only if a read or write failed.  The amount of
    data is not limited. *)
Theorem C62_default_compress : cfg_ok g -> good_frontend dict wl real_dims g ws fe optimize b0 -> faithful dict ws fe optimize b0 -> hungry fe optimize b0 ->
  forall force src bs, Forall honest src -> Forall (at_most (real_size bs)) src -> undisturbed src -> bytes (content src) -> 0 <= bs -> (force = true \/ ~ looks_compressed (content src)) ->
  exists fuel0 m0 n0, forall fuel m n evs, (fuel0 <= fuel)%nat -> (m0 <= m)%nat -> (n0 <= n)%nat ->
  exists f e, tool_compress_default dict wl real_dims g opt fe optimize b0 m fuel n bs force src (OF [] evs) = (f, e) /\
    (e = TDone /\ faulty src = false /\ (exists cmds a b, acceptable dict wl real_dims g ws cmds /\ meaning dict (window ws) cmds = content src /\
       streams_of dict wl real_dims g ws cmds a b /\ is_file ws a b (f_got f)) \/
     e = TError /\ (~ writable_file evs \/ faulty src = true)).
Proof.
  intros G GF FF HG force src bs HO AM U BX BS D0. destruct (default_tool G GF HG force src bs HO AM U BX BS D0) as (cmds & a & b & b' & x & f0 & m0 & n0 & R & ST & XI & K).
  exists f0, m0, n0. intros fuel m n evs LF LM LN. destruct (K fuel m n evs LF LM LN) as (f & e & E & [(-> & IF & FA)|Q]); exists f; eexists; (split; [exact E|]); [left|right; exact Q].
  split; [reflexivity|]. split; [exact FA|]. destruct (XI FA) as (-> & F'). exists cmds, a, b. split; [exact (gf_says _ _ _ _ _ _ _ _ GF _ _ _ R)|]. split; [exact (FF _ _ _ R F')|]. auto.
Qed.
(** C62, the round trip.  Data compressed by the tool with its default settings, and the
    output given to the tool with its default settings (another configuration, even
    another encoder), no direction given: the data comes back. *)
Theorem C62_default_round_trip : cfg_ok g -> good_frontend dict wl real_dims g ws fe optimize b0 -> faithful dict ws fe optimize b0 -> hungry fe optimize b0 ->
  forall force src bs, Forall honest src -> Forall (at_most (real_size bs)) src -> undisturbed src -> bytes (content src) -> faulty src = false -> 0 <= bs -> (force = true \/ ~ looks_compressed (content src)) ->
  exists fuel0 m0 n0, forall fuel m n evs, (fuel0 <= fuel)%nat -> (m0 <= m)%nat -> (n0 <= n)%nat -> writable_file evs ->
  exists f, tool_compress_default dict wl real_dims g opt fe optimize b0 m fuel n bs force src (OF [] evs) = (f, TDone) /\
  forall g2 opt2 B2 (fe2 : frontend B2) optimize2 b02 m2 src2 bs2 evs2, Forall honest src2 -> content src2 = f_got f -> faulty src2 = false -> 0 <= bs2 -> writable_file evs2 ->
  exists n2, forall n, (n2 <= n)%nat ->
  exists f2, tool_compress_default dict wl real_dims g2 opt2 fe2 optimize2 b02 m2 fuel n bs2 false src2 (OF [] evs2) = (f2, TDone) /\ f_got f2 = content src.
Proof.
  intros G GF FF HG force src bs HO AM U BX FA BS D0. destruct (default_tool G GF HG force src bs HO AM U BX BS D0) as (cmds & a & b & b' & x & f0 & m0 & n0 & R & ST & XI & K). destruct (XI FA) as (-> & F').
  pose proof (gf_says _ _ _ _ _ _ _ _ GF _ _ _ R) as AC. destruct (C57_file_is_decompressed dict wl g ws cmds a b G (choose_window_range opt) AC ST) as (N & HN). rewrite (FF _ _ _ R F') in HN.
  exists (Nat.max f0 N), m0, n0. intros fuel m n evs LF LM LN WF. destruct (K fuel m n evs ltac:(lia) LM LN) as (f & e & E & [(-> & IF & _)|(_ & [Q|Q])]); [|contradiction|congruence]. exists f. split; [exact E|].
  intros g2 opt2 B2 fe2 optimize2 b02 m2 src2 bs2 evs2 HO2 ET2 FA2 BS2 WF2. destruct (HN g2 opt2 fuel (f_got f) [] src2 bs2 evs2 ltac:(lia) IF ltac:(constructor) HO2 ltac:(rewrite app_nil_r; exact ET2) BS2) as (n2 & H2).
  exists n2. intros n' LN'. destruct (H2 n' LN') as (f2 & e2 & E2 & [(-> & K2)|(_ & _ & [Q|Q])]); [|contradiction|congruence]. exists f2. split; [|exact K2]. rewrite <- E2. unfold tool_compress, tool_compress_default.
  assert (LC : looks_compressed (content src2)) by (destruct IF as (W & _ & _ & TE); rewrite ET2, TE; unfold make_header, MAGIC_NUMBER; cbn [app]; eexists; reflexivity).
  destruct (sniff [] src2) as [(h, s)|] eqn:SN; [|reflexivity]. destruct (sniff_spec src2 [] h s HO2 ltac:(change (zlen (@nil Z)) with 0; lia) SN) as (E1 & _ & _ & E4 & _). cbn [app] in E1.
  rewrite (proj2 (is_divans_ok (content src2) h (content s) E1 ltac:(destruct E4 as [E4| ->]; auto)) LC). reflexivity.
Qed.
End Default.

(** The hypotheses are met: [store], which hands over all it took in the last call. *)
Lemma eager_hungry B (fe : frontend B) optimize b0 : eager fe -> hungry fe optimize b0.
Proof. intros E b x cmds input _ _ NE _. exists 1%nat. cbn [takes]. intros room k w ms b' _ ST. left. exact (E _ _ _ _ _ _ _ NE ST). Qed.
Example C62_case : forall dict wl, exists fuel m n f fuel2 n2 f2,
  tool_compress_default dict wl real_dims demo_cfg None store Some ([], false) m fuel n 0 false [SData (repeat 65 1500); SData (repeat 66 300)] (OF [] [WTake 3; WIntr; WTake 7]) = (f, TDone) /\
  tool_compress_default dict wl real_dims demo_cfg None store Some ([], false) m fuel2 n2 0 false [SData (f_got f)] (OF [] [WIntr; WTake 7]) = (f2, TDone) /\ f_got f2 = repeat 65 1500 ++ repeat 66 300.
Proof.
  intros dict wl. assert (G : cfg_ok demo_cfg) by apply C20_case. set (src := [SData (repeat 65 1500); SData (repeat 66 300)]).
  assert (CE : content src = repeat 65 1500 ++ repeat 66 300) by (cbn [src content]; rewrite app_nil_r; reflexivity).
  assert (NL : ~ looks_compressed (content src)) by (intros (rest & Q); rewrite CE in Q; discriminate Q).
  assert (BX : bytes (content src)). { rewrite CE. apply Forall_forall. intros z Q. apply in_app_or in Q. destruct Q as [Q|Q]; apply repeat_spec in Q; subst z; unfold byte; clear; lia. }
  assert (HO : Forall honest src) by (repeat (constructor; [exact Logic.I|]); constructor).
  assert (AM : Forall (at_most (real_size 0)) src) by (repeat (constructor; [unfold at_most, zlen; rewrite repeat_length; vm_compute; discriminate|]); constructor).
  assert (U : undisturbed src) by (intros [Q|[Q|[]]]; discriminate Q).
  pose proof (store_good dict wl demo_cfg 22 G) as SG. pose proof (eager_hungry _ _ Some ([], false) store_eager) as SH.
  destruct (C62_default_round_trip dict wl demo_cfg None store Some ([], false) G SG (store_faithful dict 22) SH false src 0 HO AM U BX eq_refl (Z.le_refl 0) (or_intror NL)) as (fuel & m & n & K).
  destruct (C62_default_compress dict wl demo_cfg None store Some ([], false) G SG (store_faithful dict 22) SH false src 0 HO AM U BX (Z.le_refl 0) (or_intror NL)) as (fuel' & m' & n' & K').
  set (evs := [WTake 3; WIntr; WTake 7]). assert (WF : writable_file evs) by (intros [Q|[Q|[Q|[]]]]; discriminate Q).
  destruct (K (max fuel fuel') (max m m') (max n n') evs ltac:(clear; lia) ltac:(clear; lia) ltac:(clear; lia) WF) as (f & E & K2).
  destruct (K' (max fuel fuel') (max m m') (max n n') evs ltac:(clear; lia) ltac:(clear; lia) ltac:(clear; lia)) as (f' & e' & E' & [(_ & _ & cmds & a & b & _ & _ & _ & IF)|(QE & _)]); [|congruence].
  assert (f' = f) by congruence. subst f'.
  assert (H2 : honest (SData (f_got f))). { cbn [honest]. destruct IF as (X & _ & _ & ->). exact Logic.I. }
  destruct (K2 demo_cfg None _ store Some ([], false) (max m m') [SData (f_got f)] 0 [WIntr; WTake 7]) as (n2 & K3).
  { constructor; [exact H2|constructor]. }
  { cbn [content]. apply app_nil_r. }
  { reflexivity. }
  { apply Z.le_refl. }
  { intros [Q|[Q|[]]]; discriminate Q. }
  destruct (K3 n2 ltac:(clear; lia)) as (f2 & E2 & G2). exists (max fuel fuel'), (max m m'), (max n n'), f, (max fuel fuel'), n2, f2. rewrite <- CE. auto.
Qed.
Print Assumptions C62_default_compress.
Print Assumptions C62_default_round_trip.
