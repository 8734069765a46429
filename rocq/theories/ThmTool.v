(** C55, C56, C57: the command line tool. *)
From Verif Require Import Prelude ProofList ModelAns SpecAns ProofAnsRt ModelCdf SpecCdf ModelMux SpecMux ProofZlist ProofMux ProofMuxW ProofMuxR ModelCmd ModelCrc SpecCrc ProofCrc ModelHeader SpecHeader ProofHeader ThmHeader ModelRecode SpecLz ModelPriors ModelCodec ModelLit ModelPm ModelTop SpecCodec SpecReplay ProofCodecInv ProofCodecInv2 ProofRun ProofCopy ProofTop ThmCodec ModelEnc SpecEnc SpecFile ProofEnc ProofEnc2 ProofEnc3 ProofEnc4 ProofSim ThmEnc ModelDec SpecDec ProofDec6 ProofDec7 ThmDec ModelRaw ModelRawEnc SpecRawEnc ProofRecode ThmRaw ProofRawEnc ProofRawEnc2 ThmRawEnc ModelIo SpecIo ProofIo ProofIo2 ThmIo ModelTool SpecTool ProofTool.
From Verif Require SpecCheck ProofCheck ThmCheck.

Lemma real_size_pos bs : 0 <= bs -> 1 <= real_size bs.
Proof. unfold real_size. destruct (Z.eqb_spec bs 0); lia. Qed.

(** ** C55: decompressing *)
Lemma tool_dec dict wl D g ws cmds a b skip :
  big D -> cfg_ok g -> 10 <= ws <= 24 -> acceptable dict wl D g ws cmds -> streams_of dict wl D g ws cmds a b ->
  exists fuel0, forall fuel T tail missing extra src bs evs n, (fuel0 <= fuel)%nat ->
    is_file ws a b T -> bytes (extra ++ content src) -> Forall honest src -> extra ++ content src ++ missing = T ++ tail -> 0 <= bs ->
    (weight src + Z.to_nat (zlen (meaning dict (window ws) cmds)) < n)%nat ->
  dpost (meaning dict (window ws) cmds) tail missing (OF [] evs) src (tool_decompress dict wl D fuel n bs skip extra src (OF [] evs)).
Proof.
  intros B G WS AC ST. destruct (file_starts dict wl D g ws cmds a b skip B G WS AC ST) as (N & H). exists N. set (out := meaning dict (window ws) cmds) in *.
  intros fuel T tail missing extra src bs evs n LE IF BT HO ET BS LN. destruct (H T IF) as (W & Tr & TRE & AS & DI & _). pose proof (real_size_pos bs BS) as RS.
  unfold tool_decompress, decompress_generic.
  apply (dloop_spec (decompressing dict wl D skip fuel) (real_size bs) (Z.max (real_size bs) (zlen extra)) RS ltac:(lia) (dinv dict wl D skip ws W Tr out N) out tail missing) with (x := T).
  - intros p x o i f room I EI BI R. destruct (decode_good dict wl D skip ws WS W Tr out N TRE AS fuel p x o i f tail room I BI EI R LE) as (pre & suf & o2 & d' & r & x' & E & E1 & E2 & LO & I' & K).
    exists pre, suf, o2, d', (dec_pres r), x'. cbn [process decompressing]. rewrite E. cbn [bind]. split; [reflexivity|]. split; [exact E1|]. split; [exact E2|]. split; [exact LO|]. split; [exact I'|]. destruct r; cbn [dec_pres]; tauto.
  - intros p x o I. exact (dinv_prefix _ _ _ _ _ _ _ _ _ _ _ _ I).
  - exact DI.
  - change (zskip 0 extra) with extra. exact ET.
  - change (zskip 0 extra) with extra. exact BT.
  - pose proof (zlen_nonneg extra). lia.
  - lia.
  - change (zlen (@nil Z)) with 0. lia.
  - exact HO.
  - cbn [f_got]. change (zlen (@nil Z)) with 0. rewrite Z.sub_0_r. exact LN.
Qed.

(** C55.  The tool decompressing (serially) a complete file for [cmds], with anything
    after it: for every way the input is cut into reads, every way the writes are taken,
    and every interruption, the tool ends; if it reports success the output is the
    original bytes; it reports an error only if a read or write failed, and then the
    output is a beginning of the original bytes. *)
Theorem C55_decompress_tool : forall dict wl D g ws cmds a b skip,
  big D -> cfg_ok g -> 10 <= ws <= 24 -> acceptable dict wl D g ws cmds -> streams_of dict wl D g ws cmds a b ->
  exists fuel0, forall fuel T tail src bs evs, (fuel0 <= fuel)%nat ->
    is_file ws a b T -> bytes tail -> Forall honest src -> content src = T ++ tail -> 0 <= bs ->
  exists n0, forall n, (n0 <= n)%nat ->
  exists f e, tool_decompress dict wl D fuel n bs skip [] src (OF [] evs) = (f, e) /\
    (e = TDone /\ f_got f = meaning dict (window ws) cmds \/
     e = TError /\ (exists more, meaning dict (window ws) cmds = f_got f ++ more) /\ (~ writable_file evs \/ faulty src = true)).
Proof.
  intros dict wl D g ws cmds a b skip B G WS AC ST. destruct (tool_dec dict wl D g ws cmds a b skip B G WS AC ST) as (N & H). exists N.
  intros fuel T tail src bs evs LE IF BT HO ET BS. exists (S (weight src + Z.to_nat (zlen (meaning dict (window ws) cmds)))). intros n LN.
  destruct (file_starts dict wl D g ws cmds a b skip B G WS AC ST) as (N1 & HF). destruct (HF T IF) as (_ & _ & _ & _ & _ & BTT).
  pose proof (H fuel T tail [] [] src bs evs n LE IF) as Q. cbn [app] in Q. rewrite app_nil_r in Q. specialize (Q ltac:(rewrite ET; apply Forall_app; auto) HO ET BS ltac:(lia)).
  destruct (tool_decompress _ _ _ _ _ _ _ _ _ _) as (f, e). exists f, e. split; [reflexivity|]. destruct Q as [(Q1 & Q2 & _)|(Q1 & Q2 & Q3)]; cbn [fst snd] in *; [left; auto|right]. split; [exact Q1|]. split; [exact Q2|].
  destruct Q3 as [Q3|[Q3|Q3]]; [left; intros NW; exact (NW Q3)|right; exact Q3|]. change (zlen (@nil Z)) with 0 in Q3. pose proof (zlen_nonneg tail). lia.
Qed.

(** C55, a file cut short: an error, always, and the output is a beginning of the
    original bytes. *)
Theorem C55_truncated : forall dict wl D g ws cmds a b skip,
  big D -> cfg_ok g -> 10 <= ws <= 24 -> acceptable dict wl D g ws cmds -> streams_of dict wl D g ws cmds a b ->
  exists fuel0, forall fuel T missing src bs evs, (fuel0 <= fuel)%nat ->
    is_file ws a b T -> Forall honest src -> content src ++ missing = T -> missing <> [] -> 0 <= bs ->
  exists n0, forall n, (n0 <= n)%nat ->
  exists f, tool_decompress dict wl D fuel n bs skip [] src (OF [] evs) = (f, TError) /\ exists more, meaning dict (window ws) cmds = f_got f ++ more.
Proof.
  intros dict wl D g ws cmds a b skip B G WS AC ST. destruct (tool_dec dict wl D g ws cmds a b skip B G WS AC ST) as (N & H). exists N.
  intros fuel T missing src bs evs LE IF HO ET MN BS. exists (S (weight src + Z.to_nat (zlen (meaning dict (window ws) cmds)))). intros n LN.
  destruct (file_starts dict wl D g ws cmds a b skip B G WS AC ST) as (N1 & HF). destruct (HF T IF) as (_ & _ & _ & _ & _ & BTT).
  pose proof (H fuel T [] missing [] src bs evs n LE IF) as Q. cbn [app] in Q. rewrite app_nil_r in Q. specialize (Q ltac:(rewrite <- ET in BTT; apply Forall_app in BTT; apply BTT) HO ET BS ltac:(lia)).
  destruct (tool_decompress _ _ _ _ _ _ _ _ _ _) as (f, e). exists f. destruct Q as [(_ & _ & Q3)|(Q1 & Q2 & _)]; cbn [fst snd] in *.
  - change (zlen (@nil Z)) with 0 in Q3. destruct missing; [contradiction MN; reflexivity|]. rewrite zlen_cons in Q3. pose proof (zlen_nonneg missing). lia.
  - subst e. split; [reflexivity|exact Q2].
Qed.

(** ** Input of any origin *)
Section Any.
Import SpecCheck ProofCheck.
Context (dict : dict_fn) (wl : word_len_fn) (D : dims) (skip : bool) (fuel : nat) (bsize cap : Z).
Lemma any_loop : forall n p data off src pend f f' X rest piece,
  ProofCheck.dinv skip X p -> rest ++ piece = zskip off data -> 0 <= off <= zlen data -> zlen pend <= bsize -> bytes rest -> bytes (piece ++ content src) -> Forall honest src -> zlen data <= cap ->
  dloop (decompressing dict wl D skip fuel) bsize cap n p data off src pend f = (f', TDone) ->
  exists room calls left, offered ((piece, room) :: calls) ++ left = piece ++ content src /\ Forall (fun c => bytes (fst c) /\ 0 <= snd c) ((piece, room) :: calls) /\
    let t := any_session dict wl D skip fuel p rest ((piece, room) :: calls) in
    (exists c, In c t /\ c_res c = DSuccess) /\ f_got f' = f_got f ++ pend ++ concat (map c_out t).
Proof.
  induction n as [|n IH]; intros p data off src pend f f' X rest piece I RP OF PB BR BP HO DC; cbn [dloop]; [discriminate|].
  pose proof BP as BP0. apply Forall_app in BP. destruct BP as (BPI & BPC). assert (BI : bytes (zskip off data)) by (rewrite <- RP; apply Forall_app; auto).
  cbn [process decompressing]. destruct (decode dict wl D skip fuel p (zskip off data) (bsize - zlen pend)) as [(((m, o), p'), r)|] eqn:E; cbn [bind]; [|discriminate].
  assert (RM0 : 0 <= bsize - zlen pend) by lia. destruct (decode_any dict wl D skip fuel X p _ _ _ _ _ _ I BI RM0 E) as (RN & LO & ID & _).
  assert (ZU : zlen (zskip off data) = zlen data - off) by (rewrite zlen_skip by lia; lia).
  destruct ((zlen data - off <? m) || (bsize - zlen pend <? zlen o)); [discriminate|].
  assert (SK : zskip m (rest ++ piece) = zskip (off + m) data) by (rewrite RP, zskip_zskip by lia; reflexivity).
  assert (SES : forall calls, any_session dict wl D skip fuel p rest ((piece, bsize - zlen pend) :: calls) =
     Call (rest ++ piece) (bsize - zlen pend) m o r :: match r with DSuccess | DFail => [] | _ => any_session dict wl D skip fuel p' (zskip (off + m) data) calls end).
  { intros calls. cbn [any_session]. rewrite RP, E. rewrite <- RP, SK. reflexivity. }
  (* joining this call and the calls of the rest *)
  assert (JOIN : forall f1 pend1 piece1 src1, r = DNeedIn \/ r = DNeedOut -> f_got f1 ++ pend1 = f_got f ++ pend ++ o -> piece ++ content src = piece ++ piece1 ++ content src1 ->
    (exists room calls left, offered ((piece1, room) :: calls) ++ left = piece1 ++ content src1 /\ Forall (fun c => bytes (fst c) /\ 0 <= snd c) ((piece1, room) :: calls) /\
      let t := any_session dict wl D skip fuel p' (zskip (off + m) data) ((piece1, room) :: calls) in (exists c, In c t /\ c_res c = DSuccess) /\ f_got f' = f_got f1 ++ pend1 ++ concat (map c_out t)) ->
    exists room calls left, offered ((piece, room) :: calls) ++ left = piece ++ content src /\ Forall (fun c => bytes (fst c) /\ 0 <= snd c) ((piece, room) :: calls) /\
      let t := any_session dict wl D skip fuel p rest ((piece, room) :: calls) in (exists c, In c t /\ c_res c = DSuccess) /\ f_got f' = f_got f ++ pend ++ concat (map c_out t)).
  { intros f1 pend1 piece1 src1 HR GE PE (room & calls & left & E1 & E2 & (c & C1 & C2) & E4). exists (bsize - zlen pend), ((piece1, room) :: calls), left.
    split; [rewrite PE, <- E1; unfold offered; cbn [map concat fst]; rewrite <- !app_assoc; reflexivity|]. split; [apply Forall_cons; [cbn [fst snd]; split; [exact BPI|lia]|exact E2]|].
    cbv zeta. rewrite SES. assert (M : match r with DSuccess | DFail => [] | _ => any_session dict wl D skip fuel p' (zskip (off + m) data) ((piece1, room) :: calls) end = any_session dict wl D skip fuel p' (zskip (off + m) data) ((piece1, room) :: calls)) by (destruct HR; subst r; reflexivity).
    rewrite M. set (t := any_session dict wl D skip fuel p' (zskip (off + m) data) ((piece1, room) :: calls)) in *. split; [exists c; split; [right; exact C1|exact C2]|].
    cbn [map concat c_out]. rewrite E4, app_assoc, GE, <- !app_assoc. reflexivity. }
  destruct r; cbn [dec_pres].
  - destruct (put f (pend ++ o)) as (f1, ok) eqn:PU. destruct (put_spec _ _ _ _ PU) as (_ & U1 & _). destruct ok; [|discriminate]. intros Q. injection Q as <-. exists (bsize - zlen pend), [], (content src).
    split; [unfold offered; cbn [map concat fst]; rewrite app_nil_r; reflexivity|]. split; [apply Forall_cons; [cbn [fst snd]; split; [exact BPI|lia]|apply Forall_nil]|]. cbv zeta. rewrite SES. split; [eexists; split; [left; reflexivity|reflexivity]|].
    cbn [map concat c_out]. rewrite (U1 eq_refl), app_nil_r. reflexivity.
  - destruct (Z.eqb_spec (off + m) (zlen data)) as [QE|QE].
    + change (zlen (@nil Z)) with 0. destruct (Z.eqb_spec 0 cap) as [QC|QC].
      * intros G. apply (JOIN f (pend ++ o) [] src); [auto|reflexivity|reflexivity|]. apply (IH p' [] 0 src (pend ++ o) f f' _ (zskip (off + m) data) [] (ID ltac:(discriminate))); try assumption.
        -- rewrite app_nil_r, zskip_all by lia. reflexivity.
        -- change (zlen (@nil Z)) with 0. lia.
        -- rewrite zlen_app. lia.
        -- rewrite zskip_all by lia. constructor.
        -- change (zlen (@nil Z)) with 0. lia.
      * rewrite Z.sub_0_r. assert (CP : 1 <= cap) by (pose proof (zlen_nonneg data); lia). pose proof (read_more_spec src cap HO CP) as RM. destruct (read_more src cap) as [([|y t], src')|]; [discriminate| |discriminate].
        destruct RM as (CE & _ & HO' & _ & LL). cbn [app]. intros G. apply (JOIN f (pend ++ o) (y :: t) src'); [auto|reflexivity|rewrite CE; reflexivity|].
        apply (IH p' (y :: t) 0 src' (pend ++ o) f f' _ (zskip (off + m) data) (y :: t) (ID ltac:(discriminate))); try assumption.
        -- rewrite zskip_all by lia. reflexivity.
        -- pose proof (zlen_nonneg (y :: t)). lia.
        -- rewrite zlen_app. lia.
        -- rewrite zskip_all by lia. constructor.
        -- rewrite <- CE. exact BPC.
    + destruct (Z.eqb_spec (zlen data) cap) as [QC|QC].
      * intros G. apply (JOIN f (pend ++ o) [] src); [auto|reflexivity|reflexivity|]. apply (IH p' data (off + m) src (pend ++ o) f f' _ (zskip (off + m) data) [] (ID ltac:(discriminate))); try assumption.
        -- apply app_nil_r.
        -- lia.
        -- rewrite zlen_app. lia.
        -- rewrite <- zskip_zskip by lia. apply bytes_zskip. exact BI.
      * pose proof (read_more_spec src (cap - zlen data) HO ltac:(lia)) as RM. destruct (read_more src (cap - zlen data)) as [([|y t], src')|]; [discriminate| |discriminate].
        destruct RM as (CE & _ & HO' & _ & LL). intros G. apply (JOIN f (pend ++ o) (y :: t) src'); [auto|reflexivity|rewrite CE; reflexivity|].
        apply (IH p' (data ++ y :: t) (off + m) src' (pend ++ o) f f' _ (zskip (off + m) data) (y :: t) (ID ltac:(discriminate))); try assumption.
        -- rewrite zskip_app_less by lia. reflexivity.
        -- rewrite zlen_app. pose proof (zlen_nonneg (y :: t)). lia.
        -- rewrite zlen_app. lia.
        -- rewrite <- zskip_zskip by lia. apply bytes_zskip. exact BI.
        -- rewrite <- CE. exact BPC.
        -- rewrite zlen_app. lia.
  - destruct (put f (pend ++ o)) as (f1, ok) eqn:PU. destruct (put_spec _ _ _ _ PU) as (_ & U1 & _). destruct ok; [|discriminate]. specialize (U1 eq_refl). intros G.
    apply (JOIN f1 [] [] src); [auto|rewrite app_nil_r; exact U1|reflexivity|]. apply (IH p' data (off + m) src [] f1 f' _ (zskip (off + m) data) [] (ID ltac:(discriminate))); try assumption.
    + apply app_nil_r.
    + lia.
    + change (zlen (@nil Z)) with 0. pose proof (zlen_nonneg pend). lia.
    + rewrite <- zskip_zskip by lia. apply bytes_zskip. exact BI.
  - discriminate.
Qed.
End Any.

(** C55, bytes of any origin.  If the tool reports success, then it made some calls that
    offered the input in order from its first byte, the last of which succeeded; the
    bytes consumed are an intact file (header, end mark, right checksum), and the output
    holds exactly what the calls put out. *)
Theorem C55_success_means_intact : forall dict wl D skip fuel n bs src evs f,
  bytes (content src) -> Forall honest src -> 0 <= bs ->
  tool_decompress dict wl D fuel n bs skip [] src (OF [] evs) = (f, TDone) ->
  exists calls left, offered calls ++ left = content src /\
    let t := SpecCheck.any_session dict wl D skip fuel decompressor_new [] calls in
    SpecCheck.intact skip (SpecCheck.taken t) /\ f_got f = concat (map SpecCheck.c_out t).
Proof.
  intros dict wl D skip fuel n bs src evs f BC HO BS E. pose proof (real_size_pos bs BS). unfold tool_decompress, decompress_generic in E.
  destruct (any_loop dict wl D skip fuel (real_size bs) (Z.max (real_size bs) (zlen (@nil Z))) n decompressor_new [] 0 src [] (OF [] evs) f [] [] [] (ProofCheck.dinv_new skip) eq_refl ltac:(change (zlen (@nil Z)) with 0; lia) ltac:(change (zlen (@nil Z)) with 0; lia) ltac:(constructor) BC HO ltac:(change (zlen (@nil Z)) with 0; lia) E) as (room & calls & left & E1 & E2 & (c & C1 & C2) & E4).
  exists (([], room) :: calls), left. split; [exact E1|]. cbv zeta in *. split; [|exact E4]. exact (ThmCheck.C47_success_means_intact dict wl D skip fuel _ c E2 C1 C2).
Qed.

(** C55, the bound of the claim.  Bytes whose end mark comes before the streams are
    complete (here: right after the header) followed by as many bytes as the tool's input
    buffer holds make the tool run forever: the library asks for more input without
    taking any, and the buffer has no room for more. *)
Definition early_end : list Z := make_header 10 ++ EOF_MARKER ++ repeat 0 8.
Definition worker_stuck (D : dims) : worker := WK (codec_new D tt) (Dec 0 0 0 16 0) mb_empty false.
Definition mux_ended : mux := MX mb_empty mb_empty 0 0 0 0 0 BNone EofDone.
Definition crc_stuck (skip : bool) : Z := if skip then 0 else crc32c_update (crc32c_update 0 (make_header 10)) EOF_MARKER.
Definition stuck (D : dims) (skip : bool) : decompressor := DDecode (PR (worker_stuck D) squeue_new (m_set_in (main_new 0 10) mux_ended (crc_stuck skip) (repeat 0 8) 0)).
Lemma worker_waits wl D fuel w : w = worker_new D \/ w = worker_stuck D -> w_run wl D (S (S fuel)) w squeue_new = Some (worker_stuck D, squeue_new, WNeedIn).
Proof. intros [-> | ->]; reflexivity. Qed.
Lemma stuck_0 dict wl D skip fuel room : decode dict wl D skip (S (S fuel)) decompressor_new [] room = Some (0, [], decompressor_new, DNeedIn).
Proof. reflexivity. Qed.
Lemma stuck_1 dict wl D skip fuel room : decode dict wl D skip (S (S fuel)) decompressor_new early_end room = Some (27, [], stuck D skip, DNeedIn).
Proof.
  unfold decode, decompressor_new. assert (H : hp_decode hp_new early_end = ({| hp_header := make_header 10; hp_read_offset := 0 |}, 16%nat, HOk 10)) by (vm_compute; reflexivity). rewrite H. cbv zeta.
  change (Z.of_nat 16 <? zlen early_end) with true. cbn [hp_header]. change (zskip (Z.of_nat 16) early_end) with (EOF_MARKER ++ repeat 0 8).
  assert (PI : forall c, process_input skip squeue_new (main_new c 10) (EOF_MARKER ++ repeat 0 8) = Some (11, squeue_new, m_set_in (main_new c 10) mux_ended (if skip then c else crc32c_update c EOF_MARKER) (repeat 0 8) 0, true)) by (intros c; destruct skip; reflexivity).
  cbn [ModelDec.process]. unfold proc_new. cbn [p_q p_m p_w]. rewrite PI. cbn [bind negb]. rewrite (worker_waits wl D fuel _ (or_introl eq_refl)). cbn [bind m_out m_set_in andb]. change (0 =? 0) with true. cbn [bind]. destruct skip; reflexivity.
Qed.
Lemma stuck_2 dict wl D skip fuel room z t : decode dict wl D skip (S (S fuel)) (stuck D skip) (z :: t) room = Some (0, [], stuck D skip, DNeedIn).
Proof.
  unfold decode, stuck. cbn [ModelDec.process p_q p_m p_w].
  assert (PI : process_input skip squeue_new (m_set_in (main_new 0 10) mux_ended (crc_stuck skip) (repeat 0 8) 0) (z :: t) = Some (0, squeue_new, m_set_in (main_new 0 10) mux_ended (crc_stuck skip) (repeat 0 8) 0, true)).
  { unfold process_input. cbn [m_mux m_set_in]. change (deserialize mux_ended (z :: t)) with (Some (0, mux_ended)). cbn [bind]. change (zfirst 0 (z :: t)) with (@nil Z). cbn [m_crc m_trailer].
    assert (CR : (if skip then crc_stuck skip else crc32c_update (crc_stuck skip) []) = crc_stuck skip) by (destruct skip; vm_compute; reflexivity). destruct skip; [reflexivity|]. cbv zeta. change (is_done (eof mux_ended)) with true. cbv iota. etransitivity; [|exact (f_equal (fun c => Some (0, squeue_new, m_set_in (main_new 0 10) mux_ended c (repeat 0 8) 0, true)) CR)]. reflexivity. }
  rewrite PI. cbn [bind negb]. rewrite (worker_waits wl D fuel _ (or_intror eq_refl)). cbn [bind m_out m_set_in andb]. change (0 =? 0) with true. reflexivity.
Qed.
Theorem C55_hang_refuted : forall dict wl D skip bs more evs fuel, 27 <= bs -> zlen more = bs ->
  forall n, tool_decompress dict wl D (S (S fuel)) n bs skip [] [SData early_end; SData more] (OF [] evs) = (OF [] evs, TSpin).
Proof.
  intros dict wl D skip bs more evs fuel BS LM n. unfold tool_decompress, decompress_generic, real_size. destruct (Z.eqb_spec bs 0) as [Q|_]; [lia|]. change (zlen (@nil Z)) with 0. rewrite Z.max_l by lia.
  destruct more as [|z t]; [change (zlen (@nil Z)) with 0 in LM; lia|]. assert (LE : zlen early_end = 27) by reflexivity.
  assert (SPIN : forall n src, dloop (decompressing dict wl D skip (S (S fuel))) bs bs n (stuck D skip) (z :: t) 0 src [] (OF [] evs) = (OF [] evs, TSpin)).
  { clear n. induction n as [|n IH]; intros src; cbn [dloop process decompressing]; [reflexivity|]. change (zskip 0 (z :: t)) with (z :: t). rewrite stuck_2. cbn [bind dec_pres]. change (zlen (@nil Z)) with 0. rewrite LM.
    destruct (Z.ltb_spec (bs - 0) 0); [lia|]. cbn [orb]. destruct (Z.eqb_spec (0 + 0) bs); [lia|]. rewrite LM, Z.eqb_refl. cbn [app]. apply IH. }
  destruct n as [|n]; [reflexivity|]. cbn [dloop process decompressing]. change (zskip 0 (@nil Z)) with (@nil Z). rewrite stuck_0. cbn [bind dec_pres]. change (zlen (@nil Z)) with 0. destruct (Z.ltb_spec (bs - 0) 0); [lia|]. change (0 - 0 <? 0) with false. cbn [orb]. change (0 + 0 =? 0) with true. cbv beta iota zeta. change (zlen (@nil Z)) with 0.
  destruct (Z.eqb_spec 0 bs); [lia|]. cbn [read_more source_read]. rewrite Z.sub_0_r. rewrite LE. destruct (Z.ltb_spec bs 27); [lia|]. replace (zfirst bs early_end) with early_end by (symmetry; apply zfirst_all; lia). unfold early_end at 1. cbn [make_header MAGIC_NUMBER app]. fold early_end.
  destruct n as [|n]; [reflexivity|]. cbn [dloop process decompressing]. 
  match goal with |- context[zskip 0 ?l] => change l with early_end end. change (zskip 0 early_end) with early_end. rewrite stuck_1. cbn [bind dec_pres]. change (zlen (@nil Z)) with 0. rewrite LE. destruct (Z.ltb_spec (bs - 0) 0); [lia|]. change (27 - 0 <? 27) with false. cbn [orb]. change (0 + 27 =? 27) with true. cbv beta iota zeta. change (zlen (@nil Z)) with 0.
  destruct (Z.eqb_spec 0 bs); [lia|]. cbn [read_more source_read]. rewrite Z.sub_0_r, LM. destruct (Z.ltb_spec bs bs); [lia|]. replace (zfirst bs (z :: t)) with (z :: t) by (symmetry; apply zfirst_all; lia). cbn [app]. apply SPIN.
Qed.

(** ** C56: compressing *)
Section Comp.
Context (dict : dict_fn) (wl : word_len_fn) (g : cfg) (opt : option Z).
Local Notation ws := (choose_window opt).
Lemma tool_comp X a b : cfg_ok g -> bytes X -> zlen X < 2 * 2 ^ ws - 1 -> streams_of dict wl real_dims g ws (raw_cmds real_dims ws X) a b ->
  exists fuel0 n1, forall fuel n extra src bs evs, (fuel0 <= fuel)%nat -> Forall honest src -> Forall (at_most (real_size bs)) src -> extra ++ heard [] src = X -> 0 <= bs -> (n1 + 2 * length src <= n)%nat ->
  exists f e, compress_raw_inner (compressing dict wl real_dims g fuel) (real_size bs) n (rawc_new real_dims opt) extra src (OF [] evs) = (f, e) /\
    (e = TDone /\ is_file ws a b (f_got f) /\ faulty src = false \/ e = TError /\ (~ writable_file evs \/ faulty src = true)).
Proof.
  intros G BX LX ST. pose proof (choose_window_range opt) as WR. assert (L10 : 2 ^ 10 <= 2 ^ ws) by (apply Z.pow_le_mono_r; lia).
  destruct (raw_starts dict wl g opt X a b LX ST) as (f0 & es & W & EA & EB & RI0 & CF). destruct (header_bytes ws (choose_window_byte opt)) as (BH & HL). set (w := ws) in *.
  exists f0, (S (S (S (Z.to_nat (ProofEnc4.bound a b + 16))))). intros fuel n extra src bs evs LE HO AM EX BS LN. pose proof (real_size_pos bs BS) as RS. unfold compress_raw_inner.
  pose proof (cloop_spec (compressing dict wl real_dims g fuel) (real_size bs) RS (e_inv dict wl real_dims g es a b (make_header w) w X f0) (fun s o => e_cinv dict wl real_dims g es a b (make_header w) w X f0 s [] o) (complete a b (make_header w)) (ProofEnc4.bound a b + 16)) as CS.
  assert (Q : cpost (complete a b (make_header w)) (OF [] evs) src (cloop (compressing dict wl real_dims g fuel) (real_size bs) n (rawc_new real_dims opt) extra extra 0 src [] (OF [] evs))).
  { apply CS; clear CS.
    - intros s x o i f room (y & EY & RI) -> R. destruct (encode_raw_spec dict wl real_dims g es a b (make_header w) W EA EB BH HL w ltac:(lia) real_fits X LX f0 fuel LE s y o i f room RI EY R) as (m & o2 & s' & r & i' & pre & E & EI & -> & LO & RI' & K).
      exists pre, i', o2, s', (enc_pres r). cbn [process compressing]. rewrite E. cbn [bind]. split; [reflexivity|]. split; [exact EI|]. split; [exact LO|]. split; [exists (y ++ pre); split; [rewrite EI in EY; rewrite <- EY, <- !app_assoc; reflexivity|exact RI']|].
      destruct K as [(-> & K)|(-> & K)]; cbn [enc_pres]; auto.
    - intros s o (y & EY & RI). rewrite app_nil_r in EY. subst y. split; [reflexivity|]. left. left. exact RI.
    - intros s o room (_ & [FI|DN]) R.
      + destruct (flush_raw_spec dict wl real_dims g es a b (make_header w) W EA EB BH HL w ltac:(lia) real_fits X f0 fuel LE s o room FI R) as (o2 & s' & r & E & LO & K). cbn [close compressing]. rewrite E. cbn [bind]. exists o2, s', (enc_pres r). split; [reflexivity|]. split; [exact LO|].
        destruct K as [(-> & I & CL)|(-> & ZL & FI')]; cbn [enc_pres].
        * left. split; [reflexivity|]. exact (done_complete dict wl real_dims g es a b (make_header w) HL w f0 fuel LE _ _ I (proj2 (proj2 (proj2 CL)))).
        * right. split; [reflexivity|]. split; [exact ZL|]. split; [reflexivity|left; exact FI'].
      + destruct DN as (CL & CM & ZB). destruct (flush_again dict wl real_dims g fuel s room CL) as (s' & E & CL'). cbn [close compressing]. rewrite E. cbn [bind]. exists [], s', PSuccess. rewrite app_nil_r. split; [reflexivity|]. change (zlen (@nil Z)) with 0. split; [lia|]. auto.
    - intros s x o (y & EY & RI). destruct RI as (_ & _ & I & _). exact (sinv_bounds dict wl real_dims g es a b (make_header w) W EA EB HL f0 _ _ _ I).
    - intros s o (_ & [FI|(_ & _ & ZB)]); [|exact ZB]. exact (finv_bounds dict wl real_dims g es a b (make_header w) W EA EB HL w X f0 s o FI).
    - right. reflexivity.
    - pose proof (zlen_nonneg extra). lia.
    - change (zskip 0 extra) with extra. cbn [f_got]. assert (EH : (if zlen extra =? 0 then extra else []) = []) by (destruct extra; reflexivity). rewrite EH, EX. exists []. split; [reflexivity|exact RI0].
    - exact HO.
    - exact AM.
    - cbn [f_got]. change (zlen (@nil Z)) with 0. rewrite Z.sub_0_r. destruct (0 =? zlen extra)%Z; lia. }
  destruct (cloop _ _ _ _ _ _ _ _ _ _) as (f, e). exists f, e. split; [reflexivity|]. destruct Q as [(Q1 & Q2 & Q3)|(Q1 & Q2)]; cbn [fst snd f_evs] in *; [left|right].
  - split; [exact Q1|]. split; [apply CF, Q2|exact Q3].
  - split; [exact Q1|]. destruct Q2 as [Q2|Q2]; [left; intros NW; exact (NW Q2)|right; exact Q2].
Qed.
End Comp.

Lemma heard_undisturbed src : undisturbed src -> forall last, heard last src = content src.
Proof.
  induction src as [|e src IH]; intros U last; [reflexivity|]. assert (U' : undisturbed src) by (intros Q; apply U; right; exact Q).
  destruct e; cbn [heard content]; [rewrite (IH U'); reflexivity|contradiction U; left; reflexivity|reflexivity].
Qed.

(** C56.  The tool told to compress, on a source whose reads are not interrupted and
    whose content [X] is fewer than twice the window minus one bytes: for every way the
    content is cut into reads and the writes are taken, the tool ends; on success the
    output is the file for [X] (the two streams [a], [b] are those of C28); it reports
    an error only if a read or write failed. *)
Theorem C56_compress_tool : forall dict wl g opt X a b,
  cfg_ok g -> bytes X -> zlen X < 2 * 2 ^ choose_window opt - 1 -> streams_of dict wl real_dims g (choose_window opt) (raw_cmds real_dims (choose_window opt) X) a b ->
  exists fuel0 n1, forall fuel n src bs evs, (fuel0 <= fuel)%nat -> (n1 + 2 * length src <= n)%nat ->
    Forall honest src -> Forall (at_most (real_size bs)) src -> undisturbed src -> content src = X -> 0 <= bs ->
  exists f e, tool_compress dict wl real_dims g opt fuel n bs true src (OF [] evs) = (f, e) /\
    (e = TDone /\ is_file (choose_window opt) a b (f_got f) /\ faulty src = false \/ e = TError /\ (~ writable_file evs \/ faulty src = true)).
Proof.
  intros dict wl g opt X a b G BX LX ST. destruct (tool_comp dict wl g opt X a b G BX LX ST) as (f0 & n1 & H). exists f0, n1. intros fuel n src bs evs LE LN HO AM U EX BS. unfold tool_compress.
  apply (H fuel n [] src bs evs); try assumption. cbn [app]. rewrite heard_undisturbed by exact U. exact EX.
Qed.

(** C56, what an interruption does.  A source that delivers [X] in one read and then
    interrupts one read: the tool reports success, and the file it made decompresses,
    in every way, to [X] twice. *)
Theorem C56_interrupt_refuted : forall dict wl g opt X skip,
  cfg_ok g -> bytes X -> X <> [] -> zlen X <= 2 ^ choose_window opt - 1 ->
  exists fuel0 n1, forall fuel n bs, (fuel0 <= fuel)%nat -> (n1 <= n)%nat -> 0 <= bs -> zlen X <= real_size bs ->
  exists f, tool_compress dict wl real_dims g opt fuel n bs true [SData X; SIntr] (OF [] []) = (f, TDone) /\
  exists n2, forall n, (n2 <= n)%nat ->
  exists f2, tool_decompress dict wl real_dims fuel n bs skip [] [SData (f_got f)] (OF [] []) = (f2, TDone) /\ f_got f2 = X ++ X /\ X ++ X <> X.
Proof.
  intros dict wl g opt X skip G BX NX LX. pose proof (choose_window_range opt) as WR. pose proof (proj1 C20_case) as BG.
  assert (BXX : bytes (X ++ X)) by (apply Forall_app; auto). assert (LXX : zlen (X ++ X) < 2 * 2 ^ choose_window opt - 1) by (rewrite zlen_app; lia).
  pose proof (raw_acceptable dict wl g (choose_window opt) (X ++ X) G WR BXX LXX) as AC. destruct (C28_streams_exist dict wl real_dims g _ _ BG G AC) as (a & b & ST & _).
  destruct (tool_comp dict wl g opt (X ++ X) a b G BXX LXX ST) as (f0 & n1 & H). destruct (C55_decompress_tool dict wl real_dims g _ _ a b skip BG G WR AC ST) as (f1 & HD).
  exists (Nat.max f0 f1), (n1 + 4)%nat. intros fuel n bs LE LN BS LB. unfold tool_compress.
  assert (HO : Forall honest [SData X; SIntr]) by (constructor; [destruct X; [contradiction NX; reflexivity|exact Logic.I]|constructor; [exact Logic.I|constructor]]).
  destruct (H fuel n [] [SData X; SIntr] bs [] ltac:(lia) HO ltac:(constructor; [exact LB|constructor; [exact Logic.I|constructor]]) ltac:(cbn [heard app]; rewrite app_nil_r; reflexivity) BS ltac:(cbn [length]; lia)) as (f & e & E & K).
  destruct K as [(-> & F & _)|(_ & [Q|Q])]; [|contradiction Q; intros []|discriminate Q]. exists f. split; [exact E|].
  assert (FN : honest (SData (f_got f))). { cbn [honest]. destruct (f_got f) eqn:Q; [|exact Logic.I]. destruct F as (W & _ & _ & Q2). discriminate Q2. }
  destruct (HD fuel (f_got f) [] [SData (f_got f)] bs [] ltac:(lia) F ltac:(constructor) ltac:(constructor; [exact FN|constructor]) ltac:(cbn [content]; reflexivity) BS) as (n2 & H2). exists n2. intros n' LN'. destruct (H2 n' LN') as (f2 & e2 & E2 & K2).
  destruct K2 as [(-> & K2)|(_ & _ & [Q|Q])]; [|contradiction Q; intros []|discriminate Q]. exists f2. split; [exact E2|]. split.
  - rewrite K2. apply raw_meaning. apply Z.pow_nonneg. lia.
  - intros Q. apply (f_equal (@length Z)) in Q. rewrite app_length in Q. destruct X; [contradiction NX; reflexivity|cbn [length] in Q; lia].
Qed.

(** ** C57: finding the direction *)
Lemma sniff_spec : forall src got h src2, Forall honest src -> zlen got < 16 -> sniff got src = Some (h, src2) ->
  h ++ content src2 = got ++ content src /\ Forall honest src2 /\ faulty src2 = faulty src /\ (zlen h = 16 \/ src2 = []) /\ (undisturbed src -> undisturbed src2) /\ (forall k, Forall (at_most k) src -> Forall (at_most k) src2) /\ (weight src2 <= weight src)%nat /\ (length src2 <= length src)%nat.
Proof.
  induction src as [|e src IH]; intros got h src2 HO LG E; cbn [sniff] in E.
  - injection E as <- <-. split; [reflexivity|]. split; [exact HO|]. split; [reflexivity|]. split; [auto|]. split; [auto|]. split; [auto|]. split; lia.
  - apply Forall_cons_iff in HO. destruct HO as (H1 & HO). destruct e as [l| |]; cbn [sniff source_read] in E; [| |discriminate].
    + destruct l as [|z l]; [contradiction|]. clear H1. set (L := z :: l) in *. assert (LP : 1 <= zlen L) by (unfold L; rewrite zlen_cons; pose proof (zlen_nonneg l); lia).
      pose proof (zlen_first (16 - zlen got) L ltac:(lia)) as ZF. destruct (Z.ltb_spec (16 - zlen got) (zlen L)) as [Q|Q].
      * assert (C : (zlen (zfirst (16 - zlen got) L) =? 0) || (zlen (got ++ zfirst (16 - zlen got) L) =? 16) = true) by (apply orb_true_iff; right; apply Z.eqb_eq; rewrite zlen_app; lia). rewrite C in E. injection E as <- <-.
        pose proof (zlen_skip (16 - zlen got) L ltac:(lia)) as ZS. split; [cbn [content]; rewrite <- app_assoc; f_equal; rewrite app_assoc, zfirst_skip; reflexivity|].
        split; [constructor; [|exact HO]; cbn [honest]; destruct (zskip (16 - zlen got) L); [change (zlen (@nil Z)) with 0 in ZS; lia|exact Logic.I]|]. split; [reflexivity|]. split; [left; rewrite zlen_app; lia|].
        split; [intros U [Q2|Q2]; [discriminate|apply U; right; exact Q2]|]. split; [intros k AM; apply Forall_cons_iff in AM; destruct AM as (A1 & A2); constructor; [cbn [at_most] in *; lia|exact A2]|].
        split; [|cbn [length]; lia]. cbn [weight]. assert (LL : (length (zskip (16 - zlen got) L) <= length L)%nat) by (unfold zskip; rewrite skipn_length; lia). lia.
      * assert (ZA : zfirst (16 - zlen got) L = L) by (apply zfirst_all; lia). rewrite ZA in *. assert (W : (weight src <= weight (SData L :: src))%nat) by (cbn [weight]; lia).
        destruct (Z.eqb_spec (zlen L) 0) as [Q0|_]; [lia|]. cbn [orb] in E. destruct (Z.eqb_spec (zlen (got ++ L)) 16) as [Q16|Q16].
        -- injection E as <- <-. cbn [content]. split; [rewrite app_assoc; reflexivity|]. split; [exact HO|]. split; [reflexivity|]. split; [auto|]. split; [intros U Q2; apply U; right; exact Q2|]. split; [intros k AM; apply Forall_cons_iff in AM; apply AM|]. split; [exact W|cbn [length]; lia].
        -- destruct (IH (got ++ L) _ _ HO ltac:(rewrite zlen_app in *; lia) E) as (E1 & E2 & E3 & E4 & E5 & E6 & E7 & E8). cbn [content faulty length]. split; [rewrite E1, app_assoc; reflexivity|]. split; [exact E2|]. split; [exact E3|]. split; [exact E4|]. split; [intros U; apply E5; intros Q2; apply U; right; exact Q2|].
           split; [intros k AM; apply Forall_cons_iff in AM; apply E6, AM|]. split; lia.
    + destruct (IH _ _ _ HO LG E) as (E1 & E2 & E3 & E4 & E5 & E6 & E7 & E8). cbn [content faulty length]. split; [exact E1|]. split; [exact E2|]. split; [exact E3|]. split; [exact E4|]. split; [intros U; apply E5; intros Q2; apply U; right; exact Q2|].
      split; [intros k AM; apply Forall_cons_iff in AM; apply E6, AM|]. split; [|lia]. cbn [weight]. lia.
Qed.
Lemma sniff_none : forall src got, sniff got src = None -> faulty src = true.
Proof.
  induction src as [|e src IH]; intros got E; cbn [sniff] in E; [discriminate|]. destruct e; cbn [faulty]; [|exact (IH _ E)|reflexivity]. cbn [source_read] in E. destruct ((_ || _)%bool); [discriminate|]. exact (IH _ E).
Qed.
Lemma is_divans_ok X h more : h ++ more = X -> (zlen h = 16 \/ more = []) -> (is_divans h = true <-> looks_compressed X).
Proof.
  intros <- L. split.
  - unfold is_divans. destruct (Nat.ltb_spec (length h) (length MAGIC_NUMBER)) as [Q|Q]; [discriminate|]. cbn [MAGIC_NUMBER length] in *.
    destruct h as [|h0 [|h1 [|h2 [|h3 h]]]]; cbn [length] in Q; try lia. change (forallb _ _) with ((h0 =? 255) && ((h1 =? 229) && ((h2 =? 140) && ((h3 =? 159) && true)))). rewrite !andb_true_iff, !Z.eqb_eq. intros (-> & -> & -> & -> & _). exists (h ++ more). reflexivity.
  - intros (rest & E). assert (L4 : (4 <= length h)%nat) by (destruct L as [L| ->]; [unfold zlen in L; lia|rewrite app_nil_r in E; rewrite E, app_length; cbn [length]; lia]).
    destruct h as [|h0 [|h1 [|h2 [|h3 h]]]]; cbn [length] in L4; try lia. cbn [app] in E. injection E as -> -> -> -> _. reflexivity.
Qed.

(** C57, a file.  The tool that is not told the direction, given a file: it decompresses
    it, in the way of C55. *)
Theorem C57_file_is_decompressed : forall dict wl g ws cmds a b,
  cfg_ok g -> 10 <= ws <= 24 -> acceptable dict wl real_dims g ws cmds -> streams_of dict wl real_dims g ws cmds a b ->
  exists fuel0, forall g' opt fuel T tail src bs evs, (fuel0 <= fuel)%nat ->
    is_file ws a b T -> bytes tail -> Forall honest src -> content src = T ++ tail -> 0 <= bs ->
  exists n0, forall n, (n0 <= n)%nat ->
  exists f e, tool_compress dict wl real_dims g' opt fuel n bs false src (OF [] evs) = (f, e) /\
    (e = TDone /\ f_got f = meaning dict (window ws) cmds \/
     e = TError /\ (exists more, meaning dict (window ws) cmds = f_got f ++ more) /\ (~ writable_file evs \/ faulty src = true)).
Proof.
  intros dict wl g ws cmds a b G WS AC ST. pose proof (proj1 C20_case) as B. destruct (tool_dec dict wl real_dims g ws cmds a b false B G WS AC ST) as (N & H). exists N.
  intros g' opt fuel T tail src bs evs LE IF BT HO ET BS. exists (S (weight src + Z.to_nat (zlen (meaning dict (window ws) cmds)))). intros n LN.
  destruct (file_starts dict wl real_dims g ws cmds a b false B G WS AC ST) as (N1 & HF). destruct (HF T IF) as (_ & _ & _ & _ & _ & BTT).
  assert (LC : looks_compressed (content src)) by (destruct IF as (W & _ & _ & TE); rewrite ET, TE; unfold make_header, MAGIC_NUMBER; cbn [app]; eexists; reflexivity).
  unfold tool_compress. destruct (sniff [] src) as [(h, src2)|] eqn:SN.
  - destruct (sniff_spec src [] h src2 HO ltac:(change (zlen (@nil Z)) with 0; lia) SN) as (E1 & E2 & E3 & E4 & _ & _ & E7 & _). cbn [app] in E1.
    rewrite (proj2 (is_divans_ok (content src) h (content src2) E1 ltac:(destruct E4 as [E4| ->]; auto)) LC).
    pose proof (H fuel T tail [] h src2 bs evs n LE IF) as Q. rewrite app_nil_r, E1 in Q. specialize (Q ltac:(rewrite ET; apply Forall_app; auto) E2 ET BS ltac:(lia)).
    destruct (tool_decompress _ _ _ _ _ _ _ _ _ _) as (f, e). exists f, e. split; [reflexivity|]. destruct Q as [(Q1 & Q2 & _)|(Q1 & Q2 & Q3)]; cbn [fst snd] in *; [left; auto|right]. split; [exact Q1|]. split; [exact Q2|].
    destruct Q3 as [Q3|[Q3|Q3]]; [left; intros NW; exact (NW Q3)|right; rewrite <- E3; exact Q3|]. change (zlen (@nil Z)) with 0 in Q3. pose proof (zlen_nonneg tail). lia.
  - exists (OF [] evs), TError. split; [reflexivity|]. right. split; [reflexivity|]. split; [eexists; reflexivity|right; exact (sniff_none _ _ SN)].
Qed.
(** C57, other data.  Given data that does not start with the magic number, it compresses
    it, in the way of C56. *)
Theorem C57_data_is_compressed : forall dict wl g opt X a b,
  cfg_ok g -> bytes X -> ~ looks_compressed X -> zlen X < 2 * 2 ^ choose_window opt - 1 -> streams_of dict wl real_dims g (choose_window opt) (raw_cmds real_dims (choose_window opt) X) a b ->
  exists fuel0 n1, forall fuel n src bs evs, (fuel0 <= fuel)%nat -> (n1 + 2 * length src <= n)%nat ->
    Forall honest src -> Forall (at_most (real_size bs)) src -> undisturbed src -> content src = X -> 0 <= bs ->
  exists f e, tool_compress dict wl real_dims g opt fuel n bs false src (OF [] evs) = (f, e) /\
    (e = TDone /\ is_file (choose_window opt) a b (f_got f) /\ faulty src = false \/ e = TError /\ (~ writable_file evs \/ faulty src = true)).
Proof.
  intros dict wl g opt X a b G BX NL LX ST. destruct (tool_comp dict wl g opt X a b G BX LX ST) as (f0 & n1 & H). exists f0, n1. intros fuel n src bs evs LE LN HO AM U EX BS. unfold tool_compress.
  destruct (sniff [] src) as [(h, src2)|] eqn:SN; cycle 1.
  { exists (OF [] evs), TError. split; [reflexivity|]. right. split; [reflexivity|right; exact (sniff_none _ _ SN)]. }
  destruct (sniff_spec src [] h src2 HO ltac:(change (zlen (@nil Z)) with 0; lia) SN) as (E1 & E2 & E3 & E4 & E5 & E6 & _ & E8). cbn [app] in E1.
  assert (ND : is_divans h = false). { destruct (is_divans h) eqn:Q; [|reflexivity]. exfalso. apply NL. rewrite <- EX. apply (proj1 (is_divans_ok (content src) h (content src2) E1 ltac:(destruct E4 as [E4| ->]; auto))). exact Q. }
  rewrite ND, <- E3. apply (H fuel n h src2 bs evs LE E2 (E6 _ AM)); [rewrite heard_undisturbed by exact (E5 U); rewrite E1; exact EX|exact BS|lia].
Qed.
(** C57, round trip.  Data that does not start with the magic number, through the tool,
    and the output through the tool again, no direction given, no fault and no
    interruption of the first run's reads: the data comes back. *)
Theorem C57_roundtrip : forall dict wl g opt X,
  cfg_ok g -> bytes X -> ~ looks_compressed X -> zlen X < 2 * 2 ^ choose_window opt - 1 ->
  exists fuel0 n1, forall fuel n src bs evs, (fuel0 <= fuel)%nat -> (n1 + 2 * length src <= n)%nat ->
    Forall honest src -> Forall (at_most (real_size bs)) src -> undisturbed src -> content src = X -> faulty src = false -> 0 <= bs -> writable_file evs ->
  exists f, tool_compress dict wl real_dims g opt fuel n bs false src (OF [] evs) = (f, TDone) /\
  forall g2 opt2 src2 bs2 evs2, Forall honest src2 -> content src2 = f_got f -> faulty src2 = false -> 0 <= bs2 -> writable_file evs2 ->
  exists n2, forall n, (n2 <= n)%nat ->
  exists f2, tool_compress dict wl real_dims g2 opt2 fuel n bs2 false src2 (OF [] evs2) = (f2, TDone) /\ f_got f2 = X.
Proof.
  intros dict wl g opt X G BX NL LX. pose proof (choose_window_range opt) as WR. pose proof (proj1 C20_case) as BG.
  pose proof (raw_acceptable dict wl g (choose_window opt) X G WR BX LX) as AC. destruct (C28_streams_exist dict wl real_dims g _ _ BG G AC) as (a & b & ST & _).
  destruct (C57_data_is_compressed dict wl g opt X a b G BX NL LX ST) as (f0 & n1 & H).
  assert (HD : exists N, forall opt2 g' fuel T src bs evs, (N <= fuel)%nat -> is_file (choose_window opt) a b T -> Forall honest src -> content src = T -> 0 <= bs -> exists n0, forall n, (n0 <= n)%nat ->
     exists f e, tool_compress dict wl real_dims g' opt2 fuel n bs false src (OF [] evs) = (f, e) /\ (e = TDone /\ f_got f = X \/ e = TError /\ (~ writable_file evs \/ faulty src = true))).
  { destruct (C57_file_is_decompressed dict wl g (choose_window opt) _ a b G WR AC ST) as (N & HN). exists N. intros opt2 g' fuel T src bs evs LE IF HO ET BS.
    destruct (HN g' opt2 fuel T [] src bs evs LE IF ltac:(constructor) HO ltac:(rewrite app_nil_r; exact ET) BS) as (n0 & H0). exists n0. intros n LN. destruct (H0 n LN) as (f & e & E & K).
    exists f, e. split; [exact E|]. rewrite raw_meaning in K by (apply Z.pow_nonneg; lia). destruct K as [K|(K1 & _ & K2)]; auto. }
  destruct HD as (N & HD). exists (Nat.max f0 N), n1. intros fuel n src bs evs LE LN HO AM U EX FA BS WF.
  destruct (H fuel n src bs evs ltac:(lia) LN HO AM U EX BS) as (f & e & E & [(-> & IF & _)|(_ & [Q|Q])]); [|contradiction|congruence]. exists f. split; [exact E|].
  intros g2 opt2 src2 bs2 evs2 HO2 ET2 FA2 BS2 WF2. destruct (HD opt2 g2 fuel (f_got f) src2 bs2 evs2 ltac:(lia) IF HO2 ET2 BS2) as (n2 & H2). exists n2. intros n' LN'. destruct (H2 n' LN') as (f2 & e2 & E2 & [(-> & K)|(_ & [Q|Q])]); [|contradiction|congruence].
  exists f2. auto.
Qed.
(** C57, the bound of the claim: data that starts with the magic number and is no file is
    not compressed; the tool reports an error. *)
Theorem C57_magic_data_refuted : forall dict wl g opt fuel n evs, exists X, looks_compressed X /\
  tool_compress dict wl real_dims g opt fuel (S (S (S n))) 0 false [SData X] (OF [] evs) = (OF [] evs, TError).
Proof. intros. exists [255; 229; 140; 159]. split; [exists []; reflexivity|]. reflexivity. Qed.

(** ** The claims on concrete cases *)
Definition tool_demo (src : list event) (evs : list wevent) := tool_decompress demo_dict demo_wl (DIMS 4 4 4) 1000 200 7 false [] src (OF [] evs).
Example C55_case :
  let out := meaning demo_dict (window 10) (concat demo_batches) in
  let src := [SData (firstn 20 demo_file); SIntr; SData (skipn 20 demo_file ++ [1; 2; 3])] in
  content src = demo_file ++ [1; 2; 3] /\
  tool_demo src [WTake 2; WIntr; WTake 100] = (OF out [], TDone) /\
  tool_demo src [WTake 2; WFault] = (OF (firstn 2 out) [], TError) /\
  snd (tool_demo [SData (firstn 76 demo_file)] []) = TError /\
  27 <= 65536 /\ zlen (repeat 0 (Z.to_nat 65536)) = 65536.
Proof.
  cbv zeta. split; [reflexivity|]. split; [vm_compute; reflexivity|]. split; [vm_compute; reflexivity|]. split; [vm_compute; reflexivity|]. split; [lia|]. unfold zlen. rewrite repeat_length. lia.
Qed.
Example C56_case : cfg_ok demo_cfg /\ bytes demo_text /\ demo_text <> [] /\ zlen demo_text <= 2 ^ choose_window (Some 12) - 1 /\
  let src := [SData (firstn 3 demo_text); SData (skipn 3 demo_text)] in
  Forall honest src /\ Forall (at_most (real_size 0)) src /\ undisturbed src /\ content src = demo_text /\ ~ looks_compressed demo_text /\ heard [] [SData demo_text; SIntr] = demo_text ++ demo_text.
Proof.
  destruct C46_case as (G & B & _). split; [exact G|]. split; [exact B|]. split; [discriminate|]. split; [vm_compute; discriminate|]. cbv zeta.
  split; [repeat (constructor; [exact Logic.I|]); constructor|]. split; [repeat (constructor; [vm_compute; discriminate|]); constructor|]. split; [intros [Q|[Q|[]]]; discriminate Q|]. split; [reflexivity|]. split; [intros (rest & Q); discriminate Q|].
  cbn [heard]. rewrite app_nil_r. reflexivity.
Qed.
Example C57_case : ~ looks_compressed demo_text /\ looks_compressed demo_file /\ is_divans (firstn 16 demo_file) = true /\ sniff [] [SData [1; 2]; SIntr; SData (repeat 3 20)] = Some (1 :: 2 :: repeat 3 14, [SData (repeat 3 6)]).
Proof. split; [intros (rest & Q); discriminate Q|]. split; [eexists; vm_compute; reflexivity|]. split; vm_compute; reflexivity. Qed.
Print Assumptions C55_decompress_tool.
Print Assumptions C55_truncated.
Print Assumptions C55_success_means_intact.
Print Assumptions C55_hang_refuted.
Print Assumptions C56_compress_tool.
Print Assumptions C56_interrupt_refuted.
Print Assumptions C57_file_is_decompressed.
Print Assumptions C57_data_is_compressed.
Print Assumptions C57_roundtrip.
Print Assumptions C57_magic_data_refuted.
