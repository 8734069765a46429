(** C63: the command line tool with its default settings, two threads included. *)
From Verif Require Import Prelude ProofList ModelAns SpecAns ModelCdf SpecCdf ModelRecode SpecLz ModelMux SpecMux ProofZlist ProofMux ProofMuxW ModelCmd ModelCrc SpecCrc ModelHeader SpecHeader ProofHeader ModelPriors ModelCodec ModelLit ModelPm ModelTop SpecCodec SpecReplay SpecFile ModelEnc ProofEnc3 ProofEnc4 ThmCodec ThmEnc ModelDec SpecEnc SpecDec ProofDec6 ProofDec7 ThmDec ModelRaw ModelRawEnc SpecRawEnc ModelThread SpecThread ProofThread2 ProofThread4 ProofThread5 ProofThread6 ThmThread.
From Verif Require ThmHeader.
From Verif Require Import ModelIo SpecIo ProofIo ThmIo ModelHybrid SpecHybrid ModelTool SpecTool ProofTool ThmTool ModelToolHybrid ThmHybrid ThmToolHybrid ModelToolThread ProofToolThread.

Lemma par_starts dict wl D g ws cmds a b skip : big D -> cfg_ok g -> 10 <= ws <= 24 -> acceptable dict wl D g ws cmds -> streams_of dict wl D g ws cmds a b ->
  exists N, forall T, is_file ws a b T -> exists W Tr, T = make_header ws ++ W ++ Tr /\ Tr = trailer (crc32c 0 (make_header ws ++ W)) /\ starts dict wl D skip ws W Tr (meaning dict (window ws) cmds) N /\ bytes T.
Proof.
  intros B G WS AC ST.
  assert (BAB : bytes a /\ bytes b). { destruct ST as (f & c & es & _ & W & EA & EB). split; [exact (BA es a W EA)|exact (ProofEnc4.BB es b W EB)]. }
  destruct (start dict wl D skip ws WS g cmds a b B G AC ST) as (N & H). exists N. intros T (W & FRM & _ & ->).
  assert (BH : bytes (make_header ws)) by (apply header_bytes; unfold byte; lia).
  pose proof (framing_framed _ _ _ FRM) as FR.
  assert (BW : bytes W). { destruct FR as (fs & GG & -> & P0 & P1). apply bytes_app; [apply enc_bytes; [exact GG|rewrite P0; apply BAB|rewrite P1; apply BAB]|]. apply Forall_cons; [unfold byte; lia|]. apply Forall_cons; [unfold byte; lia|]. apply Forall_cons; [unfold byte; lia|]. apply Forall_nil. }
  destruct (H W FR BW _ eq_refl) as (n & ci & ces & outsW & les & PV & CO). set (Tr := trailer (crc32c 0 (make_header ws ++ W))) in *.
  assert (BTr : bytes Tr).
  { unfold Tr, trailer. apply Forall_app. split; [apply le_bytes|]. apply Forall_cons; [unfold byte; lia|]. apply Forall_cons; [unfold byte; lia|]. apply Forall_cons; [unfold byte; lia|]. apply Forall_cons; [unfold byte; lia|]. apply Forall_nil. }
  exists W, Tr. split; [reflexivity|]. split; [reflexivity|]. split; [exists n, (pm_new D), ci, ces, outsW, a, b, les; split; [exact PV|exact CO]|]. apply bytes_app; [exact BH|]; apply bytes_app; [exact BW|exact BTr].
Qed.
(** more rounds of the loop than needed change nothing *)
Lemma ploop_more dict wl D skip bsize cap : forall n k p data off src pend f res st, ploop dict wl D skip bsize cap n p data off src pend f = (res, st) -> snd res <> TSpin ->
  ploop dict wl D skip bsize cap (n + k) p data off src pend f = (res, st).
Proof.
  induction n as [|n IH]; intros k p data off src pend f res st E NS; [cbn [ploop] in E; assert (res = (f, TSpin)) as -> by congruence; contradiction NS; reflexivity|].
  cbn [Nat.add ploop] in *. destruct (parallel_decode _ _ _ _ _ _ _ _ _) as [(((m, o), p'), r)|]; [|exact E]. destruct (_ || _); [exact E|]. destruct r; [exact E| | |exact E].
  - destruct (off + m =? zlen data); (destruct (_ =? cap); [exact (IH _ _ _ _ _ _ _ _ _ E NS)|]); (destruct (read_more _ _) as [([|y t], src')|]; [exact E| |exact E]); exact (IH _ _ _ _ _ _ _ _ _ E NS).
  - destruct (put f (pend ++ o)) as (f', ok). destruct ok; [exact (IH _ _ _ _ _ _ _ _ _ E NS)|exact E].
Qed.
Lemma free_ended dict wl D skip l on x : ModelThread.ended (wd_w x) = true -> parallel_free dict wl D skip (PS (PDecode x) on l) = true.
Proof. intros EN. cbn [parallel_free ps_d ps_sched ps_on]. assert (K : free_returns (begin_free x) = true) by (unfold free_returns, begin_free; cbn [wd_w]; destruct (notify (wd_sh x)); exact EN). destruct l; cbn [wait_free]; rewrite K; reflexivity. Qed.

Lemma tool_par dict wl D g ws cmds a b skip :
  big D -> cfg_ok g -> 10 <= ws <= 24 -> acceptable dict wl D g ws cmds -> streams_of dict wl D g ws cmds a b ->
  forall src, Forall honest src -> exists r0, forall T tail missing extra bs evs n rounds,
    is_file ws a b T -> bytes tail -> extra ++ content src ++ missing = T ++ tail -> 0 <= bs ->
    (weight src + Z.to_nat (zlen (meaning dict (window ws) cmds)) < n)%nat -> Forall fair_round rounds -> r0 + spurious (concat rounds) < zlen rounds ->
  exists f e, tool_decompress_parallel dict wl D skip (concat rounds) n bs extra src (OF [] evs) = (f, e) /\
    (e = TDone /\ f_got f = meaning dict (window ws) cmds /\ zlen missing <= zlen tail \/
     (e = TError \/ e = TSpin) /\ (exists more, meaning dict (window ws) cmds = f_got f ++ more) /\ (In WFault evs \/ faulty src = true \/ zlen tail < zlen missing)).
Proof.
  intros B G WS AC ST src HO. destruct (par_starts dict wl D g ws cmds a b skip B G WS AC ST) as (N & H). set (out := meaning dict (window ws) cmds) in *. set (n1 := S (weight src + Z.to_nat (zlen out))).
  exists (N0 N + 10 * Z.of_nat n1). intros T tail missing extra bs evs n rounds IF BT ET BS LN FR LR. destruct (H T IF) as (W & Tr & -> & TRE & AS & BTT). pose proof (real_size_pos bs BS) as RS.
  set (bsz := real_size bs) in *. set (cap := Z.max bsz (zlen extra)).
  assert (PI : pinv dict wl D skip ws W Tr out N n1 (PS pdec_new false (concat rounds)) (make_header ws ++ W ++ Tr) []).
  { exists (N0 N). split; [|exists [], rounds; split; [reflexivity|]; split; [exact FR|left; cbn [ps_sched]; lia]]. exists []. split; [reflexivity|]. cbn [ps_d pdec_new]. split; [exists [], (make_header ws); split; [exact hp_new_inv|auto]|]. split; [reflexivity|lia]. }
  destruct (ploop_spec dict wl D skip ws WS W Tr out N TRE AS BTT tail BT bsz cap RS ltac:(unfold cap; lia) missing n1 (PS pdec_new false (concat rounds)) extra 0 src [] (OF [] evs) (make_header ws ++ W ++ Tr)) as (f & e & p & E & K).
  { exact PI. } { change (zskip 0 extra) with extra. exact ET. } { pose proof (zlen_nonneg extra). lia. } { unfold cap. lia. } { change (zlen (@nil Z)) with 0. lia. } { exact HO. } { cbn [f_got]. change (zlen (@nil Z)) with 0. rewrite Z.sub_0_r. unfold n1. lia. }
  assert (NS : snd (f, e) <> TSpin) by (cbn [snd]; destruct K as [(-> & _)|(-> & _)]; discriminate).
  pose proof (ploop_more _ _ _ _ _ _ n1 (n - n1) _ _ _ _ _ _ _ _ E NS) as E2. replace (n1 + (n - n1))%nat with n in E2 by (unfold n1; lia).
  unfold tool_decompress_parallel. cbv zeta. fold bsz. fold cap. rewrite E2. exists f. eexists. split; [reflexivity|].
  destruct K as [(-> & K2 & K3 & (w & K4 & K5))|(-> & K)].
  - left. destruct p as [d on l]. cbn [ps_d] in K4. subst d. rewrite free_ended by exact K5. auto.
  - right. split; [destruct (parallel_free _ _ _ _ _); auto|]. exact K.
Qed.

(** C63.  The tool decompressing with two threads, as it does unless told otherwise, a
    complete file with anything after it: under every schedule that gives each thread
    enough turns, with any number of spurious wake-ups, for every way the input is cut
    into reads and the writes are taken: if no read or write fails the tool ends, with
    success, and the output is the original bytes; whatever happens the output is a
    beginning of them, and it does not panic. *)
Theorem C63_two_threads : forall dict wl D g ws cmds a b skip,
  big D -> cfg_ok g -> 10 <= ws <= 24 -> acceptable dict wl D g ws cmds -> streams_of dict wl D g ws cmds a b ->
  forall src T tail, is_file ws a b T -> bytes tail -> Forall honest src -> content src = T ++ tail ->
  exists n0 r0, forall bs evs n rounds, 0 <= bs -> (n0 <= n)%nat -> Forall fair_round rounds -> r0 + spurious (concat rounds) < zlen rounds ->
  exists f e, tool_decompress_parallel dict wl D skip (concat rounds) n bs [] src (OF [] evs) = (f, e) /\
    (e = TDone /\ f_got f = meaning dict (window ws) cmds \/
     (e = TError \/ e = TSpin) /\ (exists more, meaning dict (window ws) cmds = f_got f ++ more) /\ (~ writable_file evs \/ faulty src = true)).
Proof.
  intros dict wl D g ws cmds a b skip B G WS AC ST src T tail IF BT HO ET. destruct (tool_par dict wl D g ws cmds a b skip B G WS AC ST src HO) as (r0 & H).
  exists (S (weight src + Z.to_nat (zlen (meaning dict (window ws) cmds)))), r0. intros bs evs n rounds BS LN FR LR.
  destruct (H T tail [] [] bs evs n rounds IF BT ltac:(rewrite app_nil_r; exact ET) BS ltac:(lia) FR LR) as (f & e & E & K). exists f, e. split; [exact E|]. destruct K as [(K1 & K2 & _)|(K1 & K2 & K3)]; [left; auto|right]. split; [exact K1|]. split; [exact K2|].
  destruct K3 as [K3|[K3|K3]]; [left; intros NW; exact (NW K3)|right; exact K3|]. change (zlen (@nil Z)) with 0 in K3. pose proof (zlen_nonneg tail). lia.
Qed.
Print Assumptions C63_two_threads.

(** C63, a file cut short: success is never reported, and the output is a beginning of
    the original bytes ... *)
Theorem C63_truncated : forall dict wl D g ws cmds a b skip,
  big D -> cfg_ok g -> 10 <= ws <= 24 -> acceptable dict wl D g ws cmds -> streams_of dict wl D g ws cmds a b ->
  forall src T missing, is_file ws a b T -> Forall honest src -> content src ++ missing = T -> missing <> [] ->
  exists n0 r0, forall bs evs n rounds, 0 <= bs -> (n0 <= n)%nat -> Forall fair_round rounds -> r0 + spurious (concat rounds) < zlen rounds ->
  exists f e, tool_decompress_parallel dict wl D skip (concat rounds) n bs [] src (OF [] evs) = (f, e) /\ (e = TError \/ e = TSpin) /\ exists more, meaning dict (window ws) cmds = f_got f ++ more.
Proof.
  intros dict wl D g ws cmds a b skip B G WS AC ST src T missing IF HO ET MN. destruct (tool_par dict wl D g ws cmds a b skip B G WS AC ST src HO) as (r0 & H).
  exists (S (weight src + Z.to_nat (zlen (meaning dict (window ws) cmds)))), r0. intros bs evs n rounds BS LN FR LR.
  destruct (H T [] missing [] bs evs n rounds IF ltac:(constructor) ltac:(rewrite app_nil_r; exact ET) BS ltac:(lia) FR LR) as (f & e & E & K). exists f, e. split; [exact E|]. destruct K as [(_ & _ & K3)|(K1 & K2 & _)]; [|split; assumption].
  change (zlen (@nil Z)) with 0 in K3. destruct missing; [contradiction MN; reflexivity|]. rewrite zlen_cons in K3. pose proof (zlen_nonneg missing). lia.
Qed.
Print Assumptions C63_truncated.

(** ... but an error is not always reported, as it is with one thread (C55_truncated): on
    the sixteen bytes of a header the tool never ends, whatever happens next, if the
    worker thread gets its first turn before the tool frees the decompressor, ... *)
Lemma wait_hangs dict wl D skip : forall l x, hangs x -> wait_free dict wl D skip l true x = false.
Proof.
  induction l as [|e l IH]; intros x H; cbn [wait_free].
  - destruct H as (_ & W & _). unfold free_returns. rewrite (wanting_ended _ W). reflexivity.
  - destruct (hangs_step dict wl D skip e x H) as (x' & E & H'). rewrite E. destruct H as (_ & W & _). unfold free_returns. rewrite (wanting_ended _ W). cbn [negb]. replace (match e with ByMain => false | _ => false end) with false by (destruct e; reflexivity). replace (turn e true) with true by (destruct e; reflexivity). apply IH, H'.
Qed.
Definition header_only (ws : Z) : list event := [SData (make_header ws)].
Lemma header_loop dict wl D skip ws bs n l evs : 10 <= ws <= 24 -> 16 <= real_size bs ->
  tool_decompress_parallel dict wl D skip (ByMain :: ByMain :: l) (S (S n)) bs [] (header_only ws) (OF [] evs) =
  (OF [] evs, if wait_free dict wl D skip l false (begin_free (world_new D skip (make_header ws) ws (MRet DNeedIn) [] 16 (real_size bs))) then TError else TSpin).
Proof.
  intros WS RS. unfold tool_decompress_parallel. cbv zeta. set (b := real_size bs) in *. change (zlen (@nil Z)) with 0. replace (Z.max b 0) with b by lia.
  cbn [ploop ps_sched ps_on ps_d]. change (zskip 0 (@nil Z)) with (@nil Z). change (zlen (@nil Z)) with 0. rewrite !Z.sub_0_r. cbn [parallel_decode].
  assert (E1 : begin_call D skip pdec_new [] b = (PHeader hp_new, Some (0, DNeedIn))) by reflexivity. rewrite E1. cbn [dec_pres]. change (0 <? 0) with false. change (zlen (@nil Z)) with 0. replace (b <? 0) with false by (symmetry; apply Z.ltb_ge; lia). cbn [orb]. change (0 + 0 =? 0) with true. cbn iota. change (zlen (@nil Z)) with 0. replace (0 =? b) with false by (symmetry; apply Z.eqb_neq; lia). rewrite Z.sub_0_r.
  assert (ZH : zlen (make_header ws) = 16) by (unfold zlen; rewrite make_header_length; reflexivity).
  assert (RD : read_more (header_only ws) b = Some (make_header ws, [])). { unfold header_only. cbn [read_more source_read]. rewrite ZH, zfirst_all by lia. destruct (Z.ltb_spec b 16); [lia|reflexivity]. }
  rewrite RD. destruct (make_header ws) as [|y t] eqn:MH; [discriminate ZH|]. rewrite <- MH in *. cbn [app]. change (zskip 0 (make_header ws)) with (make_header ws). cbn [ps_sched ps_on ps_d]. change (zlen (@nil Z)) with 0. rewrite !Z.sub_0_r. cbn [parallel_decode].
  change (PHeader hp_new) with pdec_new. pose proof (header_call D skip ws WS [] b) as HC. rewrite app_nil_r in HC. rewrite HC, ZH. change (16 <? 16) with false. cbn iota. cbn [dec_pres]. rewrite ?Z.sub_0_r, ?ZH. change (16 <? 16) with false. change (zlen (@nil Z)) with 0. rewrite ?Z.sub_0_r. replace (b <? 0) with false by (symmetry; apply Z.ltb_ge; lia). cbn [orb]. change (0 + 16 =? 16) with true. cbn iota. change (zlen (@nil Z)) with 0. replace (0 =? b) with false by (symmetry; apply Z.eqb_neq; lia). cbn [read_more source_read]. cbn iota. reflexivity.
Qed.
Theorem C63_truncated_hangs_refuted : forall dict wl D skip ws bs n rest evs, 10 <= ws <= 24 -> 16 <= real_size bs ->
  tool_decompress_parallel dict wl D skip (ByMain :: ByMain :: ByWorker :: rest) (S (S n)) bs [] (header_only ws) (OF [] evs) = (OF [] evs, TSpin).
Proof.
  intros dict wl D skip ws bs n rest evs WS RS. rewrite header_loop by assumption. set (x := world_new _ _ _ _ _ _ _ _).
  assert (W : wanting (wd_w x) /\ in_call (wd_m x) = false). { destruct (new_waits D skip (make_header ws) ws (MRet DNeedIn) [] 16 (real_size bs)) as (_ & _ & _ & W1 & W2 & _ & _ & PC). split; [|reflexivity]. split; [exact W1|]. split; [exact W2|]. destruct PC as [PC|PC]; auto. }
  pose proof (hangs_free x (proj1 W) (proj2 W)) as H. cbn [wait_free turn]. destruct (hangs_step dict wl D skip ByWorker _ H) as (x' & E & H'). rewrite E, (wait_hangs _ _ _ _ _ _ H'). destruct H as (_ & W' & _). unfold free_returns. rewrite (wanting_ended _ W'). reflexivity.
Qed.
(** ... and otherwise it reports the error. *)
Theorem C63_truncated_race : forall dict wl D skip ws bs n rest evs, 10 <= ws <= 24 -> 16 <= real_size bs ->
  tool_decompress_parallel dict wl D skip (ByMain :: ByMain :: ByMain :: rest) (S (S n)) bs [] (header_only ws) (OF [] evs) = (OF [] evs, TError).
Proof.
  intros dict wl D skip ws bs n rest evs WS RS. rewrite header_loop by assumption. cbn [wait_free negb]. destruct (free_returns _); reflexivity.
Qed.
Print Assumptions C63_truncated_hangs_refuted.
Print Assumptions C63_truncated_race.

(** C63, the whole default: data compressed by the tool, and the result given to the tool
    with two threads, no option given either time: the data comes back. *)
Theorem C63_default_round_trip : forall dict wl g opt B (fe : frontend B) optimize b0, let ws := choose_window opt in
  cfg_ok g -> good_frontend dict wl real_dims g ws fe optimize b0 -> faithful dict ws fe optimize b0 -> hungry fe optimize b0 ->
  forall src bs, Forall honest src -> Forall (at_most (real_size bs)) src -> undisturbed src -> bytes (content src) -> faulty src = false -> 0 <= bs -> ~ looks_compressed (content src) ->
  exists fuel0 m0 n0, forall sched fuel m n evs, (fuel0 <= fuel)%nat -> (m0 <= m)%nat -> (n0 <= n)%nat -> writable_file evs ->
  exists f, tool_default dict wl real_dims g opt fe optimize b0 sched m fuel n bs false src (OF [] evs) = (f, TDone) /\
  forall g2 opt2 B2 (fe2 : frontend B2) optimize2 b02 src2, Forall honest src2 -> content src2 = f_got f -> faulty src2 = false ->
  exists n2 r2, forall m fuel bs2 evs2 n rounds, 0 <= bs2 -> writable_file evs2 -> (n2 <= n)%nat -> Forall fair_round rounds -> r2 + spurious (concat rounds) < zlen rounds ->
  exists f2, tool_default dict wl real_dims g2 opt2 fe2 optimize2 b02 (concat rounds) m fuel n bs2 false src2 (OF [] evs2) = (f2, TDone) /\ f_got f2 = content src.
Proof.
  intros dict wl g opt B fe optimize b0 ws G GF FF HG src bs HO AM U BX FA BS D0. destruct (C62_default_compress dict wl g opt fe optimize b0 G GF FF HG false src bs HO AM U BX BS (or_intror D0)) as (f0 & m0 & n0 & K). exists f0, m0, n0.
  intros sched fuel m n evs LF LM LN WF. destruct (K fuel m n evs LF LM LN) as (f & e & E & [(-> & _ & cmds & a & b & AC & ME & ST & IF)|(_ & [Q|Q])]); [|contradiction|congruence]. exists f. fold ws in AC, ST, IF, ME. split.
  - rewrite <- E. unfold tool_default, tool_compress_default. destruct (sniff [] src) as [(h, s)|] eqn:SN; [|reflexivity]. destruct (sniff_spec src [] h s HO ltac:(change (zlen (@nil Z)) with 0; lia) SN) as (E1 & _ & _ & E4 & _). cbn [app] in E1.
    destruct (is_divans h) eqn:ID; [|reflexivity]. contradiction D0. exact (proj1 (is_divans_ok (content src) h (content s) E1 ltac:(destruct E4 as [E4| ->]; auto)) ID).
  - intros g2 opt2 B2 fe2 optimize2 b02 src2 HO2 ET2 FA2. pose proof (proj1 C20_case) as BG.
    assert (LC : looks_compressed (content src2)) by (destruct IF as (W & _ & _ & TE); rewrite ET2, TE; unfold make_header, MAGIC_NUMBER; cbn [app]; eexists; reflexivity).
    destruct (sniff [] src2) as [(h, s)|] eqn:SN; [|rewrite (sniff_none _ _ SN) in FA2; discriminate FA2]. destruct (sniff_spec src2 [] h s HO2 ltac:(change (zlen (@nil Z)) with 0; lia) SN) as (E1 & E2 & E3 & E4 & _). cbn [app] in E1.
    destruct (tool_par dict wl real_dims g ws cmds a b false BG G (ThmHeader.choose_window_range opt) AC ST s E2) as (r0 & H). exists (S (weight s + Z.to_nat (zlen (meaning dict (window ws) cmds)))), r0. intros m2 fuel2 bs2 evs2 n' rounds BS2 WF2 LN2 FR LR.
    destruct (H (f_got f) [] [] h bs2 evs2 n' rounds IF ltac:(constructor) ltac:(rewrite !app_nil_r, E1; exact ET2) BS2 ltac:(lia) FR LR) as (f2 & e2 & EE & K2). exists f2.
    unfold tool_default. rewrite SN, (proj2 (is_divans_ok (content src2) h (content s) E1 ltac:(destruct E4 as [E4| ->]; auto)) LC), EE. destruct K2 as [(-> & K2 & _)|(_ & _ & [Q|[Q|Q]])]; [|contradiction|congruence|change (zlen (@nil Z)) with 0 in Q; lia]. split; [reflexivity|]. rewrite K2. exact ME.
Qed.
Print Assumptions C63_default_round_trip.

(** A case: the file of C33_case, read in two pieces, an interrupted read and short writes. *)
Example C63_case :
  let out := meaning demo_dict (window 10) (concat demo_batches) in
  let src := [SData (firstn 20 demo_file); SIntr; SData (skipn 20 demo_file ++ [1; 2; 3])] in
  let run sched src evs := tool_decompress_parallel demo_dict demo_wl (DIMS 4 4 4) false sched 200 7 [] src (OF [] evs) in
  let sched := concat (repeat [ByMain; ByWorker; ByWorker; WakeMain] 300) in
  run sched src [WTake 2; WIntr; WTake 100] = (OF out [], TDone) /\
  run sched [SData (firstn 20 demo_file)] [] = (OF [] [], TSpin).
Proof. vm_compute. split; reflexivity. Qed.
