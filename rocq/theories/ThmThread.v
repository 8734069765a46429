(** The decompressor with two threads: every schedule of the two. *)
From Verif Require Import Prelude ProofList ModelAns SpecAns ModelCdf SpecCdf ModelRecode SpecLz ModelMux SpecMux ProofZlist ProofMux ProofMuxW ModelCmd ModelCrc SpecCrc ModelHeader SpecHeader ProofHeader ModelPriors ModelCodec ModelLit ModelPm ModelTop SpecCodec SpecReplay SpecFile ModelEnc ProofEnc3 ProofEnc4 ThmCodec ThmEnc ModelDec SpecEnc SpecDec ProofDec6 ProofDec7 ThmDec ModelThread SpecThread ProofThread2 ProofThread4 ProofThread5 ProofThread6.

(** C33.  [T] is any complete file for the commands [cmds], [tail] anything that may
    follow it; the user's calls offer input in any pieces and output space of any size.
    Under every schedule of the two threads, with any number of spurious wake-ups at any
    points: nothing panics or fails; the two are never both blocked while a call is under
    way; what the calls have put out is a beginning of what the commands stand for; when
    a call reports success it is all of it, exactly the file has been consumed and the
    worker thread has ended.  And every call returns: there is a bound such that once
    that many rounds have given each thread a turn, no matter in which order and how
    often, success has been reported or all calls have returned — success if, as with the
    serial decompressor (C27), more calls with some space followed the end of the file
    than there are bytes to put out. *)
Theorem C33_every_schedule : forall dict wl D g ws cmds a b skip,
  big D -> cfg_ok g -> 10 <= ws <= 24 -> acceptable dict wl D g ws cmds -> streams_of dict wl D g ws cmds a b ->
  exists rounds0, forall T tail calls future, is_file ws a b T -> bytes tail ->
    offered calls ++ future = T ++ tail -> Forall (fun c => 0 <= snd c) calls ->
  (forall sched, exists s, trun dict wl D skip sched (tsess_new calls) = Some s /\ ts_v s <> Broken /\ ~ stuck s /\
    (exists more, meaning dict (window ws) cmds = ts_out s ++ more) /\
    (ts_v s = Finished -> ts_out s = meaning dict (window ws) cmds /\ offered calls = T ++ ts_rest s ++ offered (ts_calls s) /\
       exists x, ts_d s = PDecode x /\ ended (wd_w x) = true /\ in_call (wd_m x) = false)) /\
  (forall rounds, Forall fair_round rounds -> rounds0 + 10 * zlen calls + spurious (concat rounds) < zlen rounds ->
    exists s, trun dict wl D skip (concat rounds) (tsess_new calls) = Some s /\ over s /\
      (forall calls1 calls2 x, calls = calls1 ++ calls2 -> offered calls1 = T ++ x -> Forall (fun c => 1 <= snd c) calls2 ->
         zlen (meaning dict (window ws) cmds) < zlen calls2 -> ts_v s = Finished)).
Proof.
  intros dict wl D g ws cmds a b skip B G WS AC ST.
  assert (BAB : bytes a /\ bytes b). { destruct ST as (f & c & es & _ & W & EA & EB). split; [exact (BA es a W EA)|exact (ProofEnc4.BB es b W EB)]. }
  destruct (start dict wl D skip ws WS g cmds a b B G AC ST) as (N & H). exists (N0 N). intros T tail calls future (W & FRM & _ & ->) BT EI RM.
  assert (BH : bytes (make_header ws)) by (apply header_bytes; unfold byte; lia).
  pose proof (framing_framed _ _ _ FRM) as FR.
  assert (BW : bytes W). { destruct FR as (fs & GG & -> & P0 & P1). apply bytes_app; [apply enc_bytes; [exact GG|rewrite P0; apply BAB|rewrite P1; apply BAB]|]. apply Forall_cons; [unfold byte; lia|]. apply Forall_cons; [unfold byte; lia|]. apply Forall_cons; [unfold byte; lia|]. apply Forall_nil. }
  destruct (H W FR BW _ eq_refl) as (n & ci & ces & outsW & les & PV & CO). set (Tr := trailer (crc32c 0 (make_header ws ++ W))) in *.
  assert (AS : starts dict wl D skip ws W Tr (meaning dict (window ws) cmds) N) by (exists n, (pm_new D), ci, ces, outsW, a, b, les; split; [exact PV|exact CO]).
  assert (BTr : bytes Tr).
  { unfold Tr, trailer. apply Forall_app. split; [apply le_bytes|]. apply Forall_cons; [unfold byte; lia|]. apply Forall_cons; [unfold byte; lia|]. apply Forall_cons; [unfold byte; lia|]. apply Forall_cons; [unfold byte; lia|]. apply Forall_nil. }
  assert (BTT : bytes (make_header ws ++ W ++ Tr)) by (apply bytes_app; [exact BH|]; apply bytes_app; [exact BW|exact BTr]).
  pose proof (tinv_start dict wl D skip ws W Tr (meaning dict (window ws) cmds) N tail calls future) as TI0. split.
  - intros sched. destruct (run_good dict wl D skip ws WS W Tr (meaning dict (window ws) cmds) N eq_refl AS BTT tail BT calls future EI RM sched _ _ TI0) as (s & E & [F|(P & TI & _)]); exists s; (split; [exact E|]).
    + destruct F as (F1 & F2 & F3 & F4 & F5). rewrite F1, F2. split; [discriminate|]. split; [intros (X & _); rewrite X in F1; discriminate F1|]. split; [exists []; symmetry; apply app_nil_r|]. intros _. split; [reflexivity|]. split; [exact F4|]. destruct (ts_d s) as [h|x]; [contradiction F5|]. exists x. split; [reflexivity|exact F5].
    + split; [destruct TI as (-> & _); discriminate|]. split; [eapply tinv_not_stuck; eassumption|]. split; [eapply tinv_prefix; eassumption|]. destruct TI as (-> & _). discriminate.
  - intros rounds FR0 L. destruct (rounds_good dict wl D skip ws WS W Tr (meaning dict (window ws) cmds) N eq_refl AS BTT tail BT calls future EI RM rounds _ _ TI0 FR0 L) as (s & E & O). exists s. split; [exact E|]. split; [exact O|].
    intros calls1 calls2 x EC EX R1 LL. destruct (run_good dict wl D skip ws WS W Tr (meaning dict (window ws) cmds) N eq_refl AS BTT tail BT calls future EI RM (concat rounds) _ _ TI0) as (s2 & E2 & [F|(P & TI & _)]); rewrite E in E2; injection E2 as <-; [apply F|].
    assert (LE : zlen calls2 <= zlen (meaning dict (window ws) cmds)) by (eapply tinv_over; eassumption). lia.
Qed.
(** A case: the file of [C27_case], seven bytes and room for three at a time, with the
    two threads taking turns (the worker running ahead, spurious wake-ups included). *)
Definition tview (s : option tsess) : option (verdict * list Z * list Z) := match s with Some s => Some (ts_v s, ts_out s, ts_rest s) | None => None end.
Definition demo_file : list Z := Eval vm_compute in match session demo_dict demo_wl (DIMS 4 4 4) demo_cfg 200 (compressor_new (DIMS 4 4 4) (Some 3)) demo_batches (repeat 5 40) with Some (T, Finished) => T | _ => [] end.
Example C33_case_file : session demo_dict demo_wl (DIMS 4 4 4) demo_cfg 200 (compressor_new (DIMS 4 4 4) (Some 3)) demo_batches (repeat 5 40) = Some (demo_file, Finished).
Proof. vm_compute. reflexivity. Qed.
Example C33_case : tview (trun demo_dict demo_wl (DIMS 4 4 4) false (concat (repeat [ByMain; ByWorker; ByWorker; WakeMain] 300)) (tsess_new (pieces 60 7 3 demo_file))) = Some (Finished, meaning demo_dict (window 10) (concat demo_batches), []).
Proof. vm_compute. reflexivity. Qed.

(** What C33 does not promise: a file whose streams end before the commands do.  The
    sixteen header bytes, the end marker at once and any eight trailing bytes, the right
    checksum included: the call never returns, under any schedule, whereas the serial
    decompressor asks for more input ([C33_serial_returns]). *)
Theorem C33_missing_commands_hang : forall dict wl D skip ws tr room more sched, 10 <= ws <= 24 -> length tr = 8%nat ->
  exists s, trun dict wl D skip sched (tsess_new ((make_header ws ++ [255; 254; 255] ++ tr, room) :: more)) = Some s /\ ts_v s = Waiting /\
    (In ByMain sched -> ts_call s <> None) /\ ts_calls s = (if existsb (fun e => match e with ByMain => true | _ => false end) sched then more else (make_header ws ++ [255; 254; 255] ++ tr, room) :: more).
Proof.
  intros dict wl D skip ws tr room more sched WS L.
  assert (RUN : forall sched s, ts_v s = Waiting -> ts_call s <> None -> (exists x, ts_d s = PDecode x /\ (dead x \/ fresh ws tr room x)) -> exists s', trun dict wl D skip sched s = Some s' /\ ts_v s' = Waiting /\ ts_call s' <> None /\ ts_calls s' = ts_calls s).
  { clear sched. induction sched as [|e sched IH]; intros s V C (x & TD & H); [exists s; auto|]. cbn [trun].
    assert (ST : exists x', step dict wl D skip e x = Some x' /\ (dead x' \/ fresh ws tr room x')).
    { destruct H as [H|H]; [destruct (dead_step dict wl D skip e x H) as (x' & E & H'); exists x'; auto|exact (fresh_step dict wl D skip ws tr room e x L H)]. }
    destruct ST as (x' & ES & H').
    assert (NR : forall r, tm_pc (wd_m x') <> MRet r).
    { intros r E. destruct H' as [(_ & H')|(_ & crc & H')]; [apply no_commands_call in H'; unfold in_call in H'; rewrite E in H'; discriminate H'|rewrite H' in E; discriminate E]. }
    assert (TE : tevent dict wl D skip e s = Some (TS (PDecode x') (ts_call s) (ts_rest s) (ts_calls s) (ts_out s) Waiting)).
    { unfold tevent. rewrite V, TD. destruct (ts_call s) as [[i r]|]; [|contradiction C; reflexivity]. rewrite ES. cbn [bind]. destruct e; destruct (tm_pc (wd_m x')) eqn:PC; try reflexivity; exfalso; exact (NR _ eq_refl). }
    rewrite TE. cbn [bind]. exact (IH (TS (PDecode x') (ts_call s) (ts_rest s) (ts_calls s) (ts_out s) Waiting) eq_refl C (ex_intro _ x' (conj eq_refl H'))). }
  induction sched as [|e sched IH].
  - exists (tsess_new ((make_header ws ++ [255; 254; 255] ++ tr, room) :: more)). split; [reflexivity|]. split; [reflexivity|]. split; [intros []|reflexivity].
  - destruct e; cbn [trun tevent tsess_new ts_v ts_call ts_calls ts_d pdec_new bind existsb orb].
    2,3,4: destruct IH as (s & E & V & C & CS); exists s; (split; [exact E|]); (split; [exact V|]); (split; [|exact CS]); intros [X|X]; [discriminate X|exact (C X)].
    rewrite app_nil_l, (header_call D skip ws WS). assert (ZT : 16 <? zlen (make_header ws ++ [255; 254; 255] ++ tr) = true).
    { apply Z.ltb_lt. unfold zlen. rewrite !app_length, make_header_length, L. cbn. lia. }
    rewrite ZT. cbn [bind].
    destruct (RUN sched (TS (PDecode (world_new D skip (make_header ws) ws MIn ([255; 254; 255] ++ tr) 16 room)) (Some (make_header ws ++ [255; 254; 255] ++ tr, room)) [] more [] Waiting) eq_refl ltac:(discriminate)) as (s' & E & V & C & CS).
    { eexists. split; [reflexivity|]. right. split; [apply new_waits|]. eexists. reflexivity. }
    exists s'. split; [exact E|]. split; [exact V|]. split; [intros _; exact C|exact CS].
Qed.
(** [C33_missing_commands_hang] on a literal file, and the serial decompressor on it *)
Definition bad_file : list Z := make_header 10 ++ [255; 254; 255] ++ trailer (crc32c 0 (make_header 10 ++ [255; 254; 255])).
Example C33_serial_returns : match dsession demo_dict demo_wl (DIMS 4 4 4) false 1000 decompressor_new [] [(bad_file, 100)] with Some r => Some r | None => None end = Some ([], [], Waiting).
Proof. vm_compute. reflexivity. Qed.
Example C33_stuck_case : match trun demo_dict demo_wl (DIMS 4 4 4) false (concat (repeat [ByMain; ByWorker] 6)) (tsess_new [(bad_file, 100)]) with Some s => match ts_d s with PDecode x => Some (ts_v s, match ts_call s with Some _ => true | None => false end, tm_st (wd_m x), tw_st (wd_w x)) | _ => None end | None => None end = Some (Waiting, true, Asleep, Asleep).
Proof. vm_compute. reflexivity. Qed.

(** C34.  A decompressor that has reported success, or has not read its header, is freed
    at once, whatever the schedule. *)
Theorem C34_free_after_success : forall dict wl D g ws cmds a b skip T tail calls future sched s sched2,
  big D -> cfg_ok g -> 10 <= ws <= 24 -> acceptable dict wl D g ws cmds -> streams_of dict wl D g ws cmds a b ->
  is_file ws a b T -> bytes tail -> offered calls ++ future = T ++ tail -> Forall (fun c => 0 <= snd c) calls ->
  trun dict wl D skip sched (tsess_new calls) = Some s -> ts_v s = Finished \/ (exists h, ts_d s = PHeader h) -> freed dict wl D skip sched2 (ts_d s) = true.
Proof.
  intros dict wl D g ws cmds a b skip T tail calls future sched s sched2 B G WS AC ST FL BT EI RM E H. destruct H as [F|(h & ->)]; [|reflexivity].
  destruct (C33_every_schedule dict wl D g ws cmds a b skip B G WS AC ST) as (r0 & C). destruct (C T tail calls future FL BT EI RM) as (S & _). destruct (S sched) as (s2 & E2 & _ & _ & _ & X). rewrite E in E2. injection E2 as <-.
  destruct (X F) as (_ & _ & x & -> & EN & IC). exact (freed_ended dict wl D skip sched2 x EN IC).
Qed.
(** ... but not one that is freed in between.  While the worker, once started, wants bytes
    it does not have, free does not return, under any schedule: ... *)
Theorem C34_free_while_worker_wants : forall dict wl D skip x sched, wanting (wd_w x) -> in_call (wd_m x) = false -> freed dict wl D skip sched (PDecode x) = false.
Proof. intros. apply freed_hangs; assumption. Qed.
(** ... so freeing a decompressor that has just read its header never returns, once the
    worker thread has had a turn. *)
Theorem C34_free_mid_stream_refuted : forall dict wl D skip ws room sched, 10 <= ws <= 24 -> 0 <= room -> In ByWorker sched ->
  exists s, trun dict wl D skip (ByMain :: sched) (tsess_new [(make_header ws, room)]) = Some s /\ ts_v s = Waiting /\ over s /\
    forall sched2, freed dict wl D skip sched2 (ts_d s) = false.
Proof.
  intros dict wl D skip ws room sched WS R0 _. cbn [trun tevent tsess_new ts_v ts_call ts_calls ts_d pdec_new ts_rest]. rewrite app_nil_l. pose proof (header_call D skip ws WS [] room) as HC. rewrite app_nil_r in HC. fold pdec_new. rewrite HC.
  assert (ZH : zlen (make_header ws) = 16) by (unfold zlen; rewrite make_header_length; reflexivity). rewrite ZH. change (16 <? 16) with false. cbn iota. unfold returned. change (zlen (@nil Z)) with 0. rewrite ZH. replace (room <? 0) with false by (symmetry; apply Z.ltb_ge; lia). change ((false || (16 <? 0)) || (16 <? 16)) with false. change (16 <? 16) with false. cbn [bind].
  assert (RUN : forall sched s x, ts_v s = Waiting -> ts_call s = None -> ts_calls s = [] -> ts_d s = PDecode x -> waits (wd_sh x) (wd_w x) -> in_call (wd_m x) = false -> exists s' x', trun dict wl D skip sched s = Some s' /\ ts_v s' = Waiting /\ over s' /\ ts_d s' = PDecode x' /\ waits (wd_sh x') (wd_w x') /\ in_call (wd_m x') = false).
  { clear. induction sched as [|e sched IH]; intros s x V C CS TD W IC; [exists s, x; do 2 (split; [auto|]); split; [right; auto|auto]|]. cbn [trun].
    assert (ST : exists x', step dict wl D skip e x = Some x' /\ waits (wd_sh x') (wd_w x') /\ in_call (wd_m x') = false).
    { destruct x as [sh w m]. cbn [wd_sh wd_w wd_m] in *. unfold step. cbn [wd_sh wd_w wd_m]. rewrite IC, (waits_ended _ _ W). destruct e.
      - exists (WD sh w m). split; [destruct (tm_st m); reflexivity|split; assumption].
      - assert (GO : exists x', (let? '(s0, w0, note) := wstep wl D (leave_wait (tw_st w) sh) (tw_set_st w Awake) in Some (WD s0 w0 (if note then tm_set_st m (wake (tm_st m)) else m))) = Some x' /\ waits (wd_sh x') (wd_w x') /\ in_call (wd_m x') = false).
        { destruct (leave_q (tw_st w) sh) as (L1 & L2 & L3). pose proof W as (Q & SF & SE & _).
          destruct (waits_step wl D (leave_wait (tw_st w) sh) (tw_set_st w Awake)) as (s' & t' & -> & W'); [apply (waits_q sh); [exact W|congruence|congruence|congruence]|]. cbn [bind]. eexists. split; [reflexivity|]. split; [exact W'|exact IC]. }
        destruct (tw_st w); [exact GO| |exact GO]. exists (WD sh w m). split; [reflexivity|split; assumption].
      - eexists. split; [reflexivity|]. split; [exact W|exact IC].
      - eexists. split; [reflexivity|]. split; [exact W|exact IC]. }
    destruct ST as (x' & ES & W' & IC').
    assert (TE : exists s', tevent dict wl D skip e s = Some s' /\ ts_v s' = Waiting /\ ts_call s' = None /\ ts_calls s' = [] /\ (ts_d s' = PDecode x' \/ ts_d s' = PDecode x)).
    { unfold tevent. rewrite V, C, CS, TD, ES. destruct e; [exists s; auto 10| | |]; (cbn [bind]; eexists; split; [reflexivity|]; auto). }
    destruct TE as (s' & -> & V' & C' & CS' & [TD'|TD']); cbn [bind]; [exact (IH s' x' V' C' CS' TD' W' IC')|exact (IH s' x V' C' CS' TD' W IC)]. }
  edestruct RUN as (s' & x' & E & V & O & TD & W & IC); [..|exists s'; split; [exact E|]]; try reflexivity.
  - apply new_waits.
  - split; [exact V|]. split; [exact O|]. rewrite TD. intros sched2. apply freed_hangs; [|exact IC]. destruct W as (_ & _ & _ & ST & WM & _ & _ & PC). split; [exact ST|]. split; [exact WM|]. destruct PC as [PC|PC]; auto.
Qed.
Print Assumptions C33_every_schedule.
Print Assumptions C33_missing_commands_hang.
Print Assumptions C34_free_after_success.
Print Assumptions C34_free_while_worker_wants.
Print Assumptions C34_free_mid_stream_refuted.
