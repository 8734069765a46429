(** C64: the C API with its defaults, brotli's front end and two threads. *)
From Verif Require Import Prelude ProofList ModelAns SpecAns ModelCdf SpecCdf ModelRecode SpecLz ModelMux SpecMux ProofZlist ModelCmd ModelCrc SpecCrc ModelHeader SpecHeader ProofHeader ModelPriors ModelCodec ModelPm ModelTop SpecCodec SpecReplay SpecFile ModelEnc ThmCodec ModelDec SpecEnc SpecDec ThmDec ModelRaw ModelRawEnc SpecRawEnc ModelThread SpecThread ProofThread5 ProofThread6 ThmThread.
From Verif Require ThmHeader ModelIo.
From Verif Require Import ThmEnc ModelFfi ModelHybrid SpecHybrid ThmHybrid ModelToolThread ProofToolThread ThmToolThread ModelCapi SpecCapi ProofCapi ThmCapi ProofCapiThread.

(** C64, decompressing.  A decompressor made by divans_new_decompressor works with two
    threads.  Given a complete file with anything after it, in any pieces, with output
    buffers of any sizes and anything in front of the offsets, under every schedule that
    gives each thread enough turns, with any number of spurious wake-ups: no call panics,
    hangs or returns code 3, writes outside the range its offsets report, or asks for input
    or space that is still there; what comes out is a beginning of the original, and all of
    it when code 0 is returned, which happens when enough calls with some room follow the
    end of the file; exactly the file is consumed then, and divans_free_decompressor
    returns, whatever happens next. *)
Theorem C64_two_threads : forall dict wl D g ws cmds a b skip,
  big D -> cfg_ok g -> 10 <= ws <= 24 -> acceptable dict wl D g ws cmds -> streams_of dict wl D g ws cmds a b ->
  exists rounds0, forall T tail calls future rounds, is_file ws a b T -> bytes tail -> c_offered calls ++ future = T ++ tail -> Forall sensible calls ->
    Forall fair_round rounds -> rounds0 + 10 * zlen calls + spurious (concat rounds) < zlen rounds ->
  exists out rest v p, cpsession dict wl D skip (PS pdec_new false (concat rounds)) [] calls = Some (out, rest, v, p) /\ v <> Broken /\
    (exists more, meaning dict (window ws) cmds = out ++ more) /\
    (v = Finished -> out = meaning dict (window ws) cmds /\ c_offered calls = T ++ rest /\ c_free_parallel dict wl D skip p = true) /\
    (forall calls1 calls2 y, calls = calls1 ++ calls2 -> c_offered calls1 = T ++ y -> Forall (fun c => 1 <= c_room c) calls2 ->
       zlen (meaning dict (window ws) cmds) < zlen calls2 -> v = Finished).
Proof.
  intros dict wl D g ws cmds a b skip B G WS AC ST. destruct (par_starts dict wl D g ws cmds a b skip B G WS AC ST) as (N & H). set (out := meaning dict (window ws) cmds) in *.
  exists (N0 N). intros T tail calls future rounds IF BT ET SE FR LR. destruct (H T IF) as (W & Tr & -> & TRE & AS & BTT).
  assert (PI : pinv dict wl D skip ws W Tr out N (length calls) (PS pdec_new false (concat rounds)) (make_header ws ++ W ++ Tr) []).
  { exists (N0 N). split; [|exists [], rounds; split; [reflexivity|]; split; [exact FR|left; cbn [ps_sched]; fold (zlen calls); lia]]. exists []. split; [reflexivity|]. cbn [ps_d pdec_new]. split; [exists [], (make_header ws); split; [exact hp_new_inv|auto]|]. split; [reflexivity|lia]. }
  destruct (cpsession_spec dict wl D skip ws WS W Tr out N TRE AS BTT tail BT future calls _ _ _ [] PI ET SE) as (o & left & v & p & E & NB & P & F & L). cbn [app] in *.
  exists o, left, v, p. split; [exact E|]. split; [exact NB|]. split; [exact P|]. split.
  - intros Q. destruct (F Q) as (F1 & F2 & (w & F3 & F4)). split; [exact F1|]. split; [exact F2|]. destruct p as [d on l]. cbn [ps_d] in F3. subst d. apply free_ended, F4.
  - intros c1 c2 y Q1 Q2 Q3 Q4. apply (L c1 c2 y Q1 Q2 Q3). change (zlen (@nil Z)) with 0. lia.
Qed.
Print Assumptions C64_two_threads.

(** C64, no freeing in between.  After a first call that brought the sixteen bytes of a
    header, a decompressor that is freed once its second thread has started is never
    freed: the call does not return, whatever happens next. *)
Theorem C64_free_mid_stream_refuted : forall dict wl D skip ws rest buf, 10 <= ws <= 24 ->
  exists p, c_decode_parallel dict wl D skip (PS pdec_new false (ByMain :: ByWorker :: rest)) (make_header ws) 0 buf 0 = Some (DIVANS_NEEDS_MORE_INPUT, 16, buf, 0, p) /\
    c_free_parallel dict wl D skip p = false.
Proof.
  intros dict wl D skip ws rest buf WS. unfold c_decode_parallel. assert (ZH : zlen (make_header ws) = 16) by (unfold zlen; rewrite make_header_length; reflexivity).
  rewrite ZH. unfold assert. change ((0 <=? 0) && (0 <=? 16)) with true. pose proof (zlen_nonneg buf). replace ((0 <=? 0) && (0 <=? zlen buf)) with true by (symmetry; apply andb_true_intro; rewrite !Z.leb_le; lia). cbn iota.
  change (zskip 0 (make_header ws)) with (make_header ws). cbn [ps_sched ps_on ps_d parallel_decode]. pose proof (header_call D skip ws WS [] (zlen buf - 0)) as HC. rewrite app_nil_r in HC. rewrite HC, ZH. change (16 <? 16) with false. cbn iota. cbn [bind ModelIo.dec_pres pres_code ModelFfi.code].
  change (zlen (@nil Z)) with 0. replace (0 + 0 <=? zlen buf) with true by (symmetry; apply Z.leb_le; lia). eexists. split; [reflexivity|].
  set (x := world_new _ _ _ _ _ _ _ _). unfold c_free_parallel, parallel_free. cbn [ps_d ps_sched ps_on].
  assert (W : wanting (wd_w x) /\ in_call (wd_m x) = false). { destruct (new_waits D skip (make_header ws) ws (MRet DNeedIn) [] 16 (zlen buf - 0)) as (_ & _ & _ & W1 & W2 & _ & _ & PC). split; [|reflexivity]. split; [exact W1|]. split; [exact W2|]. destruct PC as [PC|PC]; auto. }
  pose proof (hangs_free x (proj1 W) (proj2 W)) as HG. cbn [wait_free turn]. destruct (hangs_step dict wl D skip ByWorker _ HG) as (x' & E & H'). rewrite E, (wait_hangs _ _ _ _ _ _ H'). destruct HG as (_ & W' & _). unfold free_returns. rewrite (wanting_ended _ W'). reflexivity.
Qed.
Print Assumptions C64_free_mid_stream_refuted.

(** C64, the whole default.  Any options in any order (refused ones included) that leave
    the command selection with brotli (the default), a context mixing below 8 and a prior
    depth below 16; an encoder that keeps brotli's contract.  divans_encode in any pieces
    with any buffers, then divans_encode_flush: no panic, no code 3, no byte written outside
    the reported range, no false call for space; with enough calls that have room code 0.
    The output, given to a decompressor with one thread or with two, in any pieces and
    buffers, yields exactly the input. *)
Lemma start_brotli {B} (create : opts -> B) o : o_use_brotli o <> UseInternalCommandSelection -> unwrap_or 0 (o_mixing o) < 15 ->
  c_started real_dims create (OptionStage o) = Some (Brotli o (hybrid_new real_dims (create o) (o_window_size o))).
Proof. intros UB M. unfold c_started, started, start. destruct (o_use_brotli o); [contradiction UB; reflexivity|..]; unfold new_brotli, assert; (destruct (Z.ltb_spec (unwrap_or 0 (o_mixing o)) 15); [reflexivity|lia]). Qed.
Theorem C64_default_round_trip : forall dict wl B (fe : frontend B) create optimize l o, let ws := choose_window (o_window_size o) in
  Forall (fun p => 0 <= snd p) l -> configure l = @OptionStage (option (@comp B)) o ->
  o_use_brotli o <> UseInternalCommandSelection -> unwrap_or 0 (o_mixing o) < 8 -> unwrap_or 0 (o_prior_depth o) < 16 ->
  good_frontend dict wl real_dims (cfg_of o) ws fe (optimize o) (create o) -> faithful dict ws fe (optimize o) (create o) ->
  forall calls, Forall sensible calls -> bytes (c_offered calls) ->
  exists fuel0 flushes0, forall fuel flushes, (fuel0 <= fuel)%nat -> Forall sensible flushes ->
  exists T v, clsession dict wl real_dims fe create optimize fuel (configure l) [] calls flushes = Some (T, v) /\ v <> HBroken /\
    (v <> HLeft -> Forall (fun c => 1 <= c_room c) flushes -> flushes0 < zlen flushes -> v = HFinished) /\
    (eager fe -> forall calls1 calls2, calls = calls1 ++ calls2 -> c_offered calls2 = [] -> zlen (c_offered calls1) <= zlen calls2 -> v <> HLeft) /\
    (v = HFinished -> forall skip, exists fuel2 rounds2, forall fuel dcalls future rounds, (fuel2 <= fuel)%nat -> c_offered dcalls ++ future = T -> Forall sensible dcalls ->
       Forall fair_round rounds -> rounds2 + 10 * zlen dcalls + spurious (concat rounds) < zlen rounds ->
       exists out rest v out2 rest2 v2 p, cdsession dict wl real_dims skip fuel decompressor_new [] dcalls = Some (out, rest, v) /\ v <> Broken /\
         cpsession dict wl real_dims skip (PS pdec_new false (concat rounds)) [] dcalls = Some (out2, rest2, v2, p) /\ v2 <> Broken /\
         (exists more, c_offered calls = out ++ more) /\ (exists more, c_offered calls = out2 ++ more) /\
         (v = Finished -> out = c_offered calls /\ future = [] /\ rest = []) /\
         (v2 = Finished -> out2 = c_offered calls /\ future = [] /\ rest2 = [] /\ c_free_parallel dict wl real_dims skip p = true) /\
         (forall calls1 calls2, dcalls = calls1 ++ calls2 -> c_offered calls1 = T -> Forall (fun c => 1 <= c_room c) calls2 ->
            zlen (c_offered calls) < zlen calls2 -> v = Finished /\ v2 = Finished)).
Proof.
  intros dict wl B fe create optimize l o ws F C UB MX PD GF FF calls SC BX. pose proof (sane_cfg o (configured l o F C) MX PD) as G. pose proof (start_brotli create o UB ltac:(lia)) as ST. pose proof (proj1 C20_case) as BG.
  assert (SR : forall c, sensible c -> 0 <= c_room c) by (unfold sensible, c_room; intros; lia).
  assert (RR : forall cs, Forall sensible cs -> Forall (fun c => 0 <= snd c) (map (fun c => (c_piece c, c_room c)) cs)).
  { intros cs S. apply Forall_forall. intros x I. apply in_map_iff in I as (c & <- & I). rewrite Forall_forall in S. apply SR, S, I. }
  set (mc := map (fun c => (c_piece c, c_room c))). fold mc in RR. change (forall cs, Forall sensible cs -> Forall (fun c => 0 <= snd c) (mc cs)) in RR.
  destruct (C61_default_file dict wl real_dims (cfg_of o) (o_window_size o) B fe (optimize o) (create o) BG G GF FF (mc calls)) as (fuel0 & n0 & m0 & H); [unfold mc; rewrite offered_map; exact BX|apply RR, SC|].
  exists (Nat.max fuel0 n0), m0. intros fuel flushes LE SF.
  assert (RF : Forall (fun r => 0 <= r) (map c_room flushes)). { apply Forall_forall. intros x I. apply in_map_iff in I as (c & <- & I). rewrite Forall_forall in SF. apply SR, SF, I. }
  destruct (H fuel fuel (map c_room flushes) ltac:(lia) ltac:(lia) RF) as (T & v & S & NB & V1 & V2 & V3). exists T, v. split; [rewrite C; eapply clsession_eq; eassumption|]. split; [exact NB|]. split; [|split].
  - intros NL R1 L1. apply V2; [exact NL|apply Forall_map; exact R1|rewrite zlen_map; exact L1].
  - intros EG c1 c2 Q1 Q2 Q3. apply (V3 EG (mc c1) (mc c2)); unfold mc; [rewrite Q1; apply map_app|rewrite offered_map; exact Q2|rewrite offered_map, zlen_map; exact Q3].
  - intros Q skip. destruct (V1 Q) as (cmds & a & b & AC & ME & SO & IF). unfold mc in ME. rewrite offered_map in ME. assert (WS : 10 <= ws <= 24) by (apply ThmHeader.choose_window_range).
    destruct (C27_decode_any_file dict wl real_dims (cfg_of o) ws cmds a b skip BG G WS AC SO) as (f2 & H2). destruct (C64_two_threads dict wl real_dims (cfg_of o) ws cmds a b skip BG G WS AC SO) as (r2 & H3). fold ws in ME. rewrite ME in H2, H3.
    exists f2, r2. intros fuel' dcalls future rounds LF EI SD FR LR.
    destruct (H2 T [] fuel' (mc dcalls) future LF IF ltac:(constructor) ltac:(rewrite app_nil_r; unfold mc; rewrite offered_map; exact EI) (RR _ SD)) as (o1 & rest1 & v1 & E1 & NB1 & P1 & F1 & L1).
    destruct (H3 T [] dcalls future rounds IF ltac:(constructor) ltac:(rewrite app_nil_r; exact EI) SD FR LR) as (o2 & rest2 & v2 & p & E2 & NB2 & P2 & F2 & L2).
    assert (FU : forall r, c_offered dcalls = T ++ r -> future = [] /\ r = []). { intros r OT. rewrite OT, <- app_assoc in EI. rewrite <- (app_nil_r T) in EI at 2. apply app_inv_head in EI. apply app_eq_nil in EI. tauto. }
    exists o1, rest1, v1, o2, rest2, v2, p. split; [apply cdsession_eq; assumption|]. split; [exact NB1|]. split; [exact E2|]. split; [exact NB2|]. split; [exact P1|]. split; [exact P2|]. split; [|split].
    + intros X. destruct (F1 X) as (O & OT). split; [exact O|]. apply FU. unfold mc in OT. rewrite offered_map in OT. exact OT.
    + intros X. destruct (F2 X) as (O & OT & FE). split; [exact O|]. destruct (FU _ OT) as (A1 & A2). split; [exact A1|]. split; [exact A2|exact FE].
    + intros c1 c2 Q1 Q2 Q3 Q4. split.
      * apply (L1 (mc c1) (mc c2) []); unfold mc; [rewrite Q1; apply map_app|rewrite offered_map, app_nil_r; exact Q2|apply Forall_map; exact Q3|rewrite zlen_map; exact Q4].
      * apply (L2 c1 c2 [] Q1); [rewrite app_nil_r; exact Q2|exact Q3|exact Q4].
Qed.
Print Assumptions C64_default_round_trip.

(** Code 1 does not mean that the input was taken, as it does with the internal command
    selection (C51): an encoder that keeps the contract may stop when its own output buffer
    is full.  A program that drops its input on code 1 loses the rest. *)
Theorem C64_code_one_refuted : forall dict wl optimize fuel outb outoff, exists s,
  good_frontend dict wl real_dims (cfg_of opts_default) 22 store Some ([], false) /\ faithful dict 22 store Some ([], false) /\
  c_encode dict wl real_dims store (fun _ => ([], false)) optimize fuel cs_new (repeat 65 1001) 0 outb outoff = Some (DIVANS_NEEDS_MORE_INPUT, 1000, outb, outoff, s).
Proof.
  intros dict wl optimize fuel outb outoff. assert (G : cfg_ok (cfg_of opts_default)) by (apply sane_cfg; [exact default_sane|reflexivity|reflexivity]).
  unfold c_encode. change (@cs_new (option (@comp (list (list Z) * bool)))) with (@OptionStage (option (@comp (list (list Z) * bool))) opts_default). rewrite (start_brotli (fun _ => ([], false)) opts_default ltac:(discriminate) ltac:(reflexivity)). cbn [bind].
  assert (ZL : zlen (repeat 65 1001) = 1001) by (unfold zlen; rewrite repeat_length; reflexivity). rewrite ZL. unfold assert. change ((0 <=? 0) && (0 <=? 1001)) with true. cbn iota. change (zskip 0 (repeat 65 1001)) with (repeat 65 1001).
  unfold hybrid_encode, internal_encode_stream. cbn [hybrid_new h_b h_cm h_bsize h_bcap h_data h_cap h_off store b_step b_finished snd]. rewrite andb_false_r.
  unfold store_step. cbn [fst]. rewrite ZL. change (Z.min 1000 1001) with 1000. change (1000 <? 1001) with true. cbn iota. cbn [callbacks bind]. rewrite Z.sub_diag. change (0 =? 0) with true. cbn [negb andb bind pres_code ModelFfi.code].
  eexists. split; [apply store_good, G|]. split; [apply store_faithful|]. reflexivity.
Qed.
Print Assumptions C64_code_one_refuted.

(** Cases: two threads on the file of C33_case in two pieces, three bytes after it, and a
    session with the default options that ends with code 0. *)
Example C64_case :
  let out := meaning demo_dict (window 10) (concat demo_batches) in
  let run calls := match cpsession demo_dict demo_wl (DIMS 4 4 4) false (PS pdec_new false (concat (repeat [ByMain; ByWorker; ByWorker; WakeMain] 300))) [] (with_buffers calls) with
    | Some (o, r, v, p) => Some (o, r, v, c_free_parallel demo_dict demo_wl (DIMS 4 4 4) false p) | None => None end in
  run ((firstn 20 demo_file, 3) :: (skipn 20 demo_file ++ [1; 2; 3], 3) :: repeat ([], 3) 60) = Some (out, [1; 2; 3], Finished, true) /\
  run [(firstn 20 demo_file, 3)] = Some ([], [], Waiting, false).
Proof. vm_compute. split; reflexivity. Qed.
Example C64_default_case : forall dict wl, let opt := fun _ : opts => @Some metablock in exists fuel flushes T,
  clsession dict wl real_dims store (fun _ => ([], false)) opt fuel (configure []) [] (with_buffers ((repeat 65 1500, 0) :: repeat ([], 0) 1500)) flushes = Some (T, HFinished).
Proof.
  intros dict wl opt. set (calls := with_buffers ((repeat 65 1500, 0) :: repeat ([], 0) 1500)). assert (G : cfg_ok (cfg_of opts_default)) by (apply sane_cfg; [exact default_sane|reflexivity|reflexivity]).
  assert (OW : forall k, c_offered (with_buffers (repeat ([], 0) k)) = []) by (induction k as [|k IH]; [reflexivity|exact IH]).
  assert (OC : c_offered calls = repeat 65 1500) by (change (c_offered calls) with (repeat 65 1500 ++ c_offered (with_buffers (repeat ([], 0) 1500))); rewrite OW; apply app_nil_r).
  assert (SW : forall l, Forall (fun p => 0 <= snd p) l -> Forall sensible (with_buffers l)).
  { intros l H. unfold with_buffers. apply Forall_map. eapply Forall_impl; [|exact H]. intros [p r] R. cbn [snd] in R. unfold sensible. cbn [c_at c_buf snd]. unfold zlen. rewrite repeat_length. lia. }
  destruct (C64_default_round_trip dict wl _ store (fun _ => ([], false)) opt [] opts_default ltac:(constructor) eq_refl ltac:(discriminate) ltac:(reflexivity) ltac:(reflexivity) (store_good dict wl _ 22 G) (store_faithful dict 22) calls) as (fuel & m0 & K).
  { apply SW. constructor; [cbn [snd]; lia|]. apply Forall_forall. intros z Q. apply repeat_spec in Q. subst z. cbn [snd]. lia. }
  { rewrite OC. apply Forall_forall. intros z Q. apply repeat_spec in Q. subst z. unfold byte. lia. }
  set (fl := repeat (CALL [] [] [7; 7] 1) (S (Z.to_nat m0))).
  assert (RF : Forall (fun c => sensible c /\ 1 <= c_room c) fl) by (apply Forall_forall; intros z Q; apply repeat_spec in Q; subst z; vm_compute; intuition congruence).
  destruct (K fuel fl (le_n _)) as (T & v & S & _ & V1 & V2 & _); [eapply Forall_impl; [|exact RF]; cbn beta; tauto|]. exists fuel, fl, T. rewrite S. f_equal. f_equal. apply V1.
  - apply (V2 store_eager (with_buffers [(repeat 65 1500, 0)]) (with_buffers (repeat ([], 0) 1500)) eq_refl (OW _)). change (c_offered (with_buffers [(repeat 65 1500, 0)])) with (repeat 65 1500 ++ []). rewrite app_nil_r. unfold with_buffers. rewrite zlen_map. unfold zlen. rewrite !repeat_length. apply Z.le_refl.
  - eapply Forall_impl; [|exact RF]. cbn beta. tauto.
  - unfold fl, zlen. rewrite repeat_length. clear. lia.
Qed.
