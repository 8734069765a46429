(** C74: a command line that compresses and a command line that decompresses. *)
From Coq Require Import String Ascii.
From Verif Require Import Prelude ProofList ModelAns SpecAns ModelCdf SpecCdf ModelRecode SpecLz ModelMux SpecMux ProofZlist ModelCmd ModelCrc SpecCrc ModelHeader SpecHeader ProofHeader ModelPriors ModelCodec ModelLit ModelPm ModelTop SpecCodec SpecReplay SpecFile ModelEnc ThmCodec ThmEnc ModelDec SpecEnc SpecDec ThmDec ModelRaw ModelRawEnc SpecRawEnc ProofRawEnc2 ThmRawEnc ModelThread SpecThread ThmThread.
From Verif Require ThmHeader.
From Verif Require Import ModelIo SpecIo ProofIo ThmIo ModelHybrid SpecHybrid ModelTool SpecTool ProofTool ThmTool ModelToolHybrid ThmHybrid ThmToolHybrid ModelToolThread ProofToolThread ThmToolThread ModelText SpecText ProofText.
From Verif Require Import ModelArgs SpecArgs ProofArgs2 ThmArgs ModelLine SpecLine ProofLine.

Local Opaque codec_flush codec_encode.
Section Line.
Context (dict : dict_fn) (wl : word_len_fn) {B : Type} (fe : frontend B) (create : opts -> B) (optimize : opts -> metablock -> option metablock).
Local Notation run := (run_line dict wl real_dims fe create optimize).

(** data not taken for a file *)
Definition taken_as_data (p : plan) (src : list ModelIo.event) : Prop := p_force p = true \/ ~ looks_compressed (content src).
Lemma not_found p src : Forall honest src -> taken_as_data p src -> p_force p = true \/ forall h s, sniff [] src = Some (h, s) -> is_divans h = false.
Proof.
  intros HO [T|NL]; [left; exact T|right]. intros h s SN. destruct (sniff_spec src [] h s HO ltac:(change (zlen (@nil Z)) with 0; lia) SN) as (E1 & _ & _ & E4 & _). cbn [app] in E1.
  destruct (is_divans h) eqn:Q; [|reflexivity]. exfalso. apply NL. exact (proj1 (is_divans_ok (content src) h (content s) E1 ltac:(destruct E4 as [E4| ->]; auto)) Q).
Qed.
Lemma job_brotli p sched m fuel n src f : Forall honest src -> taken_as_data p src -> o_brotli (p_opts p) = true -> or_zero (ModelArgs.o_mixing (p_opts p)) < 15 ->
  compress_job dict wl real_dims fe create optimize p sched m fuel n src f =
  tool_compress_default dict wl real_dims (line_cfg (p_opts p)) (o_window (p_opts p)) fe (optimize (p_opts p)) (create (p_opts p)) m fuel n (p_buffer p) (p_force p) src f.
Proof.
  intros HO TD OB MX. unfold compress_job, tool_compress_default, shrink. rewrite OB. replace (or_zero (ModelArgs.o_mixing (p_opts p)) <? 15) with true by (symmetry; apply Z.ltb_lt; exact MX). cbn [negb].
  destruct (not_found p src HO TD) as [T|T]; [rewrite T; reflexivity|]. destruct (p_force p); [reflexivity|]. destruct (sniff [] src) as [(h, s)|]; [|reflexivity]. rewrite (T h s eq_refl). reflexivity.
Qed.
Lemma job_internal p sched m fuel n src f : Forall honest src -> taken_as_data p src -> o_brotli (p_opts p) = false -> or_zero (ModelArgs.o_mixing (p_opts p)) < 15 ->
  compress_job dict wl real_dims fe create optimize p sched m fuel n src f =
  tool_compress dict wl real_dims (line_cfg (p_opts p)) (o_window (p_opts p)) fuel n (p_buffer p) (p_force p) src f.
Proof.
  intros HO TD OB MX. unfold compress_job, tool_compress, shrink. rewrite OB. replace (or_zero (ModelArgs.o_mixing (p_opts p)) <? 15) with true by (symmetry; apply Z.ltb_lt; exact MX). cbn [negb].
  destruct (not_found p src HO TD) as [T|T]; [rewrite T; reflexivity|]. destruct (p_force p); [reflexivity|]. destruct (sniff [] src) as [(h, s)|]; [|reflexivity]. rewrite (T h s eq_refl). reflexivity.
Qed.
(** the compressing half *)
Lemma line_compresses args strs : sound_encoder dict wl fe create optimize -> proper args strs -> bearable args -> job_said args = JCompress ->
  forall src, Forall honest src -> Forall (at_most (real_size (buffer_said args))) src -> undisturbed src -> bytes (content src) ->
  (force_said args = true \/ ~ looks_compressed (content src)) -> (internal_said args = true -> zlen (content src) < 2 * 2 ^ choose_window (window_said args) - 1) ->
  exists fuel0 m0 n0, forall sched fuel m n evs, (fuel0 <= fuel)%nat -> (m0 <= m)%nat -> (n0 <= n)%nat ->
  exists f e, run strs sched m fuel n src (OF [] evs) = Some (f, e) /\
    (e = TDone /\ faulty src = false /\ (exists g ws cmds a b, cfg_ok g /\ ws = choose_window (window_said args) /\ acceptable dict wl real_dims g ws cmds /\ meaning dict (window ws) cmds = content src /\
       streams_of dict wl real_dims g ws cmds a b /\ is_file ws a b (f_got f)) \/
     e = TError /\ (~ writable_file evs \/ faulty src = true)).
Proof.
  intros SE (F & L & T) BE J src HO AM U BX D0 LX. destruct (C73_as_said args strs F L (or_introl T)) as (p & EM & AS). destruct (line_cfg_ok args strs _ p F AS BE) as (G & MX).
  pose proof (buffer_pos args strs F) as BP. pose proof AS as (EJ & _ & _ & _ & EB & EF & _ & _ & AO). cbv zeta in AO. destruct AO as (_ & EBR & _ & _ & _ & _ & _ & _ & EW & _).
  fold (buffer_said args) in EB. fold (force_said args) in EF. fold (internal_said args) in EBR. fold (window_said args) in EW. rewrite J in EJ.
  assert (TD : taken_as_data p src) by (unfold taken_as_data; rewrite EF; exact D0).
  unfold run_line. rewrite EM, EJ. destruct (internal_said args) eqn:IS; cbn [negb] in EBR.
  - specialize (LX eq_refl). set (X := content src) in *. pose proof (raw_acceptable dict wl (line_cfg (p_opts p)) (choose_window (window_said args)) X G (ThmHeader.choose_window_range _) BX LX) as AC. pose proof (proj1 C20_case) as BG.
    destruct (C28_streams_exist dict wl real_dims _ _ _ BG G AC) as (a & b & ST & _).
    assert (K : exists fuel0 n1, forall fuel n evs, (fuel0 <= fuel)%nat -> (n1 + 2 * length src <= n)%nat ->
      exists f e, tool_compress dict wl real_dims (line_cfg (p_opts p)) (o_window (p_opts p)) fuel n (p_buffer p) (p_force p) src (OF [] evs) = (f, e) /\
       (e = TDone /\ is_file (choose_window (window_said args)) a b (f_got f) /\ faulty src = false \/ e = TError /\ (~ writable_file evs \/ faulty src = true))).
    { rewrite EW, EB. destruct (p_force p) eqn:PF.
      - destruct (C56_compress_tool dict wl (line_cfg (p_opts p)) (window_said args) X a b G BX LX ST) as (f0 & n1 & H). exists f0, n1. intros fuel n evs LF LN. apply H; auto.
      - destruct TD as [TD|TD]; [congruence|]. destruct (C57_data_is_compressed dict wl (line_cfg (p_opts p)) (window_said args) X a b G BX TD LX ST) as (f0 & n1 & H). exists f0, n1. intros fuel n evs LF LN. apply H; auto. }
    destruct K as (f0 & n1 & K). exists f0, O, (n1 + 2 * length src)%nat. intros sched fuel m n evs LF _ LN. destruct (K fuel n evs LF LN) as (f & e & E & Q). exists f, e. split; [rewrite job_internal by assumption; rewrite E; reflexivity|].
    destruct Q as [(-> & IF & FA)|Q]; [left|right; exact Q]. split; [reflexivity|]. split; [exact FA|]. exists (line_cfg (p_opts p)), (choose_window (window_said args)), (raw_cmds real_dims (choose_window (window_said args)) X), a, b.
    split; [exact G|]. split; [reflexivity|]. split; [exact AC|]. split; [apply raw_meaning, Z.pow_nonneg; lia|]. split; assumption.
  - destruct (SE (p_opts p) G) as (GF & FF & HG). rewrite EW in GF, FF.
    destruct (C62_default_compress dict wl (line_cfg (p_opts p)) (window_said args) fe (optimize (p_opts p)) (create (p_opts p)) G GF FF HG (force_said args) src (buffer_said args) HO AM U BX BP D0) as (f0 & m0 & n0 & K).
    exists f0, m0, n0. intros sched fuel m n evs LF LM LN. destruct (K fuel m n evs LF LM LN) as (f & e & E & Q). exists f, e. split; [rewrite job_brotli by assumption; rewrite EW, EB, EF, E; reflexivity|].
    destruct Q as [(-> & FA & cmds & a & b & AC & ME & ST & IF)|Q]; [left|right; exact Q]. split; [reflexivity|]. split; [exact FA|]. exists (line_cfg (p_opts p)), (choose_window (window_said args)), cmds, a, b. auto 10.
Qed.

(** the decompressing half: a file, with anything after it *)
Lemma expands g ws cmds a b T tail threads skip bs : cfg_ok g -> 10 <= ws <= 24 -> acceptable dict wl real_dims g ws cmds -> streams_of dict wl real_dims g ws cmds a b -> is_file ws a b T -> bytes tail -> 0 <= bs ->
  forall extra src, Forall honest src -> extra ++ content src = T ++ tail ->
  exists fuel0 n0 r0, forall fuel n rounds evs, (fuel0 <= fuel)%nat -> (n0 <= n)%nat -> Forall fair_round rounds -> r0 + spurious (concat rounds) < zlen rounds ->
  exists f e, expand dict wl real_dims threads skip (concat rounds) fuel n bs extra src (OF [] evs) = (f, e) /\
    (e = TDone /\ f_got f = meaning dict (window ws) cmds \/ (e = TError \/ e = TSpin) /\ (exists more, meaning dict (window ws) cmds = f_got f ++ more) /\ (~ writable_file evs \/ faulty src = true)).
Proof.
  intros G WS AC ST IF BT BS extra src HO ET. pose proof (proj1 C20_case) as BG. destruct (tool_dec dict wl real_dims g ws cmds a b skip BG G WS AC ST) as (N & HS). destruct (tool_par dict wl real_dims g ws cmds a b skip BG G WS AC ST src HO) as (r0 & HP).
  destruct (file_starts dict wl real_dims g ws cmds a b skip BG G WS AC ST) as (N1 & HF). destruct (HF T IF) as (_ & _ & _ & _ & _ & BTT).
  exists N, (S (weight src + Z.to_nat (zlen (meaning dict (window ws) cmds)))), r0. intros fuel n rounds evs LF LN FR LR. unfold expand. destruct threads.
  - destruct (HP T tail [] extra bs evs n rounds IF BT ltac:(rewrite app_nil_r; exact ET) BS ltac:(lia) FR LR) as (f & e & E & K). exists f, e. split; [exact E|]. destruct K as [(K1 & K2 & _)|(K1 & K2 & K3)]; [left; auto|right]. split; [exact K1|]. split; [exact K2|].
    destruct K3 as [K3|[K3|K3]]; [left; intros NW; exact (NW K3)|right; exact K3|]. change (zlen (@nil Z)) with 0 in K3. pose proof (zlen_nonneg tail). lia.
  - pose proof (HS fuel T tail [] extra src bs evs n LF IF) as Q. rewrite app_nil_r in Q. specialize (Q ltac:(rewrite ET; apply Forall_app; auto) HO ET BS ltac:(lia)).
    destruct (tool_decompress _ _ _ _ _ _ _ _ _ _) as (f, e). exists f, e. split; [reflexivity|]. destruct Q as [(Q1 & Q2 & _)|(Q1 & Q2 & Q3)]; cbn [fst snd] in *; [left; auto|right]. split; [left; exact Q1|]. split; [exact Q2|].
    destruct Q3 as [Q3|[Q3|Q3]]; [left; intros NW; exact (NW Q3)|right; exact Q3|]. change (zlen (@nil Z)) with 0 in Q3. pose proof (zlen_nonneg tail). lia.
Qed.
(** C74, decompressing: every line that does, whatever else it says, on every file with
    anything after it: the original bytes; if a read or a write fails, a beginning. *)
Theorem C74_every_decompressing_line : forall args strs, proper args strs -> decompresses args ->
  forall g ws cmds a b T tail, cfg_ok g -> 10 <= ws <= 24 -> acceptable dict wl real_dims g ws cmds -> streams_of dict wl real_dims g ws cmds a b -> is_file ws a b T -> bytes tail ->
  forall src, Forall honest src -> content src = T ++ tail ->
  exists fuel0 n0 r0, forall m fuel n rounds evs, (fuel0 <= fuel)%nat -> (n0 <= n)%nat -> Forall fair_round rounds -> r0 + spurious (concat rounds) < zlen rounds ->
  exists f e, run strs (concat rounds) m fuel n src (OF [] evs) = Some (f, e) /\
    (e = TDone /\ f_got f = meaning dict (window ws) cmds \/ (e = TError \/ e = TSpin) /\ (exists more, meaning dict (window ws) cmds = f_got f ++ more) /\ (~ writable_file evs \/ faulty src = true)).
Proof.
  intros args strs (F & L & TI) DJ g ws cmds a b T tail G WS AC ST IF BT src HO ET. destruct (C73_as_said args strs F L (or_introl TI)) as (p & EM & (EJ & _ & _ & _ & EB & EF & _)). fold (buffer_said args) in EB. fold (force_said args) in EF.
  pose proof (buffer_pos args strs F) as BP. unfold run_line. rewrite EM, EJ. destruct DJ as [-> |(-> & FS)].
  - destruct (expands g ws cmds a b T tail (p_threads p) (p_skipcrc p) (p_buffer p) G WS AC ST IF BT ltac:(rewrite EB; exact BP) [] src HO ET) as (f0 & n0 & r0 & K). exists f0, n0, r0. intros m fuel n rounds evs LF LN FR LR.
    destruct (K fuel n rounds evs LF LN FR LR) as (f & e & E & Q). exists f, e. split; [|exact Q]. unfold decompress_job. rewrite E. reflexivity.
  - rewrite FS in EF. unfold compress_job. rewrite EF. assert (LC : looks_compressed (content src)) by (destruct IF as (W & _ & _ & TE); rewrite ET, TE; unfold make_header, MAGIC_NUMBER; cbn [app]; eexists; reflexivity).
    destruct (sniff [] src) as [(h, s)|] eqn:SN.
    + destruct (sniff_spec src [] h s HO ltac:(change (zlen (@nil Z)) with 0; lia) SN) as (E1 & E2 & E3 & E4 & _). cbn [app] in E1. rewrite (proj2 (is_divans_ok (content src) h (content s) E1 ltac:(destruct E4 as [E4| ->]; auto)) LC).
      destruct (expands g ws cmds a b T tail (p_threads p) false (p_buffer p) G WS AC ST IF BT ltac:(rewrite EB; exact BP) h s E2 ltac:(rewrite E1; exact ET)) as (f0 & n0 & r0 & K). exists f0, n0, r0. intros m fuel n rounds evs LF LN FR LR.
      destruct (K fuel n rounds evs LF LN FR LR) as (f & e & E & Q). exists f, e. split; [rewrite E; reflexivity|]. rewrite <- E3. exact Q.
    + exists O, O, 0. intros m fuel n rounds evs _ _ _ _. exists (OF [] evs), TError. split; [reflexivity|]. right. split; [auto|]. split; [eexists; reflexivity|right; exact (sniff_none _ _ SN)].
Qed.

(** C74.  Every line that compresses, with settings the format can carry, and then every
    line that decompresses, each with any options, in any order and written in any way:
    the data comes back. *)
Theorem C74_round_trip : forall args strs, sound_encoder dict wl fe create optimize -> proper args strs -> bearable args -> job_said args = JCompress ->
  forall src, Forall honest src -> Forall (at_most (real_size (buffer_said args))) src -> undisturbed src -> bytes (content src) -> faulty src = false ->
  (force_said args = true \/ ~ looks_compressed (content src)) -> (internal_said args = true -> zlen (content src) < 2 * 2 ^ choose_window (window_said args) - 1) ->
  exists fuel0 m0 n0, forall sched fuel m n evs, (fuel0 <= fuel)%nat -> (m0 <= m)%nat -> (n0 <= n)%nat -> writable_file evs ->
  exists f, run strs sched m fuel n src (OF [] evs) = Some (f, TDone) /\
  forall args2 strs2 src2, proper args2 strs2 -> decompresses args2 -> Forall honest src2 -> content src2 = f_got f -> faulty src2 = false ->
  exists fuel2 n2 r2, forall m fuel n rounds evs2, (fuel2 <= fuel)%nat -> (n2 <= n)%nat -> Forall fair_round rounds -> r2 + spurious (concat rounds) < zlen rounds -> writable_file evs2 ->
  exists f2, run strs2 (concat rounds) m fuel n src2 (OF [] evs2) = Some (f2, TDone) /\ f_got f2 = content src.
Proof.
  intros args strs SE PR BE J src HO AM U BX FA D0 LX. destruct (line_compresses args strs SE PR BE J src HO AM U BX D0 LX) as (f0 & m0 & n0 & K). exists f0, m0, n0.
  intros sched fuel m n evs LF LM LN WF. destruct (K sched fuel m n evs LF LM LN) as (f & e & E & [(-> & _ & g & ws & cmds & a & b & G & EW & AC & ME & ST & IF)|(_ & [Q|Q])]); [|contradiction|congruence]. exists f. split; [exact E|].
  intros args2 strs2 src2 PR2 DJ HO2 ET2 FA2. pose proof (ThmHeader.choose_window_range (window_said args)) as WR. rewrite <- EW in WR.
  destruct (C74_every_decompressing_line args2 strs2 PR2 DJ g ws cmds a b (f_got f) [] G WR AC ST IF ltac:(constructor) src2 HO2 ltac:(rewrite app_nil_r; exact ET2)) as (f2 & n2 & r2 & K2). exists f2, n2, r2.
  intros m' fuel' n' rounds evs2 LF2 LN2 FR LR WF2. destruct (K2 m' fuel' n' rounds evs2 LF2 LN2 FR LR) as (f' & e' & E' & [(-> & Q)|(_ & _ & [Q|Q])]); [|contradiction|congruence]. exists f'. split; [exact E'|]. rewrite Q. exact ME.
Qed.
(** A line that is no command line the tool acts on writes nothing: a third name, a number
    out of range. *)
Theorem C74_refused_line : forall strs sched m fuel n src f, main strs = MPanic -> run strs sched m fuel n src f = Some (f, TPanic).
Proof. intros strs sched m fuel n src f E. unfold run_line. rewrite E. reflexivity. Qed.
End Line.
Print Assumptions C74_every_decompressing_line.
Print Assumptions C74_round_trip.
Print Assumptions C74_refused_line.

(** The settings matter: these lines are accepted, and with them the tool panics, on no
    input at all. *)
Definition on_nothing (l : list string) (fuel n : nat) : option (outfile * tend) :=
  run_line demo_dict demo_wl real_dims store (fun _ => ([], false)) (fun _ => Some) (map str l) [] 0 fuel (S (S n)) [] (OF [] []).
Theorem C74_mixing_refuted : (match main (map str ["-nobrotli"; "-c"; "-bs64"; "-mixing=8"]%string) with MRun p => p_job p = JCompress | _ => False end) /\
  forall fuel n, option_map snd (on_nothing ["-nobrotli"; "-c"; "-bs64"; "-mixing=8"]%string fuel n) = Some TPanic.
Proof.
  split; [vm_compute; reflexivity|]. intros fuel n. do 4 (destruct fuel as [|fuel]; [vm_compute; reflexivity|]). vm_compute. reflexivity.
Qed.
Theorem C74_depth_refuted : (match main (map str ["-nobrotli"; "-c"; "-bs64"; "-p16"]%string) with MRun p => p_job p = JCompress | _ => False end) /\
  forall fuel n, option_map snd (on_nothing ["-nobrotli"; "-c"; "-bs64"; "-p16"]%string fuel n) = Some TPanic.
Proof.
  split; [vm_compute; reflexivity|]. intros fuel n. do 4 (destruct fuel as [|fuel]; [vm_compute; reflexivity|]). vm_compute. reflexivity.
Qed.
Print Assumptions C74_mixing_refuted.
Print Assumptions C74_depth_refuted.

(** -skipcrc without -d is ignored: on a file with a wrong checksum, and nothing else
    wrong, the tool left to find the direction reports an error, told it succeeds. *)
Definition wrong_sum : list Z := firstn 69 demo_file ++ [0; 0; 0; 0] ++ skipn 73 demo_file.
Definition serially (l : list string) (file : list Z) : option (outfile * tend) :=
  run_line demo_dict demo_wl (DIMS 4 4 4) store (fun _ => ([], false)) (fun _ => Some) (map str l) [] 0 300 300 [SData file] (OF [] []).
Theorem C74_skipcrc_alone_refuted : serially ["-serial"; "-skipcrc"]%string wrong_sum = Some (OF [] [], TError) /\
  serially ["-serial"; "-skipcrc"; "-d"]%string wrong_sum = (serially ["-serial"]%string demo_file) /\ option_map snd (serially ["-serial"]%string demo_file) = Some TDone.
Proof. vm_compute. split; [reflexivity|]. split; reflexivity. Qed.
Print Assumptions C74_skipcrc_alone_refuted.

(** A case: [store] for the encoder; a line with names, a speed, a mixing value, a prior
    depth and a window; then no option at all, two threads. *)
Lemma store_sound dict wl : sound_encoder dict wl store (fun _ => ([], false)) (fun _ => Some).
Proof. intros o G. cbv zeta. split; [apply store_good, G|]. split; [apply store_faithful|]. apply eager_hungry, store_eager. Qed.
Lemma turn_about r : exists rounds, Forall fair_round rounds /\ r + spurious (concat rounds) < zlen rounds.
Proof.
  exists (repeat [ByMain; ByWorker] (S (Z.to_nat r))). split.
  - apply Forall_forall. intros x I. apply repeat_spec in I. subst x. split; cbn [In]; auto.
  - assert (E : forall k, spurious (concat (repeat [ByMain; ByWorker] k)) = 0) by (induction k as [|k IH]; [reflexivity|exact IH]). rewrite E. unfold zlen. rewrite repeat_length. lia.
Qed.
Definition said_line : list arg := [AName (str "in"); ASpeed 1 (384, 16384); AMixing 2; ADepth 3; AWindow 12; ABuffer 500; AContextMap false; AName (str "out")].
Definition written_line : list (list Z) := map str ["in"; "-speed=ROCKET"; "-mixing=2"; "-p3"; "-window=12"; "-bs500"; "-nocm"; "out"]%string.
Lemma line_written : Forall2 spelled said_line written_line.
Proof.
  unfold said_line, written_line. cbn [map]. constructor; [exact (sp_name 105 (str "n") ltac:(discriminate))|].
  constructor; [exact (sp_speed 1 (384, 16384) (str "ROCKET") ltac:(lia) ltac:(left; cbn [speed_words In]; tauto))|].
  constructor; [apply (sp_number AMixing (str "-mixing=") 255 2 (str "2")); [cbn [In]; tauto|split; [discriminate|]; split; [repeat constructor; vm_compute; discriminate|reflexivity]|lia]|].
  constructor; [apply (sp_number ADepth (str "-p") 255 3 (str "3")); [cbn [In]; tauto|split; [discriminate|]; split; [repeat constructor; vm_compute; discriminate|reflexivity]|lia]|].
  constructor; [apply (sp_number AWindow (str "-window=") 2147483647 12 (str "12")); [cbn [In]; tauto|split; [discriminate|]; split; [repeat constructor; vm_compute; discriminate|reflexivity]|lia]|].
  constructor; [apply (sp_number ABuffer (str "-bs") 18446744073709551615 500 (str "500")); [cbn [In]; tauto|split; [discriminate|]; split; [repeat constructor; vm_compute; discriminate|reflexivity]|lia]|].
  constructor; [apply (sp_word (AContextMap false) (str "-nocm")); cbn [In]; tauto|].
  constructor; [exact (sp_name 111 (str "ut") ltac:(discriminate))|constructor].
Qed.
Example C74_case : forall dict wl, exists fuel m n f src2 fuel2 n2 sched f2,
  run_line dict wl real_dims store (fun _ => ([], false)) (fun _ => Some) written_line [] m fuel n [SData (repeat 65 400); SData (repeat 66 300)] (OF [] [WTake 3; WIntr; WTake 7]) = Some (f, TDone) /\ content src2 = f_got f /\
  run_line dict wl real_dims store (fun _ => ([], false)) (fun _ => Some) [] sched m fuel2 n2 src2 (OF [] [WIntr; WTake 7]) = Some (f2, TDone) /\ f_got f2 = repeat 65 400 ++ repeat 66 300.
Proof.
  intros dict wl. set (src := [SData (repeat 65 400); SData (repeat 66 300)]).
  assert (CE : content src = repeat 65 400 ++ repeat 66 300) by (cbn [src content]; rewrite app_nil_r; reflexivity).
  assert (NL : ~ looks_compressed (content src)) by (intros (rest & Q); rewrite CE in Q; discriminate Q).
  assert (BX : bytes (content src)). { rewrite CE. apply Forall_forall. intros z Q. apply in_app_or in Q. destruct Q as [Q|Q]; apply repeat_spec in Q; subst z; unfold byte; clear; lia. }
  assert (HO : Forall honest src) by (repeat (constructor; [exact Logic.I|]); constructor).
  assert (AM : Forall (at_most (real_size (buffer_said said_line))) src) by (repeat (constructor; [unfold at_most, zlen; rewrite repeat_length; vm_compute; discriminate|]); constructor).
  assert (U : undisturbed src) by (intros [Q|[Q|[]]]; discriminate Q).
  assert (BE : bearable said_line). { split; [reflexivity|]. split; [reflexivity|]. intros place inc lim I. cbn [said_line In] in I. repeat (destruct I as [I|I]; [try discriminate I|]); [|destruct I]. assert (inc = 384 /\ lim = 16384) as (-> & ->) by (split; congruence). lia. }
  assert (PR : proper said_line written_line) by (split; [exact line_written|]; split; [cbn; lia|reflexivity]).
  destruct (C74_round_trip dict wl store (fun _ => ([], false)) (fun _ => Some) said_line written_line (store_sound dict wl) PR BE eq_refl src HO AM U BX eq_refl (or_intror NL) ltac:(discriminate)) as (fuel & m & n & K).
  assert (WF : writable_file [WTake 3; WIntr; WTake 7]) by (intros [Q|[Q|[Q|[]]]]; discriminate Q). assert (WF2 : writable_file [WIntr; WTake 7]) by (intros [Q|[Q|[]]]; discriminate Q).
  destruct (K [] fuel m n _ (le_n _) (le_n _) (le_n _) WF) as (f & E & K2).
  assert (PR2 : proper [] []) by (split; [constructor|]; split; [cbn; lia|reflexivity]).
  set (src2 := match f_got f with [] => [] | l => [SData l] end). assert (E2 : content src2 = f_got f) by (unfold src2; destruct (f_got f); [reflexivity|cbn [content]; apply app_nil_r]).
  assert (HO2 : Forall honest src2) by (unfold src2; destruct (f_got f); [constructor|constructor; [exact Logic.I|constructor]]). assert (FA2 : faulty src2 = false) by (unfold src2; destruct (f_got f); reflexivity).
  destruct (K2 [] [] src2 PR2 (or_intror (conj eq_refl eq_refl)) HO2 E2 FA2) as (fuel2 & n2 & r2 & K3). destruct (turn_about r2) as (rounds & FR & LR).
  destruct (K3 m fuel2 n2 rounds _ (le_n _) (le_n _) FR LR WF2) as (f2 & E3 & G2). rewrite CE in G2. exists fuel, m, n, f, src2, fuel2, n2, (concat rounds), f2. auto.
Qed.
