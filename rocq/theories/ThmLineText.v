(** C75: a text compressed and decompressed, and the text replayed, each by a command line. *)
From Coq Require Import String Ascii.
From Verif Require Import Prelude ProofList ModelAns SpecAns ModelCdf SpecCdf ModelRecode SpecLz ModelMux SpecMux ProofZlist ModelCmd ModelCrc SpecCrc ModelHeader SpecHeader ProofHeader ModelPriors ModelCodec ModelLit ModelPm ModelTop SpecCodec SpecReplay SpecFile ModelEnc ThmCodec ThmEnc ModelDec SpecEnc SpecDec ThmDec ModelThread SpecThread ThmThread.
From Verif Require ThmHeader.
From Verif Require Import ModelIo SpecIo ModelHybrid SpecHybrid ModelTool SpecTool ThmTool ThmHybrid ThmToolHybrid ModelText SpecText ProofText ThmText.
From Verif Require Import ModelArgs SpecArgs ProofArgs2 ThmArgs ModelLine SpecLine ProofLine ThmLine ModelLineText SpecLineText.

Local Opaque codec_flush codec_encode.
Lemma coded_replayable dict wl D g len : sizes_agree dict wl -> forall cmds old, Forall (replayable dict len) cmds -> Forall (replayable dict len) (coded_all wl D g old cmds).
Proof.
  intros SA. induction cmds as [|c cmds IH]; intros old F; [constructor|]. apply Forall_cons_iff in F. destruct F as (R & F). cbn [coded_all]. constructor; [|apply IH, F].
  destruct c; cbn [coded replayable] in *; auto. destruct R as (w & E & L & _). exists w. split; [exact E|]. split; [exact L|]. right. destruct (SA _ _ _ _ E) as (-> & Q). apply Z.mod_small. pose proof (zlen_nonneg w). lia.
Qed.
Lemma in_range_window w : 10 <= w <= 24 -> choose_window (Some w) = w.
Proof. intros W. unfold choose_window. destruct (Z.ltb_spec w 10), (Z.ltb_spec 24 w); lia. Qed.
Lemma file_writable evs : writable_file evs -> forall e, In e evs -> e <> WFault.
Proof. intros W e I Q. subst e. apply W, I. Qed.

Section Lines.
Context (dict : dict_fn) (wl : word_len_fn) {B : Type} (fe : frontend B) (create : opts -> B) (optimize : opts -> metablock -> option metablock).
Local Notation run := (run_line dict wl real_dims fe create optimize).
Local Notation run_text := (run_text_line dict wl real_dims).

(** C75, compressing a text and decompressing the result: the window is the one named in
    the text, moved into 10..24, whatever the lines say of windows. *)
Theorem C75_text_round_trip : forall args strs, sizes_agree dict wl -> proper args strs -> bearable args -> job_said args = JText ->
  forall w cmds, sayable dict strs (choose_window (Some w)) cmds ->
  exists fuel0 n0, forall fuel n src evs, (fuel0 <= fuel)%nat -> (n0 <= n)%nat -> text w cmds src -> good_output evs ->
  exists f, run_text strs fuel n src (OF [] evs) = Some (f, TDone) /\
  forall args2 strs2 src2, proper args2 strs2 -> decompresses args2 -> Forall honest src2 -> content src2 = f_got f -> faulty src2 = false ->
  exists fuel2 n2 r2, forall m fuel n rounds evs2, (fuel2 <= fuel)%nat -> (n2 <= n)%nat -> Forall fair_round rounds -> r2 + spurious (concat rounds) < zlen rounds -> writable_file evs2 ->
  exists f2, run strs2 (concat rounds) m fuel n src2 (OF [] evs2) = Some (f2, TDone) /\ f_got f2 = meaning dict (window (choose_window (Some w))) cmds.
Proof.
  intros args strs SA (F & L & TI) BE J w cmds ((p & EM & EN) & RE). destruct (C73_as_said args strs F L (or_introl TI)) as (p' & EM' & AS). assert (p' = p) by congruence. subst p'. clear EM'.
  destruct (line_cfg_ok args strs _ p F AS BE) as (G & MX). pose proof AS as (EJ & _). rewrite J in EJ. pose proof (proj1 C20_case) as BG.
  assert (AC : acceptable dict wl real_dims (line_cfg (p_opts p)) (choose_window (Some w)) cmds) by (split; [exact EN|apply coded_replayable; assumption]).
  destruct (C28_streams_exist dict wl real_dims _ _ _ BG G AC) as (a & b & ST & _). destruct (C59_text_is_compressed dict wl real_dims _ w cmds a b BG G AC ST) as (fuel0 & n0 & HC).
  exists fuel0, n0. intros fuel n src evs LF LN TX GO. destruct (HC fuel n src (OF [] evs) LF LN TX) as (f & e & E & [(o & -> & EO & IF)|(_ & Q)]); [|contradiction]. cbn [f_got app] in EO.
  exists f. split; [unfold run_text_line, text_job; rewrite EM, EJ; replace (or_zero (o_mixing (p_opts p)) <? 15) with true by (symmetry; apply Z.ltb_lt; exact MX); rewrite E; reflexivity|].
  intros args2 strs2 src2 PR2 DJ HO2 ET2 FA2.
  destruct (C74_every_decompressing_line dict wl fe create optimize args2 strs2 PR2 DJ _ _ cmds a b o [] G (ThmHeader.choose_window_range (Some w)) AC ST IF ltac:(constructor) src2 HO2 ltac:(rewrite app_nil_r; congruence)) as (f2 & n2 & r2 & K2). exists f2, n2, r2.
  intros m' fuel' n' rounds evs2 LF2 LN2 FR LR WF2. destruct (K2 m' fuel' n' rounds evs2 LF2 LN2 FR LR) as (f' & e' & E' & [(-> & Q)|(_ & _ & [Q|Q])]); [|contradiction|congruence]. exists f'. split; [exact E'|exact Q].
Qed.
(** C75.  The two ways from a text to bytes agree: compressed by any line that does, with
    settings the format can carry, and decompressed by any line that does; or replayed by
    any line that does. *)
Theorem C75_text_lines_agree : forall args strs args3 strs3, sizes_agree dict wl -> proper args strs -> bearable args -> job_said args = JText -> proper args3 strs3 -> job_said args3 = JRecode ->
  forall w cmds, 10 <= w <= 24 -> sayable dict strs w cmds ->
  exists fuel0 n0, forall fuel n src evs evs3, (fuel0 <= fuel)%nat -> (n0 <= n)%nat -> text w cmds src -> good_output evs -> good_output evs3 ->
  exists f f3, run_text strs fuel n src (OF [] evs) = Some (f, TDone) /\ run_text strs3 fuel n src (OF [] evs3) = Some (f3, TDone) /\
  forall args2 strs2 src2, proper args2 strs2 -> decompresses args2 -> Forall honest src2 -> content src2 = f_got f -> faulty src2 = false ->
  exists fuel2 n2 r2, forall m fuel n rounds evs2, (fuel2 <= fuel)%nat -> (n2 <= n)%nat -> Forall fair_round rounds -> r2 + spurious (concat rounds) < zlen rounds -> writable_file evs2 ->
  exists f2, run strs2 (concat rounds) m fuel n src2 (OF [] evs2) = Some (f2, TDone) /\ f_got f2 = f_got f3 /\ f_got f3 = meaning dict (window w) cmds.
Proof.
  intros args strs args3 strs3 SA PR BE J (F3 & L3 & T3) J3 w cmds W SY. pose proof (in_range_window w W) as EW.
  destruct (C75_text_round_trip args strs SA PR BE J w cmds ltac:(rewrite EW; exact SY)) as (fa & na & KA). destruct (C60_text_is_replayed dict w cmds W (proj2 SY)) as (fb & nb & KB).
  destruct (C73_as_said args3 strs3 F3 L3 (or_introl T3)) as (p3 & EM3 & (EJ3 & _)). rewrite J3 in EJ3.
  exists (Nat.max fa fb), (Nat.max na nb). intros fuel n src evs evs3 LF LN TX GO GO3. destruct (KA fuel n src evs ltac:(lia) ltac:(lia) TX GO) as (f & E & K).
  destruct (KB fuel n src (OF [] evs3) ltac:(lia) ltac:(lia) TX) as (f3 & e3 & E3 & [(-> & G3)|(_ & Q)]); [|contradiction]. cbn [f_got app] in G3. exists f, f3. split; [exact E|]. split; [unfold run_text_line; rewrite EM3, EJ3, E3; reflexivity|].
  intros args2 strs2 src2 PR2 DJ HO2 ET2 FA2. destruct (K args2 strs2 src2 PR2 DJ HO2 ET2 FA2) as (f2 & n2 & r2 & K2). exists f2, n2, r2.
  intros m' fuel' n' rounds evs2 LF2 LN2 FR LR WF2. destruct (K2 m' fuel' n' rounds evs2 LF2 LN2 FR LR WF2) as (f' & E' & Q). rewrite EW in Q. exists f'. split; [exact E'|]. split; congruence.
Qed.
(** C75, the bound of the claim: a text that names a window outside 10..24 is compressed
    by the first theorem, and replaying it is an error that writes nothing. *)
Theorem C75_far_window_not_replayed : forall args strs, proper args strs -> job_said args = JRecode ->
  forall w cmds src fuel n f, text w cmds src -> ~ 10 <= w <= 24 -> run_text strs fuel n src f = Some (f, TError).
Proof.
  intros args strs (F & L & TI) J w cmds src fuel n f TX W. destruct (C73_as_said args strs F L (or_introl TI)) as (p & EM & (EJ & _)). rewrite J in EJ. unfold run_text_line. rewrite EM, EJ, (C60_window_out_of_range dict w cmds src fuel n f TX W). reflexivity.
Qed.
(** Every line is for one of the two kinds of input. *)
Theorem C75_every_line_runs : forall args strs, proper args strs ->
  forall sched m fuel n src lines f, (exists r, run strs sched m fuel n src f = Some r) <-> ~ exists r, run_text strs fuel n lines f = Some r.
Proof.
  intros args strs (F & L & TI) sched m fuel n src lines f. destruct (C73_as_said args strs F L (or_introl TI)) as (p & EM & _). unfold run_line, run_text_line. rewrite EM.
  destruct (p_job p); split; intros H; try (destruct H as (r & Q); discriminate Q); try (exfalso; apply H; eexists; reflexivity); try (eexists; reflexivity); intros (r & Q); discriminate Q.
Qed.
(** A line with a third name, or with a number that does not fit, is refused by a panic
    for either kind of input, and nothing is written. *)
Theorem C75_refused_line : forall args strs bad rest, Forall2 spelled args strs ->
  (length (names args) = 2%nat /\ spelled (AName bad) bad) \/ ((length (names args) <= 2)%nat /\ exists pre max n d, In (pre, max) ranges /\ numeral n d /\ max < n /\ bad = pre ++ d) ->
  forall sched m fuel n src lines f, run (strs ++ [bad] ++ rest) sched m fuel n src f = Some (f, TPanic) /\ run_text (strs ++ [bad] ++ rest) fuel n lines f = Some (f, TPanic).
Proof.
  intros args strs bad rest F H sched m fuel n src lines f.
  assert (E : main (strs ++ [bad] ++ rest) = MPanic).
  { destruct H as [(L & SP)|(L & pre & max & k & d & I & N & O & ->)]; [exact (C73_third_name args strs bad rest F L SP)|exact (C73_number_out_of_range args strs pre max k d rest F L I N O)]. }
  unfold run_line, run_text_line. rewrite E. split; reflexivity.
Qed.
End Lines.
Print Assumptions C75_refused_line.
Print Assumptions C75_text_round_trip.
Print Assumptions C75_text_lines_agree.
Print Assumptions C75_far_window_not_replayed.
Print Assumptions C75_every_line_runs.

(** A text whose dictionary command names a wrong size is compressed as if it named the
    right one, and replaying it panics. *)
Definition lying : list line_event := [LnText (str "window 10"); LnText (str "dict 5 word 4,1 func 0")].
Theorem C75_wrong_size_refuted : text 10 [Dict 4 1 0 5] lying /\
  run_text_line demo_dict demo_wl real_dims (map str ["-d"; "--recode"]%string) 200 5 lying (OF [] []) = Some (OF [] [], TPanic) /\
  exists fuel0 n0, forall fuel n evs, (fuel0 <= fuel)%nat -> (n0 <= n)%nat -> good_output evs ->
  exists f, run_text_line demo_dict demo_wl real_dims [str "-i"] fuel n lying (OF [] evs) = Some (f, TDone).
Proof.
  assert (TX : text 10 [Dict 4 1 0 5] lying).
  { apply (tx_window 10 (str "10") []); [a_numeral|lia|constructor| |].
    - pad "window 10"%string 48.
    - eapply sc_cmd; [apply (ds_dict 4 1 0 5 (str "4") (str "1") (str "0") (str "5") [] []); try a_numeral; try lia; try apply Forall_nil; intros []|pad "dict 5 word 4,1 func 0"%string 48|apply sc_nil]. }
  split; [exact TX|]. split; [vm_compute; reflexivity|].
  destruct (main [str "-i"]) as [p| |] eqn:EM.
  2,3: exfalso; vm_compute in EM; discriminate EM.
  assert (G : cfg_ok (line_cfg (p_opts p)) /\ or_zero (o_mixing (p_opts p)) < 15 /\ p_job p = JText).
  { assert (FA : Forall2 spelled [AText] [str "-i"]) by (constructor; [apply (sp_word AText); cbn [In]; tauto|constructor]).
    destruct (C73_as_said [AText] [str "-i"] FA ltac:(cbn; lia) (or_introl eq_refl)) as (p' & EM' & AS). assert (p' = p) by congruence. subst p'. pose proof AS as (EJ & _).
    assert (BE : bearable [AText]) by (split; [reflexivity|]; split; [reflexivity|]; intros place inc lim [I|[]]; discriminate I).
    destruct (line_cfg_ok _ _ _ p FA AS BE) as (G & MX). auto. }
  destruct G as (G & MX & EJ).
  assert (AC : acceptable demo_dict demo_wl real_dims (line_cfg (p_opts p)) (choose_window (Some 10)) [Dict 4 1 0 5]).
  { split; (apply Forall_cons; [|apply Forall_nil]).
    - vm_compute. intuition discriminate.
    - cbn [coded replayable]. exists [116; 105; 109; 101]. split; [reflexivity|]. split; [reflexivity|right; reflexivity]. }
  destruct (C28_streams_exist demo_dict demo_wl real_dims _ _ _ (proj1 C20_case) G AC) as (a & b & ST & _). destruct (C59_text_is_compressed demo_dict demo_wl real_dims _ 10 _ a b (proj1 C20_case) G AC ST) as (fuel0 & n0 & HC).
  exists fuel0, n0. intros fuel n evs LF LN GO. destruct (HC fuel n lying (OF [] evs) LF LN TX) as (f & e & E & [(o & -> & EO & IF)|(_ & Q)]); [|contradiction]. exists f.
  unfold run_text_line, text_job. rewrite EM, EJ. replace (or_zero (o_mixing (p_opts p)) <? 15) with true by (symmetry; apply Z.ltb_lt; exact MX). rewrite E. reflexivity.
Qed.
Print Assumptions C75_wrong_size_refuted.

(** A case: the text of C59, compressed with a stride and no context maps, decompressed by
    a line with a name and -serial, replayed by a line that says a window, which is not
    that of the text. *)
Definition text_said : list arg := [AStride 3; AText; AContextMap false].
Definition text_written : list (list Z) := map str ["-stride=3"; "-i"; "-nocm"]%string.
Example C75_case : sizes_agree demo_dict demo_wl /\ proper text_said text_written /\ bearable text_said /\ job_said text_said = JText /\ sayable demo_dict text_written 10 demo_cmds /\ text 10 demo_cmds demo_lines /\
  proper [AWindow 20; ADecompress; ARecode] (map str ["-window=20"; "-d"; "--recode"]%string) /\ job_said [AWindow 20; ADecompress; ARecode] = JRecode /\
  proper [AName (str "x"); ASerial] (map str ["x"; "-serial"]%string) /\ decompresses [AName (str "x"); ASerial] /\
  run_text_line demo_dict demo_wl real_dims (map str ["-window=20"; "-d"; "--recode"]%string) 200 5 demo_lines (OF [] [WTake 5]) = Some (OF (meaning demo_dict (window 10) demo_cmds) [], TDone).
Proof.
  assert (EM : match main text_written with MRun p => line_cfg (p_opts p) = CFG 0 None false 3 1 | _ => False end) by (vm_compute; reflexivity).
  split. { intros ws wid tr w E. unfold demo_wl. rewrite E. split; [reflexivity|]. unfold demo_dict in E. destruct (_ && _); [|discriminate E]. assert (w = [116; 105; 109; 101]) by congruence. subst w. reflexivity. }
  split. { split; [|split; [cbn; lia|reflexivity]]. constructor; [apply (sp_stride 3 (str "3")); [a_numeral|lia]|]. constructor; [apply (sp_word AText); cbn [In]; tauto|]. constructor; [apply (sp_word (AContextMap false)); cbn [In]; tauto|constructor]. }
  split. { split; [reflexivity|]. split; [reflexivity|]. intros place inc lim I. cbn [text_said In] in I. repeat (destruct I as [I|I]; [discriminate I|]). destruct I. }
  split; [reflexivity|].
  split. { split.
    - destruct (main text_written) as [p| |]; [|contradiction|contradiction]. exists p. split; [reflexivity|]. rewrite EM. unfold demo_cmds. repeat constructor; cbn; unfold byte, nibble; try lia; change (zlen [104; 101; 108; 108; 111]) with 5; change (zlen [7; 255]) with 2; try lia; vm_compute; intuition discriminate.
    - exact (proj1 C60_case). }
  split; [exact demo_is_text|].
  split. { split; [|split; [cbn; lia|reflexivity]]. constructor; [apply (sp_number AWindow (str "-window=") 2147483647 20 (str "20")); [cbn [In]; tauto|a_numeral|lia]|]. constructor; [apply (sp_word ADecompress); cbn [In]; tauto|]. constructor; [apply (sp_word ARecode); cbn [In]; tauto|constructor]. }
  split; [reflexivity|].
  split. { split; [|split; [cbn; lia|reflexivity]]. constructor; [exact (sp_name 120 [] ltac:(discriminate))|]. constructor; [apply (sp_word ASerial); cbn [In]; tauto|constructor]. }
  split; [right; split; reflexivity|]. vm_compute. reflexivity.
Qed.
