(** Two threads: the invariant, and the worker's steps. *)
From Verif Require ProofRecode3.
From Verif Require Import Prelude ProofList ModelAns SpecAns ModelCdf SpecCdf ModelRecode SpecLz ProofRecode ProofRecode2 ProofAns ProofAnsRt ProofAnsDec ThmCdf ModelMux ProofZlist ProofMux ProofMuxR ModelCmd ModelCrc SpecCrc ProofCrc ModelHeader SpecHeader ProofHeader ModelPriors ModelCodec ModelLit ModelPm ModelTop SpecCodec SpecReplay SpecFile ModelEnc ProofSim ModelDec ProofDec1 ProofDec2 ProofDec3 ProofDec4 ProofDec5 ProofDec6 ModelThread ProofThread1.

(** What the serial queue would hold: the local buffer counts as pushed, the mode about to
    be handed over as handed over, and the buffers taken back as taken back. *)
Definition back (m : mthread) : list mbuf := match tm_pc m with MBack bufs _ _ => bufs | _ => [] end.
Definition amap (m : mthread) : list predmode := match tm_pc m with MMap p => [p] | _ => [] end.
Definition apend (w : wthread) : option predmode := match tw_pc w with WPush _ p => p | _ => None end.
Definition aq (q : squeue) (w : wthread) (m : mthread) : squeue :=
  SQ (q_data q) (amap m ++ q_cm q) (q_res q ++ tw_buf w) (q_rdata q) (match apend w with Some p => (p, snd (q_rcm q)) | None => q_rcm q end) (q_eof q).
Definition am (m : mthread) : main := let x := tm_m m in m_set_in x (m_mux x) (m_crc x) (m_trailer x) (m_out x - zlen (back m)).
Definition slp (x : sleep) : Z := match x with Awake => 0 | _ => 1 end.
Definition awk (x : sleep) : Z := match x with Asleep => 0 | _ => 1 end.
Definition b2z (b : bool) : Z := if b then 1 else 0.

Definition wpc_ok (ci : codec unit) (pw : predmode) (w : wthread) : Prop :=
  let k := tw_w w in
  wk_done k = (match tw_pc w with WDone => true | _ => false end) /\
  match tw_pc w with
  | WRun => zlen (tw_buf w) < NUM_BUFFERED
  | WPush KRun _ => 0 < zlen (tw_buf w) <= NUM_BUFFERED
  | WPush KEof p => p = None /\ k_st ci = TEnd /\ zlen (tw_buf w) < NUM_BUFFERED
  | WPush KPull p => p = None /\ mb_data (wk_slice k) = [] /\ need (wk_dec k) <> 0%nat /\ k_st ci <> TEnd /\ zlen (tw_buf w) < NUM_BUFFERED
  | WPull => zlen (mem (wk_slice k)) = 0 /\ need (wk_dec k) <> 0%nat /\ k_st ci <> TEnd /\ zlen (tw_buf w) < NUM_BUFFERED
  | WMap => is_pm (k_st ci) /\ has_speeds pw = false /\ zlen (tw_buf w) < NUM_BUFFERED
  | WDone => tw_buf w = []
  | WFailed => False
  end.
Definition wblocked (q : squeue) (w : wthread) : Prop :=
  match tw_pc w with
  | WPull => q_data q = []
  | WMap => q_cm q = []
  | WPush k _ => (k = KPull /\ zlen (mem (wk_slice (tw_w w))) <> 0 /\ 2 <= zlen (q_rdata q)) \/ NUM_BUFFERED - zlen (q_res q) < zlen (tw_buf w)
  | _ => False
  end.
Definition midling (m : main) : Prop := m_lit m = None /\ m_pop m = None.
Definition mpc_ok (m : mthread) : Prop :=
  let x := tm_m m in
  match tm_pc m with
  | MRet _ | MIn => True
  | MOut => receiving x = true
  | MMap _ => receiving x = true
  | MNext => receiving x = true /\ midling x
  | MPull => receiving x = true /\ midling x /\ m_cmds x = [] /\ m_eof x = false
  | MBack bufs nd bad => bad = false /\ midling x /\ (nd = true \/ bufs <> [] \/ receiving x = true) /\ (nd = true -> is_done (eof (m_mux x)) = false)
  end.

Section Step.
Context (dict : dict_fn) (wl : word_len_fn) (D : dims) (wlen : Z) (skip : bool) (Tr hf : list Z).
Notation PINV := (pinv dict wl D wlen skip Tr hf).
Notation WINV := (winv wl D).

(** the part that does not speak of sleeping *)
Record tvc (n : nat) (pw : predmode) (ci : codec unit) (ces : list ev) (outsW : list command) (pa pb : list Z) (les : list ev) (R e : list Z) (q : squeue) (w : wthread) (m : mthread) : Prop := {
  tc_p : PINV n pw ci ces outsW pa pb les R e (tw_w w) (aq q w m) (am m);
  tc_buf : cpm (tw_buf w) = match apend w with Some _ => 1%nat | None => 0%nat end;
  tc_rcm : has_speeds (fst (q_rcm q)) = Nat.eqb (cpm (q_res q)) 1;
  tc_rcs : has_speeds (snd (q_rcm q)) = false;
  tc_res : zlen (q_res q) <= NUM_BUFFERED;
  tc_w : wpc_ok ci pw w }.
Record tv (n : nat) (pw : predmode) (ci : codec unit) (ces : list ev) (outsW : list command) (pa pb : list Z) (les : list ev) (R e : list Z) (s : shared) (w : wthread) (m : mthread) : Prop := {
  tv_c : tvc n pw ci ces outsW pa pb les R e (sh_q s) w m;
  tv_m : mpc_ok m;
  tv_err : sh_failed s = false /\ sh_err s = false;
  tv_wait : sh_waiters s = slp (tm_st m) + slp (tw_st w);
  tv_ws : tw_st w = Asleep -> wblocked (sh_q s) w;
  tv_ms : tm_st m = Asleep -> tm_pc m = MPull /\ result_ready s = false }.

Definition pcw (w : wthread) : Z := match tw_pc w with WRun => 3 | WPush _ _ => 2 | WPull | WMap => 1 | _ => 0 end.
Definition pcm (m : mthread) : Z := match tm_pc m with MRet _ => 0 | MPull => 1 | MNext => 2 | MOut => 3 | _ => 4 end.
Definition phi (n : nat) (pw : predmode) (pa : list Z) (q : squeue) (w : wthread) (m : mthread) : Z :=
  let x := tm_m m in
  10 * (2 * Z.of_nat n + 1 - Z.of_nat (hs pw)) + 24 * (zlen (mb_data (buf0 (m_mux x))) + zlen pa) + 12 * (zlen (mb_data (wk_slice (tw_w w))) + zlen (qbytes q)) +
  9 * zlen (q_data q) + 6 * (if zlen (mem (wk_slice (tw_w w))) =? 0 then 0 else 1) + 5 * zlen (q_rdata q) + zlen (back m) + 9 * zlen (tw_buf w) + 7 * zlen (q_res q) + 3 * zlen (m_cmds x) +
  (if m_eof x then 0 else 4) + pcw w + pcm m.
Definition meas n pw pa s w m : Z := 2 * phi n pw pa (sh_q s) w m + awk (tw_st w) + awk (tm_st m).

Lemma tvc_st n pw ci ces outsW pa pb les R e q w m x y : tvc n pw ci ces outsW pa pb les R e q w m -> tvc n pw ci ces outsW pa pb les R e q (tw_set_st w x) (tm_set_st m y).
Proof. intros [A B C E F G]. constructor; assumption. Qed.
Lemma notify_asleep n pw ci ces outsW pa pb les R e s w m : tv n pw ci ces outsW pa pb les R e s w m -> tm_st m = Asleep \/ tw_st w = Asleep -> notify s = true.
Proof. intros [_ _ _ W _ _] H. unfold notify. rewrite W. destruct H as [-> | ->]; [destruct (tw_st w)|destruct (tm_st m)]; reflexivity. Qed.
Lemma slp_wake x : slp (wake x) = slp x. Proof. destruct x; reflexivity. Qed.
Lemma awk_wake x : awk (wake x) <= 1. Proof. destruct x; cbn; lia. Qed.
Lemma awk_le x : 0 <= awk x <= 1. Proof. destruct x; cbn; lia. Qed.

Lemma pinv_worker n pw ci ces outsW pa pb les R e w q m n' pw' ci' ces' outs' w' q' : PINV n pw ci ces outsW pa pb les R e w q m ->
  WINV n' pw' ci' ces' outs' (cpm (m_cmds m)) (mb_data (buf0 (m_mux m)) ++ pa) w' q' ->
  expand (fst (q_rcm q')) (q_res q') ++ outs' = expand (fst (q_rcm q)) (q_res q) ++ outsW -> held w' q' = held w q ->
  (cpm (m_cmds m) = 1%nat -> k_pm ci' = k_pm ci) -> wk_done w = false ->
  PINV n' pw' ci' ces' outs' pa pb les R e w' q' m.
Proof.
  intros [SV RD TI CI PH] W' G1 G2 G4 WD. pose proof SV as [W RI OUT EO PQ PQ2 PS].
  assert (PE : pending q' m outs' = pending q m outsW) by (unfold pending; rewrite G1; reflexivity).
  constructor; try assumption.
  - constructor; try assumption.
    + congruence.
    + intros X. destruct (EO X). congruence.
    + intros X. rewrite (PQ2 X). symmetry. apply G4, X.
  - rewrite PE. exact PH.
Qed.
Lemma tvc_worker n pw ci ces outsW pa pb les R e q w m n' pw' ci' ces' outs' q' w' : tvc n pw ci ces outsW pa pb les R e q w m -> ended w = false ->
  WINV n' pw' ci' ces' outs' (cpm (m_cmds (tm_m m))) (mb_data (buf0 (m_mux (tm_m m))) ++ pa) (tw_w w') (aq q' w' m) ->
  expand (fst (q_rcm (aq q' w' m))) (q_res q' ++ tw_buf w') ++ outs' = expand (fst (q_rcm (aq q w m))) (q_res q ++ tw_buf w) ++ outsW -> held (tw_w w') q' = held (tw_w w) q ->
  (cpm (m_cmds (tm_m m)) = 1%nat -> k_pm ci' = k_pm ci) ->
  cpm (tw_buf w') = match apend w' with Some _ => 1%nat | None => 0%nat end ->
  has_speeds (fst (q_rcm q')) = Nat.eqb (cpm (q_res q')) 1 -> has_speeds (snd (q_rcm q')) = false -> zlen (q_res q') <= NUM_BUFFERED -> wpc_ok ci' pw' w' ->
  tvc n' pw' ci' ces' outs' pa pb les R e q' w' m.
Proof.
  intros [P B RC RS RE WO] EN W' X H KP B' RC' RS' RE' WO'. constructor; try assumption. apply (pinv_worker _ _ _ _ _ _ _ _ _ _ _ _ _ _ _ _ _ _ _ _ P); try assumption.
  destruct WO as (WO & _). rewrite WO. unfold ended in EN. destruct (tw_pc w); try reflexivity; discriminate EN.
Qed.

Lemma phi_st n pw pa q w m x y : phi n pw pa q (tw_set_st w x) (tm_set_st m y) = phi n pw pa q w m.
Proof. destruct w as [w1 w2 w3 w4 w5], m as [m1 m2 m3 m4 m5 m6 m7]. unfold phi, back, pcw, pcm, tw_set_st, tm_set_st. cbn [tw_w tw_buf tw_min tw_pc tw_st tm_m tm_pc]. reflexivity. Qed.
Lemma phi_mst n pw pa q w m y : phi n pw pa q w (tm_set_st m y) = phi n pw pa q w m.
Proof. destruct m as [m1 m2 m3 m4 m5 m6 m7]. unfold phi, back, pcm, tm_set_st. cbn [tm_m tm_pc]. reflexivity. Qed.
(** ** The worker's steps *)
Definition wprog n pw pa s w m n' pw' s' w' (note : bool) : Prop :=
  phi n' pw' pa (sh_q s') w' m < phi n pw pa (sh_q s) w m \/ (phi n' pw' pa (sh_q s') w' m = phi n pw pa (sh_q s) w m /\ note = false /\ tw_st w' = Asleep).
Lemma wfin n pw ci ces outsW pa pb les R e s w m n' pw' ci' ces' outs' s' w' note : tv n pw ci ces outsW pa pb les R e s w m -> tw_st w = Awake ->
  tvc n' pw' ci' ces' outs' pa pb les R e (sh_q s') w' m -> sh_failed s' = false /\ sh_err s' = false -> sh_waiters s' = sh_waiters s + slp (tw_st w') ->
  (tw_st w' = Asleep -> wblocked (sh_q s') w') -> note = notify s \/ result_ready s' = result_ready s ->
  wprog n pw pa s w m n' pw' s' w' note ->
  let m' := if note then tm_set_st m (wake (tm_st m)) else m in
  tv n' pw' ci' ces' outs' pa pb les R e s' w' m' /\ meas n' pw' pa s' w' m' < meas n pw pa s w m.
Proof.
  intros V AW C E W B N P. pose proof V as [VC VM VE VW VS VMS]. cbn zeta.
  assert (NA : tm_st m = Asleep -> note = true \/ result_ready s' = result_ready s).
  { intros X. destruct N as [-> |N]; [left; eapply notify_asleep; eauto|auto]. }
  rewrite VW, AW in W. cbn [slp] in W.
  assert (M : exists x, (if note then tm_set_st m (wake (tm_st m)) else m) = tm_set_st m x /\ slp x = slp (tm_st m) /\ awk x <= awk (tm_st m) + b2z note /\ (x = Asleep -> tm_pc m = MPull /\ result_ready s' = false)).
  { destruct note; [exists (wake (tm_st m)); split; [reflexivity|]; split; [apply slp_wake|]; split; [pose proof (awk_wake (tm_st m)); pose proof (awk_le (tm_st m)); cbn [b2z]; lia|]; destruct (tm_st m); discriminate|].
    exists (tm_st m). split; [destruct m; reflexivity|]. split; [reflexivity|]. split; [cbn [b2z]; lia|]. intros X. destruct (NA X) as [Y|Y]; [discriminate Y|]. rewrite Y. apply VMS, X. }
  destruct M as (x & -> & SX & AX & MX). split.
  - constructor; try assumption.
    + destruct w' as [a b c d f]. exact (tvc_st _ _ _ _ _ _ _ _ _ _ _ _ _ f x C).
    + cbn [tm_st tm_set_st]. lia.
  - unfold meas. rewrite phi_mst. cbn [tm_st tm_set_st]. rewrite AW. cbn [awk].
    pose proof (awk_le (tw_st w')). pose proof (awk_le (tm_st m)). assert (0 <= b2z note <= 1) by (destruct note; cbn; lia).
    destruct P as [P|(P & -> & ->)]; [lia|]. cbn [b2z awk] in *. lia.
Qed.

Lemma hs_le p : 0 <= Z.of_nat (hs p) <= 1. Proof. unfold hs. destruct (has_speeds p); lia. Qed.
(** steps that touch nothing but the program counter and the local buffer's threshold *)
Lemma tvc_pc n pw ci ces outsW pa pb les R e q wk buf mn pc st mn' pc' m : tvc n pw ci ces outsW pa pb les R e q (TW wk buf mn pc st) m ->
  match pc with WPush _ p => p | _ => None end = match pc' with WPush _ p => p | _ => None end -> forall st', wpc_ok ci pw (TW wk buf mn' pc' st') -> tvc n pw ci ces outsW pa pb les R e q (TW wk buf mn' pc' st') m.
Proof.
  intros [P B RC RS RE WO] E st' WO'. constructor; try assumption.
  - unfold aq, apend in *. cbn [tw_pc tw_buf tw_w] in *. rewrite <- E. exact P.
  - unfold apend in *. cbn [tw_pc tw_buf] in *. rewrite <- E. exact B.
Qed.

Lemma results_spec n pw ci ces outsW pa pb les R e s0 s w m kk pm sent : tvc n pw ci ces outsW pa pb les R e (sh_q s) w m -> tw_pc w = WPush kk pm -> sh_failed s = false -> sh_err s = false ->
  (kk = KPull -> zlen (mem (wk_slice (tw_w w))) = 0) -> (sent = false -> s = s0) -> sh_waiters s = sh_waiters s0 ->
  exists s' w' note, push_results s w kk pm sent = Some (s', w', note) /\
  exists n' pw' ci' ces' outs', tvc n' pw' ci' ces' outs' pa pb les R e (sh_q s') w' m /\ (sh_failed s' = false /\ sh_err s' = false) /\ sh_waiters s' = sh_waiters s0 + slp (tw_st w') /\
    (tw_st w' = Asleep -> wblocked (sh_q s') w') /\ (note = notify s0 \/ s' = sh_wait s0 1) /\
    (phi n' pw' pa (sh_q s') w' m < phi n pw pa (sh_q s) w m \/ (phi n' pw' pa (sh_q s') w' m = phi n pw pa (sh_q s) w m /\ note = (sent && notify s0) /\ tw_st w' = Asleep)).
Proof.
  intros C PC F E KP SE WT. destruct w as [wk buf mn pc st]. cbn [tw_pc] in PC. subst pc. destruct s as [q f er wt]. cbn [sh_q sh_failed sh_err sh_waiters] in *. subst f er.
  pose proof C as [P B RC RS RE (WD & WO)]. cbn [apend tw_pc tw_buf tw_w] in *. unfold push_results. cbn [sh_q sh_failed sh_err sh_waiters tw_buf tw_w tw_min].
  assert (NT : notify (SH q false false wt) = notify s0) by (unfold notify; cbn [sh_waiters]; rewrite WT; reflexivity). rewrite NT.
  pose proof (zlen_nonneg buf) as ZB. pose proof (zlen_nonneg (q_res q)) as ZR.
  destruct (Z.leb_spec (zlen buf) (NUM_BUFFERED - zlen (q_res q))) as [L|L].
  2:{ do 3 eexists. split; [reflexivity|]. exists n, pw, ci, ces, outsW. cbn [sh_wait sh_q sh_failed sh_err sh_waiters tw_sleep tw_st tw_w tw_buf tw_min tw_pc slp].
      split; [apply (tvc_pc _ _ _ _ _ _ _ _ _ _ _ _ _ _ _ _ _ _ _ C); [reflexivity|split; assumption]|]. split; [auto|]. split; [lia|]. split; [intros _; right; exact L|].
      split; [destruct sent; [left; reflexivity|right; rewrite <- (SE eq_refl); reflexivity]|]. right. split; [|split; reflexivity]. unfold phi, pcw. cbn [tw_pc tw_w tw_buf]. reflexivity. }
  assert (AP : match pm with Some _ => negb (has_speeds (snd (q_rcm q))) | None => true end = true) by (destruct pm; [rewrite RS; reflexivity|reflexivity]).
  rewrite AP. cbn [assert].
  pose proof P as [SV _ _ _ _]. pose proof SV as [W _ _ EO _ _ _].
  (* the mode goes to the first slot *)
  set (rcm := match pm with Some p => if has_speeds (fst (q_rcm q)) then (fst (q_rcm q), p) else (p, snd (q_rcm q)) | None => q_rcm q end).
  assert (TK := wv_tok _ _ _ _ _ _ _ _ _ _ _ W). cbn [q_res aq tw_buf] in TK. rewrite cpm_app, B in TK.
  assert (RCM : rcm = q_rcm (aq q (TW wk buf mn (WPush kk pm) st) m)).
  { unfold rcm, aq, apend. cbn [q_rcm tw_pc]. destruct pm as [p|]; [|reflexivity]. rewrite RC. replace (cpm (q_res q)) with 0%nat by lia. reflexivity. }
  rewrite RCM. clearbody rcm. clear rcm RCM.
  set (qa := aq q (TW wk buf mn (WPush kk pm) st) m) in *.
  assert (TQ := wv_tq _ _ _ _ _ _ _ _ _ _ _ W). assert (TS := wv_ts _ _ _ _ _ _ _ _ _ _ _ W). cbn [qa q_res aq tw_buf] in TQ.
  set (ends := match kk with KEof => true | _ => false end). replace (q_eof q || (ends && negb false)) with (q_eof q || ends) by (destruct ends; reflexivity).
  assert (QE : q_eof q = false) by (transitivity (wk_done wk); [exact (wv_eof _ _ _ _ _ _ _ _ _ _ _ W)|exact WD]). rewrite QE. cbn [orb].
  do 3 eexists. split; [reflexivity|]. exists n, pw, ci, ces, outsW. cbn [sh_set_q sh_q sh_failed sh_err sh_waiters tw_st slp].
  set (q' := SQ (q_data q) (q_cm q) (q_res q ++ buf) (q_rdata q) (q_rcm qa) ends).
  set (w' := TW (WK (wk_c wk) (wk_dec wk) (wk_slice wk) ends) [] (if zlen (q_res q) <=? 16 then Z.max (mn / 2) 4 else mn) (match kk with KRun => WRun | KEof => WDone | KPull => WPull end) Awake).
  assert (AQ : aq q' w' m = q_set_eof qa ends).
  { unfold aq, q', w', qa, apend, q_set_eof. cbn [q_data q_cm q_res q_rdata q_rcm q_eof tw_buf tw_pc]. rewrite app_nil_r. destruct kk; reflexivity. }
  assert (WI : WINV n pw ci ces outsW (cpm (m_cmds (tm_m m))) (mb_data (buf0 (m_mux (tm_m m))) ++ pa) (WK (wk_c wk) (wk_dec wk) (wk_slice wk) ends) (q_set_eof qa ends)).
  { destruct ends eqn:EN.
    - apply eof_spec; [exact W|]. destruct kk; try discriminate EN. apply WO.
    - assert (X1 : WK (wk_c wk) (wk_dec wk) (wk_slice wk) false = wk) by (destruct wk; cbn in *; congruence). assert (X2 : q_set_eof qa false = qa) by (destruct q; cbn in *; unfold q_set_eof, qa, aq; cbn; congruence). rewrite X1, X2. exact W. }
  split.
  - apply (tvc_worker _ _ _ _ _ _ _ _ _ _ _ _ _ _ _ _ _ _ _ _ C); try reflexivity; cbn [tw_w tw_buf q_res q_rcm q_data q_rdata w' q']; auto.
    + rewrite <- AQ in WI. exact WI.
    + fold w'. fold q'. rewrite AQ. rewrite app_nil_r. reflexivity.
    + unfold apend. cbn [tw_pc]. destruct kk; reflexivity.
    + rewrite zlen_app. lia.
    + unfold wpc_ok. cbn [tw_w tw_pc tw_buf wk_done wk_slice wk_dec]. change (zlen (@nil command)) with 0. change NUM_BUFFERED with 256. destruct kk; (split; [reflexivity|]); [exact eq_refl|reflexivity|]. destruct WO as (_ & _ & W1 & W2 & _). split; [apply KP; reflexivity|]. split; [exact W1|]. split; [exact W2|exact eq_refl].
  - split; [auto|]. split; [lia|]. split; [discriminate|]. split; [left; reflexivity|]. left. unfold phi. cbn [q_data q_rdata q_res tw_w tw_buf wk_slice q' w']. fold q' w'. change (qbytes q') with (qbytes q).
    change (zlen (@nil command)) with 0. rewrite zlen_app. unfold pcw. cbn [tw_pc w'].
    set (A := 10 * _ + _ + _). set (B0 := if zlen (mem (wk_slice wk)) =? 0 then 0 else 1). set (E0 := if m_eof _ then 0 else 4). clearbody A B0 E0. clear - WO ZB ZR. destruct kk; cbn iota in *; lia.
Qed.

Lemma am_same m : back m = [] -> am m = tm_m m.
Proof. intros E. unfold am. rewrite E. change (zlen (@nil mbuf)) with 0. rewrite Z.sub_0_r. destruct (tm_m m). reflexivity. Qed.
Lemma zlen_len {A} (l : list A) : zlen l = Z.of_nat (length l). Proof. reflexivity. Qed.

Lemma wstep_spec n pw ci ces outsW pa pb les R e s w m : tv n pw ci ces outsW pa pb les R e s w m -> tw_st w = Awake -> ended w = false ->
  exists s' w' note n' pw' ci' ces' outs', wstep wl D s w = Some (s', w', note) /\
    let m' := if note then tm_set_st m (wake (tm_st m)) else m in
    tv n' pw' ci' ces' outs' pa pb les R e s' w' m' /\ meas n' pw' pa s' w' m' < meas n pw pa s w m.
Proof.
  intros V AW EN. pose proof V as [C _ (VF & VE) VW _ _]. destruct w as [wk buf mn pc st0]. cbn [tw_st] in AW. subst st0. destruct s as [q f er wt]. cbn [sh_q sh_failed sh_err sh_waiters] in *. subst f er.
  pose proof C as [P B RC RS RE (WD & WO)]. pose proof P as [SV _ _ _ _]. pose proof SV as [W _ _ EO _ _ _]. pose proof (wv_c _ _ _ _ _ _ _ _ _ _ _ W) as WC.
  unfold wstep. cbn [tw_pc tw_w tw_buf] in *.
  (* how a step ends *)
  assert (FIN : forall s' w' note n' pw' ci' ces' outs', tvc n' pw' ci' ces' outs' pa pb les R e (sh_q s') w' m -> sh_failed s' = false /\ sh_err s' = false -> sh_waiters s' = wt + slp (tw_st w') ->
    (tw_st w' = Asleep -> wblocked (sh_q s') w') -> note = notify (SH q false false wt) \/ result_ready s' = result_ready (SH q false false wt) ->
    (phi n' pw' pa (sh_q s') w' m < phi n pw pa q (TW wk buf mn pc Awake) m \/ (phi n' pw' pa (sh_q s') w' m = phi n pw pa q (TW wk buf mn pc Awake) m /\ note = false /\ tw_st w' = Asleep)) ->
    exists s'0 w'0 note0 n'0 pw'0 ci'0 ces'0 outs'0, Some (s', w', note) = Some (s'0, w'0, note0) /\
      let m' := if note0 then tm_set_st m (wake (tm_st m)) else m in
      tv n'0 pw'0 ci'0 ces'0 outs'0 pa pb les R e s'0 w'0 m' /\ meas n'0 pw'0 pa s'0 w'0 m' < meas n pw pa (SH q false false wt) (TW wk buf mn pc Awake) m).
  { intros s' w' note n' pw' ci' ces' outs' H1 H2 H3 H4 H5 H6. exists s', w', note, n', pw', ci', ces', outs'. split; [reflexivity|]. apply (wfin _ _ _ _ _ _ _ _ _ _ _ _ _ _ _ _ _ _ _ _ _ V eq_refl H1 H2); assumption. }
  (* a step that only moves the program counter *)
  assert (MOVE : forall mn' pc', match pc with WPush _ p => p | _ => None end = match pc' with WPush _ p => p | _ => None end -> wpc_ok ci pw (TW wk buf mn' pc' Awake) -> pcw (TW wk buf mn' pc' Awake) < pcw (TW wk buf mn pc Awake) ->
    exists s'0 w'0 note0 n'0 pw'0 ci'0 ces'0 outs'0, Some (SH q false false wt, TW wk buf mn' pc' Awake, false) = Some (s'0, w'0, note0) /\
      let m' := if note0 then tm_set_st m (wake (tm_st m)) else m in
      tv n'0 pw'0 ci'0 ces'0 outs'0 pa pb les R e s'0 w'0 m' /\ meas n'0 pw'0 pa s'0 w'0 m' < meas n pw pa (SH q false false wt) (TW wk buf mn pc Awake) m).
  { intros mn' pc' E1 E2 E3. apply (FIN _ _ _ n pw ci ces outsW); cbn [sh_q sh_failed sh_err sh_waiters tw_st slp]; [apply (tvc_pc _ _ _ _ _ _ _ _ _ _ _ _ _ _ _ _ _ _ _ C E1 _ E2)|split; reflexivity|lia|discriminate|right; reflexivity|].
    left. unfold phi. cbn [tw_w tw_buf]. lia. }
  destruct pc as [|kk pm| | | |]; try discriminate EN.
  - (* running the codec *)
    rewrite WC. change (k_st (wpm ci pw)) with (k_st ci).
    assert (MAIN : k_st ci <> TEnd -> ~ is_pop (k_st ci) -> exists s' w' note n' pw' ci' ces' outs',
      (if wants_map (wpm ci pw) then Some (SH q false false wt, tw_go (TW wk buf mn WRun Awake) WMap, false)
       else if starving wk then Some (SH q false false wt, if zlen (mem (wk_slice wk)) =? 0 then tw_go (TW wk buf mn WRun Awake) WPull else start_push (TW wk buf mn WRun Awake) KPull None, false)
       else let? '(w, r) := w_code wl D wk in
            match r with
            | Some (WFail _) => Some (broadcast (SH q false false wt), tw_set_w (TW wk buf mn WRun Awake) w WFailed, notify (SH q false false wt))
            | _ => Some (SH q false false wt, tw_set_w (TW wk buf mn WRun Awake) w WRun, false)
            end) = Some (s', w', note) /\
      let m' := if note then tm_set_st m (wake (tm_st m)) else m in
      tv n' pw' ci' ces' outs' pa pb les R e s' w' m' /\ meas n' pw' pa s' w' m' < meas n pw pa (SH q false false wt) (TW wk buf mn WRun Awake) m).
    { intros NE NP. destruct (wants_map (wpm ci pw)) eqn:WM.
      { unfold tw_go. cbn [tw_w tw_buf tw_min]. apply MOVE; [reflexivity| |cbn; lia]. unfold wpc_ok. cbn [tw_w tw_buf tw_pc]. split; [exact WD|].
        unfold wants_map in WM. change (k_st (wpm ci pw)) with (k_st ci) in WM. change (k_pm (wpm ci pw)) with pw in WM. destruct (k_st ci); try discriminate WM. split; [exact Logic.I|]. split; [destruct (has_speeds pw); [discriminate WM|reflexivity]|exact WO]. }
      destruct (starving wk) eqn:ST.
      { unfold starving in ST. apply andb_prop in ST. destruct ST as (ST & S3). apply andb_prop in ST. destruct ST as (S1 & S2). apply Z.eqb_eq in S3. apply zlen_nil_inv in S3.
        rewrite (arel_avail _ _ _ (wv_dec _ _ _ _ _ _ _ _ _ _ _ W)) in S2. destruct (Nat.eqb_spec (need (wk_dec wk)) 0) as [X|NN]; [discriminate S2|].
        destruct (Z.eqb_spec (zlen (mem (wk_slice wk))) 0) as [M0|M0].
        - unfold tw_go. cbn [tw_w tw_buf tw_min]. apply MOVE; [reflexivity| |cbn; lia]. unfold wpc_ok. cbn [tw_w tw_buf tw_pc]. auto 10.
        - unfold start_push. cbn [tw_w tw_buf tw_min]. apply MOVE; [reflexivity| |cbn; lia]. unfold wpc_ok. cbn [tw_w tw_buf tw_pc]. auto 10. }
      assert (WM' : wants_map (wk_c wk) = false) by (rewrite WC; exact WM).
      destruct (code_spec wl D _ _ _ _ _ _ _ _ _ W WD NE NP WM' ST) as (w1 & r & n1 & pw1 & ci1 & ces1 & -> & W1 & D1 & K1 & M1 & R1). cbn [bind].
      pose proof (hs_le pw) as H1. pose proof (hs_le pw1) as H2.
      assert (PROG : phi n1 pw1 pa q (TW w1 buf mn WRun Awake) m < phi n pw pa q (TW wk buf mn WRun Awake) m /\ (match r with Some (WFail _) => False | _ => True end)).
      { unfold phi. cbn [tw_w tw_buf]. rewrite M1. change (pcw (TW w1 buf mn WRun Awake)) with 3. change (pcw (TW wk buf mn WRun Awake)) with 3. rewrite !(zlen_len (mb_data (wk_slice _))).
        destruct r as [[| | |]|]; try contradiction R1; (split; [|exact Logic.I]); [destruct R1 as (-> & -> & R1); lia|destruct R1 as (R1 & R2); lia]. }
      destruct PROG as (PROG & NF).
      assert (C1 : tvc n1 pw1 ci1 ces1 outsW pa pb les R e q (TW w1 buf mn WRun Awake) m).
      { apply (tvc_worker _ _ _ _ _ _ _ _ _ _ _ _ _ _ _ _ _ _ _ _ C); try reflexivity; try assumption.
        - unfold held. cbn [tw_w]. rewrite M1. reflexivity.
        - split; [exact D1|exact WO]. }
      replace (match r with Some (WFail _) => _ | _ => _ end) with (Some (SH q false false wt, TW w1 buf mn WRun Awake, false)) by (destruct r as [[]|]; try contradiction NF; reflexivity).
      apply (FIN _ _ _ n1 pw1 ci1 ces1 outsW); cbn [sh_q sh_failed sh_err sh_waiters tw_st slp]; [exact C1|split; reflexivity|lia|discriminate|right; reflexivity|left; exact PROG]. }
    destruct (k_st ci) as [|s|s|s|s|s|s|u|cmd|] eqn:ST; try (apply MAIN; [discriminate|intros []]); clear MAIN.
    + (* a command is complete *)
      unfold push_command. cbn [tw_buf tw_w tw_min]. unfold assert. destruct (Z.ltb_spec (zlen buf) NUM_BUFFERED) as [_|X]; [|exfalso; clear - X WO; lia]. cbn [bind].
      destruct (push_spec wl D _ _ _ _ _ _ _ _ _ cmd W WD ST) as (n0 & o0 & -> & CP & W1 & X1). cbn zeta in W1, X1.
      set (buf1 := buf ++ [downcast cmd]). set (wk1 := wk_set_c wk (kset (wk_c wk) (k_bk (wk_c wk)) TBegin)) in *.
      assert (ZB : zlen buf1 = zlen buf + 1) by (unfold buf1; rewrite zlen_app; reflexivity).
      set (p1 := match cmd with PredictionMode p => Some p | _ => None end).
      assert (GO : forall mn' pc', match pc' with WPush KRun p => p = p1 | WRun => p1 = None /\ zlen buf1 < NUM_BUFFERED | _ => False end ->
        exists s' w' note n' pw' ci' ces' outs', Some (SH q false false wt, TW wk1 buf1 mn' pc' Awake, false) = Some (s', w', note) /\
        let m' := if note then tm_set_st m (wake (tm_st m)) else m in
        tv n' pw' ci' ces' outs' pa pb les R e s' w' m' /\ meas n' pw' pa s' w' m' < meas (S n0) pw pa (SH q false false wt) (TW wk buf mn WRun Awake) m).
      { intros mn' pc' H.
        assert (AP : apend (TW wk1 buf1 mn' pc' Awake) = p1) by (unfold apend; cbn [tw_pc]; destruct pc' as [|[]| | | |]; try contradiction H; [symmetry; apply H|exact H]).
        assert (AQ : aq q (TW wk1 buf1 mn' pc' Awake) m = SQ (q_data q) (amap m ++ q_cm q) ((q_res q ++ buf) ++ [downcast cmd]) (q_rdata q) (match cmd with PredictionMode p => (p, snd (q_rcm q)) | _ => q_rcm q end) (q_eof q)).
        { unfold aq. rewrite AP. cbn [tw_buf]. unfold buf1. rewrite <- app_assoc. unfold p1. destruct cmd; reflexivity. }
        apply (FIN _ _ _ n0 pw (kset ci (k_bk ci) TBegin) ces o0); cbn [sh_q sh_failed sh_err sh_waiters tw_st slp]; [|split; reflexivity|lia|discriminate|right; reflexivity|].
        - apply (tvc_worker _ _ _ _ _ _ _ _ _ _ _ _ _ _ _ _ _ _ _ _ C); try reflexivity; try assumption.
          + rewrite AQ. cbn [tw_w]. exact W1.
          + rewrite AQ. cbn [tw_buf]. unfold buf1. rewrite app_assoc. exact X1.
          + rewrite AP. cbn [tw_buf]. unfold buf1. rewrite cpm_app, CP, B. unfold p1. destruct cmd; reflexivity.
          + unfold wpc_ok. cbn [tw_w tw_pc tw_buf]. pose proof (zlen_nonneg buf). split; [destruct pc' as [|[]| | | |]; try contradiction H; exact WD|]. destruct pc' as [|[]| | | |]; try contradiction H; [apply H|]. clear - WO ZB H0. lia.
        - left. unfold phi. cbn [tw_w tw_buf]. rewrite ZB. change (wk_slice wk1) with (wk_slice wk). unfold pcw. cbn [tw_pc]. destruct pc' as [|[]| | | |]; try contradiction H; lia. }
      assert (RUN : p1 = None -> exists s' w' note n' pw' ci' ces' outs', Some (SH q false false wt, if (zlen buf1 =? NUM_BUFFERED) || (zlen buf1 =? mn) then start_push (TW wk1 buf1 mn WRun Awake) KRun None else TW wk1 buf1 mn WRun Awake, false) = Some (s', w', note) /\
        let m' := if note then tm_set_st m (wake (tm_st m)) else m in
        tv n' pw' ci' ces' outs' pa pb les R e s' w' m' /\ meas n' pw' pa s' w' m' < meas (S n0) pw pa (SH q false false wt) (TW wk buf mn WRun Awake) m).
      { intros P1. destruct ((zlen buf1 =? NUM_BUFFERED) || (zlen buf1 =? mn)) eqn:F; [unfold start_push; cbn [tw_w tw_buf tw_min]; apply GO; symmetry; exact P1|]. apply GO. split; [exact P1|].
        apply orb_false_elim in F. destruct F as (F & _). apply Z.eqb_neq in F. lia. }
      destruct cmd; try (apply RUN; reflexivity). unfold start_push. cbn [tw_w tw_buf tw_min]. apply GO. reflexivity.
    + (* the end *)
      unfold start_push. cbn [tw_w tw_buf tw_min]. apply MOVE; [reflexivity| |cbn; lia]. unfold wpc_ok. cbn [tw_w tw_buf tw_pc]. auto.
  - (* force_push *)
    unfold force_push. cbn [tw_w tw_buf tw_min tw_pc tw_st].
    set (has := match kk with KPull => negb (zlen (mem (wk_slice wk)) =? 0) | _ => false end).
    assert (SB : send_back (SH q false false wt) wk kk = if has then if zlen (q_rdata q) <? 2 then (SH (q_set_rdata q (q_rdata q ++ [wk_slice wk])) false false wt, WK (wk_c wk) (wk_dec wk) mb_empty (wk_done wk), true, false) else (SH q false false wt, wk, false, true) else (SH q false false wt, wk, false, false)) by reflexivity.
    rewrite SB. clear SB. destruct has eqn:HAS.
    + assert (KP : kk = KPull) by (unfold has in HAS; destruct kk; try discriminate HAS; reflexivity). subst kk. destruct WO as (-> & S0 & NN & NT & LB).
      assert (M0 : zlen (mem (wk_slice wk)) <> 0) by (unfold has in HAS; destruct (Z.eqb_spec (zlen (mem (wk_slice wk))) 0); [discriminate HAS|assumption]).
      destruct (Z.ltb_spec (zlen (q_rdata q)) 2) as [L2|L2].
      * set (q1 := q_set_rdata q (q_rdata q ++ [wk_slice wk])). set (wk1 := WK (wk_c wk) (wk_dec wk) mb_empty (wk_done wk)).
        assert (C1 : tvc n pw ci ces outsW pa pb les R e q1 (TW wk1 buf mn (WPush KPull None) Awake) m).
        { apply (tvc_worker _ _ _ _ _ _ _ _ _ _ _ _ _ _ _ _ _ _ _ _ C); try reflexivity; try assumption.
          - exact (sent_spec wl D _ _ _ _ _ _ _ _ _ W S0 L2).
          - unfold held. cbn [tw_w wk1 wk_slice q1 q_data q_rdata q_set_rdata]. rewrite zlen_app. change (zlen (mem mb_empty) =? 0) with true. change (zlen [wk_slice wk]) with 1. destruct (Z.eqb_spec (zlen (mem (wk_slice wk))) 0); [contradiction|]. lia.
          - unfold wpc_ok. cbn [tw_w tw_pc tw_buf]. auto 10. }
        destruct (results_spec n pw ci ces outsW pa pb les R e (SH q false false wt) (SH q1 false false wt) _ m KPull None true C1 eq_refl eq_refl eq_refl) as (s' & w' & note & -> & n' & pw' & ci' & ces' & outs' & C' & E' & WT' & BL' & NT' & PR'); try reflexivity; try discriminate.
        assert (PHI : phi n pw pa q1 (TW wk1 buf mn (WPush KPull None) Awake) m < phi n pw pa q (TW wk buf mn (WPush KPull None) Awake) m).
        { unfold phi. cbn [tw_w tw_buf q1 q_data q_rdata q_res q_set_rdata wk1 wk_slice]. rewrite S0, zlen_app. change (qbytes (q_set_rdata q _)) with (qbytes q). change (zlen [wk_slice wk]) with 1. change (zlen (mem mb_empty) =? 0) with true. change (mb_data mb_empty) with (@nil Z). destruct (Z.eqb_spec (zlen (mem (wk_slice wk))) 0); [contradiction|]. unfold pcw. cbn [tw_pc]. cbn iota. change (qbytes q1) with (qbytes q). lia. }
        assert (PR2 : phi n' pw' pa (sh_q s') w' m < phi n pw pa q (TW wk buf mn (WPush KPull None) Awake) m) by (change (sh_q (SH q1 false false wt)) with q1 in PR'; destruct PR' as [PR'|(PR' & _)]; lia). clear PR' PHI.
        apply (FIN _ _ _ n' pw' ci' ces' outs'); [exact C'|exact E'|exact WT'|exact BL'| |left; exact PR2]. destruct NT' as [X|X]; [left; exact X|right; rewrite X; reflexivity].
      * apply (FIN _ _ _ n pw ci ces outsW); cbn [sh_wait sh_q sh_failed sh_err sh_waiters tw_sleep tw_st tw_w tw_buf tw_min tw_pc slp]; [|split; reflexivity|lia| |right; reflexivity|].
        -- apply (tvc_pc _ _ _ _ _ _ _ _ _ _ _ _ _ _ _ _ _ _ _ C); [reflexivity|]. unfold wpc_ok. cbn [tw_w tw_pc tw_buf]. auto 10.
        -- intros _. left. auto.
        -- right. split; [|split; reflexivity]. unfold phi, pcw. cbn [tw_w tw_buf tw_pc]. reflexivity.
    + destruct (results_spec n pw ci ces outsW pa pb les R e (SH q false false wt) (SH q false false wt) _ m kk pm false C eq_refl eq_refl eq_refl) as (s' & w' & note & E1 & n' & pw' & ci' & ces' & outs' & C' & E' & WT' & BL' & NT' & PR'); try reflexivity.
      { intros ->. unfold has in HAS. cbn [tw_w]. destruct (Z.eqb_spec (zlen (mem (wk_slice wk))) 0); [assumption|discriminate HAS]. }
      rewrite E1. apply (FIN _ _ _ n' pw' ci' ces' outs'); [exact C'|exact E'|exact WT'|exact BL'| |exact PR']. destruct NT' as [X|X]; [left; exact X|right; rewrite X; reflexivity].
  - (* pull_data *)
    destruct WO as (M0 & NN & NT & LB). cbn [sh_q sh_err]. destruct (q_data q) as [|b bs] eqn:QD.
    + apply (FIN _ _ _ n pw ci ces outsW); cbn [sh_wait sh_q sh_failed sh_err sh_waiters tw_sleep tw_st tw_w tw_buf tw_min tw_pc slp]; [|split; reflexivity|lia| |right; reflexivity|].
      * apply (tvc_pc _ _ _ _ _ _ _ _ _ _ _ _ _ _ _ _ _ _ _ C); [reflexivity|]. unfold wpc_ok. cbn [tw_w tw_pc tw_buf]. auto 10.
      * intros _. assumption.
      * right. split; [|split; reflexivity]. unfold phi, pcw. cbn [tw_w tw_buf tw_pc]. reflexivity.
    + pose proof (bok_mem0 _ (wv_slice _ _ _ _ _ _ _ _ _ _ _ W) M0) as S0.
      destruct (pulled_spec wl D _ _ _ _ _ _ _ _ _ b bs W S0 QD) as (W1 & MB1).
      apply (FIN _ _ _ n pw ci ces outsW); cbn [sh_set_q sh_q sh_failed sh_err sh_waiters tw_set_w tw_st tw_w tw_buf tw_min tw_pc slp]; [|split; reflexivity|lia|discriminate|right; reflexivity|].
      * apply (tvc_worker _ _ _ _ _ _ _ _ _ _ _ _ _ _ _ _ _ _ _ _ C); try reflexivity; try assumption.
        -- unfold held. cbn [tw_set_w tw_w wk_slice q_data q_rdata q_set_data]. rewrite QD, zlen_cons, M0. change (0 =? 0) with true. cbn iota. destruct (Z.eqb_spec (zlen (mem b)) 0); [contradiction|]. lia.
        -- split; [exact WD|exact LB].
      * left. unfold phi. cbn [tw_set_w tw_w tw_buf wk_slice q_set_data q_data q_rdata q_res]. unfold qbytes. cbn [q_set_data q_data]. rewrite QD, S0, M0. cbn [map concat]. rewrite zlen_cons, zlen_app. change (0 =? 0) with true. change (zlen (@nil Z)) with 0. destruct (Z.eqb_spec (zlen (mem b)) 0); [contradiction|]. unfold pcw. cbn [tw_set_w tw_pc]. cbn iota. lia.
  - (* pull_context_map *)
    destruct WO as (IP & HP & LB). cbn [sh_q sh_err]. destruct (q_cm q) as [|p ps] eqn:QC.
    + apply (FIN _ _ _ n pw ci ces outsW); cbn [sh_wait sh_q sh_failed sh_err sh_waiters tw_sleep tw_st tw_w tw_buf tw_min tw_pc slp]; [|split; reflexivity|lia| |right; reflexivity|].
      * apply (tvc_pc _ _ _ _ _ _ _ _ _ _ _ _ _ _ _ _ _ _ _ C); [reflexivity|]. unfold wpc_ok. cbn [tw_w tw_pc tw_buf]. auto 10.
      * intros _. assumption.
      * right. split; [|split; reflexivity]. unfold phi, pcw. cbn [tw_w tw_buf tw_pc]. reflexivity.
    + pose proof (wv_tok _ _ _ _ _ _ _ _ _ _ _ W) as TK. cbn [aq q_cm] in TK. rewrite QC, app_length in TK. cbn [length] in TK.
      assert (MP : amap m = [] /\ ps = []) by (destruct (amap m), ps; cbn [length] in TK; try lia; auto). destruct MP as (MP & ->).
      assert (QA : q_cm (aq q (TW wk buf mn WMap Awake) m) = [p]) by (cbn [aq q_cm]; rewrite MP, QC; reflexivity).
      destruct (map_spec wl D _ _ _ _ _ _ _ _ _ p W HP QA) as (W1 & H1).
      apply (FIN _ _ _ n p ci ces outsW); cbn [sh_set_q sh_q sh_failed sh_err sh_waiters tw_set_w tw_st tw_w tw_buf tw_min tw_pc slp]; [|split; reflexivity|lia|discriminate|left; reflexivity|].
      * apply (tvc_worker _ _ _ _ _ _ _ _ _ _ _ _ _ _ _ _ _ _ _ _ C); try reflexivity; try assumption.
        -- cbn [tw_set_w tw_w]. unfold aq. cbn [tw_set_w q_set_cm q_data q_cm q_res q_rdata q_rcm q_eof tw_buf apend tw_pc]. rewrite MP. exact W1.
        -- split; [exact WD|exact LB].
      * left. unfold phi. cbn [tw_set_w tw_w tw_buf wk_slice wk_set_c q_set_cm q_data q_rdata q_res]. change (qbytes (q_set_cm q [])) with (qbytes q). rewrite H1. unfold hs. rewrite HP. unfold pcw. cbn [tw_set_w tw_pc]. cbn iota. lia.
Qed.
End Step.
