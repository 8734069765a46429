(** Two threads: the main thread's steps. *)
From Verif Require ProofRecode3.
From Verif Require Import Prelude ProofList ModelAns SpecAns ModelCdf SpecCdf ModelRecode SpecLz ProofRecode ProofRecode2 ProofAns ProofAnsRt ProofAnsDec ThmCdf ModelMux ProofZlist ProofMux ProofMuxR ModelCmd ModelCrc SpecCrc ProofCrc ModelHeader SpecHeader ProofHeader ModelPriors ModelCodec ModelLit ModelPm ModelTop SpecCodec SpecReplay SpecFile ModelEnc ProofSim ModelDec ProofDec1 ProofDec2 ProofDec3 ProofDec4 ProofDec5 ProofDec6 ModelThread ProofThread1 ProofThread2.

Lemma process_input_shape skip q m i n q' m' ok : process_input skip q m i = Some (n, q', m', ok) ->
  ((q' = q /\ m_out m' = m_out m) \/ (exists b, mb_data b <> [] /\ q' = q_set_data q (q_data q ++ [b]) /\ m_out m' = m_out m + 1)) /\
  m_cmds m' = m_cmds m /\ m_eof m' = m_eof m /\
  (forall q2, q_data q2 = q_data q -> process_input skip q2 m i = Some (n, q_set_data q2 (q_data q'), m', ok)) /\
  (0 <= m_out m -> ok = true -> receiving m' = true).
Proof.
  unfold process_input. destruct (deserialize (m_mux m) i) as [(n0 & x)|]; [|discriminate]. cbn [bind].
  destruct (if is_done (eof x) then read_trailer (m_trailer m) (zskip n0 i) else (m_trailer m, 0%nat)) as (tr & amt).
  destruct (Z.eqb_spec (wr (buf0 x) - rd (buf0 x)) 0) as [Z0|Z0]; cbn [negb].
  - intros [= <- <- <- <-]. split; [left; auto|]. split; [reflexivity|]. split; [reflexivity|]. split.
    + intros q2 E. rewrite <- E. destruct q2; reflexivity.
    + intros P X. unfold receiving, ready. cbn [m_out m_mux m_set_in]. change (getb x 0) with (buf0 x). rewrite Z0. destruct (0 <? m_out m); [reflexivity|]. rewrite orb_false_r in X. rewrite X. reflexivity.
  - unfold q_push. destruct ((2 <=? zlen (q_data q)) || (zlen (mb_data (buf0 x)) =? 0)) eqn:PU.
    + intros [= <- <- <- <-]. split; [left; auto|]. split; [reflexivity|]. split; [reflexivity|]. split.
      * intros q2 E. rewrite E, PU. rewrite <- E. destruct q2; reflexivity.
      * intros P X. unfold receiving. cbn [m_out m_set_in]. destruct (Z.eqb_spec (m_out m) 0); [discriminate X|]. destruct (Z.ltb_spec 0 (m_out m)); [reflexivity|lia].
    + intros [= <- <- <- <-]. apply orb_false_elim in PU. destruct PU as (P1 & P2). apply Z.eqb_neq in P2. split; [right; exists (buf0 x)|].
      { split; [intros X; apply P2; rewrite X; reflexivity|]. auto. }
      split; [reflexivity|]. split; [reflexivity|]. split.
      * intros q2 E. rewrite E, P1. destruct (Z.eqb_spec (zlen (mb_data (buf0 x))) 0); [contradiction|]. cbn [orb q_data q_set_data]. reflexivity.
      * intros P _. unfold receiving. cbn [m_out m_set_in]. destruct (Z.ltb_spec 0 (m_out m + 1)); [reflexivity|lia].
Qed.
Definition tres_of (r : fres) : tres := match r with FOk => TOk | FIn => TIn | FOut => TOut | FFail => TFail end.
Lemma output_front_eq dict m room : output_front dict m room = let? '(o, m, r) := front dict m room in Some (o, m, tres_of r).
Proof.
  unfold output_front, front. destruct (m_lit m).
  - destruct (content (content_fuel m) m) as [(m1 & [|])|]; cbn [bind]; try reflexivity. destruct (m_lit m1) as [(? & ?)|]; cbn [bind negb]; try reflexivity.
    cbn [m_pop m_set_pop]. destruct (encode_cmd _ _ _ _ _) as [((r & o) & x)|]; cbn [bind]; try reflexivity. destruct r; reflexivity.
  - cbn [bind negb]. destruct (m_pop m); [|reflexivity]. destruct (encode_cmd _ _ _ _ _) as [((r & o) & x)|]; cbn [bind]; try reflexivity. destruct r; reflexivity.
Qed.
Lemma receiving_keep m m' : keep_in m m' -> receiving m' = receiving m.
Proof. intros ((b & A1) & _ & _ & A4 & _). unfold receiving, ready. rewrite A1, A4. reflexivity. Qed.
Lemma take_command_keeps c q m q' m' r : take_command c q m = Some (q', m', r) -> m_mux m' = m_mux m /\ m_out m' = m_out m /\ m_eof m' = m_eof m /\ m_cmds m' = m_cmds m /\ m_trailer m' = m_trailer m /\
  ((forall x, c <> PredictionMode x) -> q' = q /\ forall q2, take_command c q2 m = Some (q2, m', r)).
Proof.
  destruct c as [d ln|ws wid tr fs|data he|p|t|t|t st]; cbn [take_command]; try (intros [= <- <- <-]; do 5 (split; [reflexivity|]); intros _; split; [reflexivity|intros q2; reflexivity]).
  destruct (obs_prediction_mode _ _) as [l|e|]; [|intros [= <- <- <-]|discriminate].
  - unfold assert. destruct (_ <? 2); [|discriminate]. intros [= <- <- <-]. do 5 (split; [reflexivity|]). intros H. contradiction (H p). reflexivity.
  - do 5 (split; [reflexivity|]). intros H. contradiction (H p). reflexivity.
Qed.
Lemma mph_idle dict wlen m e outs les hf pb : mph dict wlen m e outs les hf pb -> midling m -> midle dict wlen m e outs les hf pb.
Proof. intros [H|[(c & h0 & h & X1 & X2 & _)|(s & t & l1 & l2 & s1 & l3 & h & X1 & _)]] (A & B); [exact H|congruence|congruence]. Qed.

Section Main.
Context (dict : dict_fn) (wl : word_len_fn) (D : dims) (wlen k : Z) (K8 : 3 <= k) (WL : wlen = 2 ^ k) (W1 : 1 < wlen) (skip : bool) (Tr hf : list Z) (future tail : list Z).
Notation PINV := (pinv dict wl D wlen skip Tr hf).
Notation TVC := (tvc dict wl D wlen skip Tr hf).
Notation TV := (tv dict wl D wlen skip Tr hf).
Notation REM := (rem Tr).

(** the call's input and what a return means *)
Record mi (R e : list Z) (m : mthread) : Prop := {
  mi_b : bytes (tm_in m);
  mi_eq : tm_in m ++ future = REM R (tm_m m) ++ tail;
  mi_room : 0 <= tm_room m;
  mi_stop : tm_pc m <> MIn -> REM R (tm_m m) <> [] -> tm_in m = [];
  mi_ret : match tm_pc m with
           | MRet DSuccess => e = hf /\ REM R (tm_m m) = [] /\ m_eof (tm_m m) = true
           | MRet DNeedIn => REM R (tm_m m) <> []
           | MRet DNeedOut => tm_room m = 0
           | MRet DFail => False
           | _ => True
           end }.
Definition mgo (m m' : mthread) (R R' e e' : list Z) : Prop :=
  (exists pre, tm_in m = pre ++ tm_in m' /\ tm_n m' = tm_n m + zlen pre /\ REM R (tm_m m) = pre ++ REM R' (tm_m m')) /\
  (exists o, tm_out m' = tm_out m ++ o /\ tm_room m' = tm_room m - zlen o /\ e' = e ++ o).
Lemma mi_step R e m m' o : mi R e m -> tm_pc m <> MIn -> tm_pc m' <> MIn -> tm_in m' = tm_in m -> tm_n m' = tm_n m -> m_trailer (tm_m m') = m_trailer (tm_m m) ->
  tm_out m' = tm_out m ++ o -> tm_room m' = tm_room m - zlen o -> zlen o <= tm_room m ->
  match tm_pc m' with
  | MRet DSuccess => e ++ o = hf /\ REM R (tm_m m) = [] /\ m_eof (tm_m m') = true
  | MRet DNeedIn => REM R (tm_m m) <> []
  | MRet DNeedOut => tm_room m = zlen o
  | MRet DFail => False
  | _ => True
  end -> mi R (e ++ o) m' /\ mgo m m' R R e (e ++ o).
Proof.
  clear K8 WL W1. intros [B E RM ST RT] P P' E1 E2 E3 E4 E5 E6 E7.
  assert (RR : REM R (tm_m m') = REM R (tm_m m)) by (unfold rem; rewrite E3; reflexivity).
  split.
  - constructor; rewrite ?RR, ?E1, ?E5; auto; [lia|]. destruct (tm_pc m') as [[]| | | | | |]; auto. lia.
  - split; [exists []; rewrite E1, E2, RR; change (zlen (@nil Z)) with 0; cbn [app]; split; [reflexivity|]; split; [lia|reflexivity]|]. exists o. auto.
Qed.

Definition mprog n pw pa pa' (s : shared) w m s' m' (note : bool) : Prop :=
  phi n pw pa' (sh_q s') w m' < phi n pw pa (sh_q s) w m \/ (phi n pw pa' (sh_q s') w m' = phi n pw pa (sh_q s) w m /\ note = false /\ tm_st m' = Asleep).
Lemma mfin n pw ci ces outsW pa pb les R e s w m pa' pb' les' R' e' s' m' note : TV n pw ci ces outsW pa pb les R e s w m -> tm_st m = Awake ->
  TVC n pw ci ces outsW pa' pb' les' R' e' (sh_q s') w m' -> mpc_ok m' -> sh_failed s' = false /\ sh_err s' = false -> sh_waiters s' = sh_waiters s + slp (tm_st m') ->
  (tm_st m' = Asleep -> tm_pc m' = MPull /\ result_ready s' = false) -> note = notify s \/ (wblocked (sh_q s) w -> wblocked (sh_q s') w) ->
  mprog n pw pa pa' s w m s' m' note ->
  let w' := if note then tw_set_st w (wake (tw_st w)) else w in
  TV n pw ci ces outsW pa' pb' les' R' e' s' w' m' /\ meas n pw pa' s' w' m' < meas n pw pa s w m.
Proof.
  intros V AW C MO E W B N P. pose proof V as [VC VM VE VW VS VMS]. cbn zeta.
  assert (NA : tw_st w = Asleep -> note = true \/ wblocked (sh_q s') w).
  { intros X. destruct N as [-> |N]; [left; eapply notify_asleep; eauto|right; apply N, VS, X]. }
  rewrite VW, AW in W. cbn [slp] in W.
  assert (M : exists x, (if note then tw_set_st w (wake (tw_st w)) else w) = tw_set_st w x /\ slp x = slp (tw_st w) /\ awk x <= awk (tw_st w) + b2z note /\ (x = Asleep -> wblocked (sh_q s') w)).
  { destruct note; [exists (wake (tw_st w)); split; [reflexivity|]; split; [apply slp_wake|]; split; [pose proof (awk_wake (tw_st w)); pose proof (awk_le (tw_st w)); cbn [b2z]; lia|]; destruct (tw_st w); discriminate|].
    exists (tw_st w). split; [destruct w; reflexivity|]. split; [reflexivity|]. split; [cbn [b2z]; lia|]. intros X. destruct (NA X) as [Y|Y]; [discriminate Y|exact Y]. }
  destruct M as (x & -> & SX & AX & MX). split.
  - constructor; try assumption.
    + destruct m' as [a b c d f g h]. exact (tvc_st _ _ _ _ _ _ _ _ _ _ _ _ _ _ _ _ _ _ _ _ x c C).
    + cbn [tw_st tw_set_st]. lia.
  - unfold meas. assert (PH : phi n pw pa' (sh_q s') (tw_set_st w x) m' = phi n pw pa' (sh_q s') w m') by (destruct m' as [a b c d f g h]; exact (phi_st n pw pa' (sh_q s') w (TM a b c d f g h) x c)). rewrite PH. cbn [tw_st tw_set_st]. rewrite AW. cbn [awk].
    pose proof (awk_le (tm_st m')). pose proof (awk_le (tw_st w)). assert (0 <= b2z note <= 1) by (destruct note; cbn; lia).
    destruct P as [P|(P & -> & ->)]; [lia|]. cbn [b2z awk] in *. lia.
Qed.
Lemma tvc_main n pw ci ces outsW pa pb les R e q w m pa' pb' les' R' e' q' m' : TVC n pw ci ces outsW pa pb les R e q w m ->
  PINV n pw ci ces outsW pa' pb' les' R' e' (tw_w w) (aq q' w m') (am m') -> q_rcm q' = q_rcm q -> q_res q' = q_res q -> TVC n pw ci ces outsW pa' pb' les' R' e' q' w m'.
Proof. intros [A B RC RS RE WO] P E1 E2. constructor; rewrite ?E1, ?E2; assumption. Qed.
Lemma pinv_keep n pw ci ces outsW pa pb les R e w q m m' e' les' : PINV n pw ci ces outsW pa pb les R e w q m -> keep_in m m' -> mph dict wlen m' e' (pending q m outsW) les' hf pb ->
  PINV n pw ci ces outsW pa pb les' R e' w q m'.
Proof.
  intros [SV RD TI CI PH] KI MP. pose proof (keep_io_in _ _ KI) as KO. pose proof KO as (K1 & K2 & K3 & K4). constructor.
  - apply (sinv_keep _ _ _ _ _ _ _ _ _ _ _ _ SV KI). eapply mph_bok. exact MP.
  - unfold st in RD |- *. rewrite K1, K2. exact RD.
  - apply (tinv_keep _ _ _ _ _ KO TI).
  - unfold crcinv in *. rewrite K3. exact CI.
  - rewrite (pending_keep _ _ _ _ KI). exact MP.
Qed.

Lemma mstep_spec n pw ci ces outsW pa pb les R e s w m : TV n pw ci ces outsW pa pb les R e s w m -> mi R e m -> tm_st m = Awake -> in_call m = true ->
  exists s' m' note pa' pb' les' R' e', mstep dict skip s m = Some (s', m', note) /\
    (let w' := if note then tw_set_st w (wake (tw_st w)) else w in
     TV n pw ci ces outsW pa' pb' les' R' e' s' w' m' /\ meas n pw pa' s' w' m' < meas n pw pa s w m) /\
    mi R' e' m' /\ mgo m m' R R' e e'.
Proof.
  intros V MI AW IC. pose proof V as [C MO (VF & VE) VW VS _]. destruct m as [x pc st0 inp nn out room]. cbn [tm_st] in AW. subst st0. destruct s as [q f er wt]. cbn [sh_q sh_failed sh_err sh_waiters] in *. subst f er.
  pose proof C as [P B RC RS RE WO].
  unfold mstep. cbn [tm_pc tm_m tm_in tm_n tm_out tm_room sh_q sh_failed sh_err] in *.
  (* how a step ends *)
  assert (FIN : forall s' m' note pa' pb' les' R' e', TVC n pw ci ces outsW pa' pb' les' R' e' (sh_q s') w m' -> mpc_ok m' -> sh_failed s' = false /\ sh_err s' = false -> sh_waiters s' = wt + slp (tm_st m') ->
    (tm_st m' = Asleep -> tm_pc m' = MPull /\ result_ready s' = false) -> note = notify (SH q false false wt) \/ (wblocked q w -> wblocked (sh_q s') w) ->
    (phi n pw pa' (sh_q s') w m' < phi n pw pa q w (TM x pc Awake inp nn out room) \/ (phi n pw pa' (sh_q s') w m' = phi n pw pa q w (TM x pc Awake inp nn out room) /\ note = false /\ tm_st m' = Asleep)) ->
    mi R' e' m' /\ mgo (TM x pc Awake inp nn out room) m' R R' e e' ->
    exists s'0 m'0 note0 pa'0 pb'0 les'0 R'0 e'0, Some (s', m', note) = Some (s'0, m'0, note0) /\
      (let w' := if note0 then tw_set_st w (wake (tw_st w)) else w in
       TV n pw ci ces outsW pa'0 pb'0 les'0 R'0 e'0 s'0 w' m'0 /\ meas n pw pa'0 s'0 w' m'0 < meas n pw pa (SH q false false wt) w (TM x pc Awake inp nn out room)) /\
      mi R'0 e'0 m'0 /\ mgo (TM x pc Awake inp nn out room) m'0 R R'0 e e'0).
  { intros s' m' note pa' pb' les' R' e' H1 H2 H3 H4 H5 H6 H7 H8. exists s', m', note, pa', pb', les', R', e'. split; [reflexivity|]. split; [|exact H8]. apply (mfin _ _ _ _ _ _ _ _ _ _ _ _ _ _ _ _ _ _ _ _ _ V eq_refl H1 H2 H3); assumption. }
  pose proof MI as [MBy ME MR MS _]. cbn [tm_in tm_m tm_room tm_pc] in MBy, ME, MR, MS.
  destruct pc as [r| | | | |bufs nd bad|p]; [discriminate IC| | | | | |].
  - (* decode_process_input *)
    assert (AM : am (TM x MIn Awake inp nn out room) = x) by (apply am_same; reflexivity). rewrite AM in P.
    destruct (process_input_spec dict wl D wlen k K8 skip Tr hf _ _ _ _ _ _ _ _ _ _ _ _ _ _ _ _ P MBy ME) as (pre & suf & R1 & pa1 & pb1 & q1 & m1 & ok & EQ & IN & RR & P1 & STOP & OK & PE1 & RD1 & TT1 & QB1).
    destruct (process_input_shape _ _ _ _ _ _ _ _ EQ) as (SH1 & SC & SE & SQ1 & SR).
    rewrite (SQ1 q eq_refl). cbn [bind].
    assert (OUT0 : 0 <= m_out x) by (rewrite (sv_out _ _ _ _ _ _ _ _ _ _ _ (pv_s _ _ _ _ _ _ _ _ _ _ _ _ _ _ _ _ _ _ _ _ P)); apply (held_nonneg k K8)).
    specialize (SR OUT0).
    assert (ZS : zskip (zlen pre) inp = suf) by (rewrite IN; unfold zskip, zlen; rewrite Nat2Z.id, skipn_app, skipn_all, Nat.sub_diag; reflexivity). rewrite ZS.
    set (pc' := if negb ok then MRet DNeedIn else if receiving m1 then MOut else MIn).
    assert (PC : pc' = if ok then MOut else MRet DNeedIn) by (unfold pc'; destruct ok; [rewrite (SR eq_refl)|]; reflexivity). clearbody pc'. subst pc'.
    assert (AQ : aq (q_set_data q (q_data q1)) w (TM m1 (if ok then MOut else MRet DNeedIn) Awake suf (nn + zlen pre) out room) = q1).
    { unfold aq. replace (amap _) with (@nil predmode) by (destruct ok; reflexivity). cbn [q_set_data q_data q_cm q_res q_rdata q_rcm q_eof app]. destruct SH1 as [(-> & _)|(b & _ & -> & _)]; unfold aq; reflexivity. }
    assert (PHI : phi n pw pa1 (q_set_data q (q_data q1)) w (TM m1 (if ok then MOut else MRet DNeedIn) Awake suf (nn + zlen pre) out room) < phi n pw pa q w (TM x MIn Awake inp nn out room)).
    { unfold phi, back, pcm. cbn [tm_m tm_pc]. rewrite SC, SE. unfold tot in TT1. rewrite !app_length in TT1. unfold qbytes in TT1 |- *. cbn [q_set_data q_data q_rdata q_res] in *. change (q_data (aq q w (TM x MIn Awake inp nn out room))) with (q_data q) in *.
      set (PW := pcw w). set (E0 := if m_eof x then 0 else 4). set (M0 := if zlen (mem (wk_slice (tw_w w))) =? 0 then 0 else 1). set (T0 := 10 * _). set (N0 := zlen (tw_buf w)). set (N1 := zlen (q_res q)). set (N2 := zlen (q_rdata q)). set (N3 := zlen (m_cmds x)). clearbody PW E0 M0 T0 N0 N1 N2 N3.
      assert (PO : (match (if ok then MOut else MRet DNeedIn) with MRet _ => 0 | MIn => 4 | MOut => 3 | MNext => 2 | MPull => 1 | _ => 4 end) <= 3) by (destruct ok; lia).
      replace (match (if ok then MOut else MRet DNeedIn) with MBack bufs _ _ => bufs | _ => [] end) with (@nil mbuf) by (destruct ok; reflexivity).
      destruct SH1 as [(-> & _)|(b & NE & -> & _)]; change (q_data (aq q w (TM x MIn Awake inp nn out room))) with (q_data q) in *.
      - rewrite !zlen_len in *. lia.
      - assert (1 <= zlen (mb_data b)) by (rewrite zlen_len; destruct (mb_data b); [contradiction NE; reflexivity|cbn [length]; lia]).
        cbn [q_set_data q_data] in *. change (q_data (aq q w (TM x MIn Awake inp nn out room))) with (q_data q) in *. rewrite map_app, concat_app, app_length in TT1. rewrite map_app, concat_app, !zlen_app. cbn [map concat] in *. rewrite app_nil_r in *. change (zlen [b]) with 1. rewrite !zlen_len in *. lia. }
    apply (FIN _ _ _ pa1 pb1 les R1 e); cbn [sh_set_q sh_q sh_failed sh_err sh_waiters tm_st slp]; [|destruct ok; [exact (SR eq_refl)|exact Logic.I]|split; reflexivity|lia|discriminate| |left; exact PHI|].
    + apply (tvc_main _ _ _ _ _ _ _ _ _ _ _ _ _ _ _ _ _ _ _ _ C); [|reflexivity|reflexivity]. rewrite AQ, am_same by (destruct ok; reflexivity). exact P1.
    + destruct SH1 as [(-> & _)|(b & NE & -> & _)]; [right; auto|left]. cbn [q_set_data q_data]. change (q_data (aq _ _ _)) with (q_data q). rewrite zlen_app. change (zlen [b]) with 1. destruct (Z.ltb_spec (zlen (q_data q)) (zlen (q_data q) + 1)); [reflexivity|lia].
    + split.
      * constructor; cbn [tm_in tm_m tm_room tm_pc].
        -- rewrite IN in MBy. unfold bytes in *. apply Forall_app in MBy. apply MBy.
        -- rewrite IN, RR in ME. rewrite <- !app_assoc in ME. apply app_inv_head in ME. exact ME.
        -- exact MR.
        -- intros _. exact STOP.
        -- destruct ok; [exact Logic.I|]. apply OK. reflexivity.
      * split; [exists pre; cbn [tm_in tm_n tm_m]; auto|]. exists []. cbn [tm_out tm_room]. rewrite !app_nil_r. change (zlen (@nil Z)) with 0. rewrite Z.sub_0_r. auto.
  - (* the top of the output loop *)
    assert (AM : am (TM x MOut Awake inp nn out room) = x) by (apply am_same; reflexivity). rewrite AM in P. pose proof P as [SV RD TI CI PH].
    rewrite output_front_eq. destruct (front_spec dict wlen x _ _ _ _ _ _ W1 PH MR) as (o & m1 & r & -> & LO & KI & FR). cbn [bind].
    pose proof (receiving_keep _ _ KI) as RK. rewrite MO in RK.
    pose proof (keep_io_in _ _ KI) as (K1 & K2 & K3 & K4).
    assert (PHI : forall pc', (match pc' with MNext | MRet _ => True | _ => False end) -> phi n pw pa q w (TM m1 pc' Awake inp nn (out ++ o) (room - zlen o)) < phi n pw pa q w (TM x MOut Awake inp nn out room)).
    { intros pc' HP. destruct KI as ((b & A1) & _ & _ & _ & A5 & A6 & _). unfold phi, back, pcm. cbn [tm_m tm_pc]. rewrite A1, A5, A6. change (buf0 (setb (m_mux x) 1 b)) with (buf0 (m_mux x)). destruct pc'; try contradiction HP; cbn iota; change (zlen (@nil mbuf)) with 0; lia. }
    assert (GO : forall pc' les', mph dict wlen m1 (e ++ o) (pending (aq q w (TM x MOut Awake inp nn out room)) x outsW) les' hf pb -> (match pc' with MNext => midling m1 | MRet DNeedIn => REM R x <> [] | MRet DNeedOut => room = zlen o | _ => False end) ->
      exists s' m' note pa' pb' les' R' e', Some (SH q false false wt, tm_put (TM x MOut Awake inp nn out room) m1 pc' o, false) = Some (s', m', note) /\
      (let w' := if note then tw_set_st w (wake (tw_st w)) else w in
       TV n pw ci ces outsW pa' pb' les' R' e' s' w' m' /\ meas n pw pa' s' w' m' < meas n pw pa (SH q false false wt) w (TM x MOut Awake inp nn out room)) /\
      mi R' e' m' /\ mgo (TM x MOut Awake inp nn out room) m' R R' e e').
    { intros pc' les' MP HP. unfold tm_put. cbn [tm_in tm_n tm_out tm_room].
      assert (NB : back (TM m1 pc' Awake inp nn (out ++ o) (room - zlen o)) = [] /\ amap (TM m1 pc' Awake inp nn (out ++ o) (room - zlen o)) = [] /\ pc' <> MIn) by (destruct pc'; try contradiction HP; (split; [reflexivity|]; split; [reflexivity|discriminate])). destruct NB as (NB & NA & NI).
      apply (FIN _ _ _ pa pb les' R (e ++ o)); cbn [sh_q sh_failed sh_err sh_waiters tm_st slp]; [| |split; reflexivity|lia|discriminate|right; auto|left; apply PHI; destruct pc'; try contradiction HP; exact Logic.I|].
      - apply (tvc_main _ _ _ _ _ _ _ _ _ _ _ _ _ _ _ _ _ _ _ _ C); [|reflexivity|reflexivity]. rewrite (am_same _ NB). unfold aq. rewrite NA. cbn [app tm_m]. exact (pinv_keep _ _ _ _ _ _ _ _ _ _ _ _ _ _ _ _ P KI MP).
      - unfold mpc_ok. cbn [tm_m tm_pc]. destruct pc'; try contradiction HP; auto.
      - apply (mi_step _ _ _ _ _ MI); cbn [tm_sleep tm_pc tm_in tm_n tm_m tm_out tm_room]; auto; [discriminate|]. destruct pc' as [[]| | | | | |]; first [exact HP|exact Logic.I|contradiction HP]. }
    destruct r; cbn [tres_of]; [| | |contradiction FR].
    + destruct FR as (les1 & ID). apply (GO MNext les1); [left; exact ID|]. destruct ID as (A1 & A2 & _). split; assumption.
    + destruct FR as (_ & (les1 & ML) & _ & PB). apply (GO (MRet DNeedIn) les1); [right; right; exact ML|]. apply rem_nonempty. intros ->. apply PB, (sread_end _ _ _ RD).
    + destruct FR as (EO & les1 & MP). apply (GO (MRet DNeedOut) les1); [right; left; exact MP|]. symmetry. exact EO.
  - (* the next command *)
    destruct MO as (RV & MD). cbn [tm_m] in RV, MD.
    assert (AM : am (TM x MNext Awake inp nn out room) = x) by (apply am_same; reflexivity). rewrite AM in P. pose proof P as [SV RD TI CI PH].
    pose proof (mph_idle _ _ _ _ _ _ _ _ PH MD) as ID.
    destruct (m_cmds x) as [|c cs] eqn:MC.
    + destruct (m_eof x) eqn:MEO.
      * pose proof (sinv_end _ _ _ _ _ _ _ _ _ _ _ SV MEO MC) as PN. pose proof ID as ID0. rewrite PN in ID0.
        destruct (finish_spec dict wlen k K8 skip Tr R x e les hf pb room TI ID0 MR) as (o & m1 & r & -> & LO & KI & ID1 & RES). cbn [bind].
        pose proof (keep_io_in _ _ KI) as (K1 & K2 & K3 & K4). unfold tm_put. cbn [tm_in tm_n tm_out tm_room].
        apply (FIN _ _ _ pa pb les R (e ++ o)); cbn [sh_q sh_failed sh_err sh_waiters tm_st slp]; [|exact Logic.I|split; reflexivity|lia|discriminate|right; auto| |].
        -- apply (tvc_main _ _ _ _ _ _ _ _ _ _ _ _ _ _ _ _ _ _ _ _ C); [|reflexivity|reflexivity]. rewrite am_same by reflexivity. unfold aq. cbn [amap tm_pc app tm_m]. apply (pinv_keep _ _ _ _ _ _ _ _ _ _ _ _ _ _ _ _ P KI). rewrite PN. left. exact ID1.
        -- left. destruct KI as ((b & A1) & _ & _ & _ & A5 & A6 & _). unfold phi, back, pcm. cbn [tm_m tm_pc]. rewrite A1, A5, A6. change (buf0 (setb (m_mux x) 1 b)) with (buf0 (m_mux x)). lia.
        -- apply (mi_step _ _ _ _ _ MI); cbn [tm_sleep tm_pc tm_in tm_n tm_m tm_out tm_room]; auto; [discriminate|discriminate|].
           pose proof (complete_rem k K8 skip Tr R x TI) as CR. unfold complete in CR. destruct r.
           ++ destruct RES as (R1 & R2). split; [exact R1|]. split; [apply CR, R2|]. destruct KI as (_ & _ & _ & _ & _ & A6 & _). rewrite A6. exact MEO.
           ++ intros X. apply CR in X. apply RES, X.
           ++ symmetry. exact RES.
           ++ exact RES.
      * unfold tm_go. cbn [tm_in tm_n tm_out tm_room]. apply (FIN _ _ _ pa pb les R e); cbn [sh_q sh_failed sh_err sh_waiters tm_st slp]; [|exact (conj RV (conj MD (conj MC MEO)))|split; reflexivity|lia|discriminate|right; auto| |].
        -- apply (tvc_main _ _ _ _ _ _ _ _ _ _ _ _ _ _ _ _ _ _ _ _ C); [|reflexivity|reflexivity]. rewrite am_same by reflexivity. exact P.
        -- left. unfold phi, back, pcm. cbn [tm_m tm_pc]. lia.
        -- rewrite <- (app_nil_r e) at 1 3. apply (mi_step _ _ _ _ [] MI); cbn [tm_sleep tm_pc tm_in tm_n tm_m tm_out tm_room]; rewrite ?app_nil_r; change (zlen (@nil Z)) with 0; auto; try discriminate. lia.
    + destruct (take_spec dict wl D wlen k K8 WL _ _ _ _ _ _ _ _ _ _ _ _ _ c cs SV ID MC) as (q1 & m1 & r & TK & SV1 & (les1 & PH1) & _ & KO & TT & _ & RR).
      destruct (take_command_keeps _ _ _ _ _ _ TK) as (A1 & A2 & A3 & A4 & A5 & A6). cbn [m_set_cmds m_mux m_out m_eof m_cmds m_trailer] in A1, A2, A3, A4, A5.
      assert (RV1 : receiving m1 = true) by (unfold receiving, ready in *; rewrite A1, A2; exact RV).
      pose proof KO as (K1 & K2 & K3 & K4).
      assert (P1 : PINV n pw ci ces outsW pa pb les1 R e (tw_w w) q1 m1).
      { constructor; try assumption.
        - unfold st in RD |- *. rewrite K1, K2. exact RD.
        - apply (tinv_keep _ _ _ _ _ KO TI).
        - unfold crcinv in *. rewrite K3. exact CI. }
      assert (GO : forall pc', (match pc' with MOut | MMap _ => True | _ => False end) -> q1 = aq q w (TM m1 pc' Awake inp nn out room) ->
        exists s' m' note pa' pb' les' R' e', Some (SH q false false wt, tm_go (TM x MNext Awake inp nn out room) m1 pc', false) = Some (s', m', note) /\
        (let w' := if note then tw_set_st w (wake (tw_st w)) else w in
         TV n pw ci ces outsW pa' pb' les' R' e' s' w' m' /\ meas n pw pa' s' w' m' < meas n pw pa (SH q false false wt) w (TM x MNext Awake inp nn out room)) /\
        mi R' e' m' /\ mgo (TM x MNext Awake inp nn out room) m' R R' e e').
      { intros pc' HP AQ. unfold tm_go. cbn [tm_in tm_n tm_out tm_room].
        apply (FIN _ _ _ pa pb les1 R e); cbn [sh_q sh_failed sh_err sh_waiters tm_st slp]; [| |split; reflexivity|lia|discriminate|right; auto| |].
        - apply (tvc_main _ _ _ _ _ _ _ _ _ _ _ _ _ _ _ _ _ _ _ _ C); [|reflexivity|reflexivity]. rewrite am_same by (destruct pc'; try contradiction HP; reflexivity). rewrite <- AQ. exact P1.
        - unfold mpc_ok. cbn [tm_m tm_pc]. destruct pc'; try contradiction HP; exact RV1.
        - left. unfold phi, back, pcm. cbn [tm_m tm_pc]. rewrite A1, A3, A4, MC, zlen_cons. destruct pc'; try contradiction HP; cbn iota; change (zlen (@nil mbuf)) with 0; lia.
        - rewrite <- (app_nil_r e) at 1 3. apply (mi_step _ _ _ _ [] MI); cbn [tm_sleep tm_pc tm_in tm_n tm_m tm_out tm_room]; rewrite ?app_nil_r; change (zlen (@nil Z)) with 0; auto; try discriminate; try lia; destruct pc'; try contradiction HP; try discriminate; exact Logic.I. }
      assert (OTHER : (forall p, c <> PredictionMode p) -> exists s' m' note pa' pb' les' R' e', (let? '(q0, m0, r0) := take_command c q (m_set_cmds x cs) in Some (sh_set_q (SH q false false wt) q0, tm_go (TM x MNext Awake inp nn out room) m0 MOut, false)) = Some (s', m', note) /\
        (let w' := if note then tw_set_st w (wake (tw_st w)) else w in
         TV n pw ci ces outsW pa' pb' les' R' e' s' w' m' /\ meas n pw pa' s' w' m' < meas n pw pa (SH q false false wt) w (TM x MNext Awake inp nn out room)) /\
        mi R' e' m' /\ mgo (TM x MNext Awake inp nn out room) m' R R' e e').
      { intros NP. destruct (A6 NP) as (EQ & TK2). rewrite (TK2 q). cbn [bind]. apply GO; [exact Logic.I|]. rewrite EQ. reflexivity. }
      destruct c as [d ln|ws wid tr fs|data he|p|t|t|t st]; try (apply OTHER; intros p X; discriminate X).
      cbn [take_command] in TK. destruct (obs_prediction_mode _ _) as [l|er|]; [|injection TK as _ _ <-; destruct RR; discriminate|discriminate TK].
      unfold assert in TK. destruct (_ <? 2) in TK; [|discriminate TK]. injection TK as EQ EM _. rewrite EM. apply (GO (MMap (fst (m_pred x)))); [exact Logic.I|]. rewrite <- EQ. reflexivity.
  - (* pull *)
    destruct MO as (RV & MD & MC & MEO). cbn [tm_m] in RV, MD, MC, MEO.
    assert (AM : am (TM x MPull Awake inp nn out room) = x) by (apply am_same; reflexivity). rewrite AM in P. pose proof P as [SV RD TI CI PH]. pose proof SV as [W RI OUT EO PQ PQ2 PS].
    rewrite MC in PQ. cbn [cpm Nat.eqb] in PQ. rewrite PQ, PS. cbn [negb andb assert].
    destruct (result_ready (SH q false false wt)) eqn:RR.
    2:{ apply (FIN _ _ _ pa pb les R e); cbn [sh_wait tm_sleep sh_q sh_failed sh_err sh_waiters tm_st slp tm_m tm_pc tm_in tm_n tm_out tm_room]; [|exact (conj RV (conj MD (conj MC MEO)))|split; reflexivity|lia|intros _; split; [reflexivity|exact RR]|right; auto| |].
        - apply (tvc_main _ _ _ _ _ _ _ _ _ _ _ _ _ _ _ _ _ _ _ _ C); [|reflexivity|reflexivity]. rewrite am_same by reflexivity. exact P.
        - right. split; [|split; reflexivity]. unfold phi, back, pcm. cbn [tm_m tm_pc]. reflexivity.
        - rewrite <- (app_nil_r e) at 1 3. apply (mi_step _ _ _ _ [] MI); cbn [tm_sleep tm_pc tm_in tm_n tm_m tm_out tm_room]; rewrite ?app_nil_r; change (zlen (@nil Z)) with 0; auto; try discriminate; lia. }
    assert (A2 : match q_res q with [] => negb (has_speeds (fst (q_rcm q))) && negb (has_speeds (snd (q_rcm q))) | _ => true end = true).
    { destruct (q_res q) eqn:QR; [|reflexivity]. rewrite RC, RS. reflexivity. }
    rewrite A2. cbn [assert].
    set (q1 := SQ (q_data q) (q_cm q) [] [] (m_pred x) (q_eof q)).
    set (m1 := MN (m_mux x) (m_crc x) (m_trailer x) (m_out x) (m_lbk x) (m_mix x) (m_dec x) (m_rec x) (m_lit x) (m_pop x) (q_res q) (m_eof x || (q_eof q && true)) (q_rcm q)).
    unfold tm_go. cbn [tm_in tm_n tm_out tm_room].
    set (t1 := TM m1 (MBack (q_rdata q) false false) Awake inp nn out room).
    pose proof W as [TR0 FW WC AR BS FD D2 R2 EO2 DN TK TW0 TP TQ TQ2 TS TC]. cbn [aq q_data q_cm q_res q_rdata q_rcm q_eof amap tm_pc app] in *. rewrite cpm_app in *. rewrite MC in TK. cbn [cpm] in TK.
    assert (BR : match apend w with Some p => cpm (q_res q) = 0%nat | None => cpm (tw_buf w) = 0%nat end) by (destruct (apend w); [lia|exact B]).
    assert (W' : winv wl D n pw ci ces outsW (cpm (q_res q)) (mb_data (buf0 (m_mux x)) ++ pa) (tw_w w) (aq q1 w t1)).
    { constructor; try assumption; cbn [aq q1 t1 amap tm_pc q_data q_cm q_res q_rdata q_rcm q_eof app].
      - change (zlen (@nil mbuf)) with 0. lia.
      - lia.
      - destruct (apend w) as [p|]; cbn [fst] in *; [rewrite TQ, BR, B; reflexivity|rewrite B; exact PQ].
      - destruct (apend w) as [p|]; cbn [fst] in *; [intros _; apply TQ2; lia|rewrite B; discriminate].
      - destruct (apend w) as [p|]; cbn [snd] in *; exact PS. }
    assert (PE : pending (aq q1 w t1) (am t1) outsW = pending (aq q w (TM x MPull Awake inp nn out room)) x outsW).
    { unfold pending. cbn [am t1 tm_m m1 m_set_in m_pred m_cmds aq q1 q_res q_rcm app]. rewrite MC. cbn [expand map app]. fold (expand (fst (q_rcm q)) (q_res q)). rewrite expand_app, <- app_assoc. destruct (apend w) as [p|]; cbn [fst].
      - rewrite (expand_none p (fst (q_rcm q)) (q_res q) BR). reflexivity.
      - rewrite (expand_none (fst (m_pred x)) (fst (q_rcm q)) (tw_buf w) BR). reflexivity. }
    apply (FIN _ _ _ pa pb les R e); cbn [sh_set_q sh_q sh_failed sh_err sh_waiters]; change (tm_st t1) with Awake; cbn [slp]; [| |split; reflexivity|lia|discriminate|left; reflexivity| |].
    + constructor.
      * constructor.
        -- constructor.
           ++ exact W'.
           ++ exact RI.
           ++ change (m_out (am t1)) with (m_out x - zlen (q_rdata q)). rewrite OUT. unfold held. cbn [aq q_data q_rdata q1]. change (zlen (@nil mbuf)) with 0. lia.
           ++ change (m_eof (am t1)) with (m_eof x || (q_eof q && true)). rewrite MEO. cbn [orb]. rewrite andb_true_r. intros X. rewrite EO2 in X. split; [exact X|]. cbn [aq q_res q1 app].
              destruct WO as (WO1 & WO2). rewrite X in WO1. destruct (tw_pc w); try discriminate WO1. exact WO2.
           ++ exact RC.
           ++ change (m_cmds (am t1)) with (q_res q). change (m_pred (am t1)) with (q_rcm q). intros X. destruct (apend w) as [p|]; [rewrite BR in X; discriminate X|]. apply TQ2. lia.
           ++ exact RS.
        -- exact RD.
        -- exact TI.
        -- exact CI.
        -- rewrite PE. exact PH.
      * exact B.
      * exact PQ.
      * exact PS.
      * change (zlen (q_res q1)) with 0. change NUM_BUFFERED with 256. lia.
      * exact WO.
    + split; [reflexivity|]. split; [exact MD|]. split; [right; right; exact RV|discriminate].
    + left. unfold result_ready in RR. cbn [sh_q sh_failed orb] in RR. unfold phi, back, pcm. cbn [t1 tm_m tm_pc m1 m_mux m_cmds m_eof q1 q_data q_rdata q_res]. fold q1. change (qbytes q1) with (qbytes q). rewrite MC, MEO. cbn [orb]. rewrite andb_true_r. change (zlen (@nil mbuf)) with 0. change (zlen (@nil command)) with 0.
      set (A := 10 * _ + _ + _). set (PW := pcw w). clearbody A PW. pose proof (zlen_nonneg (q_res q)). pose proof (zlen_nonneg (q_rdata q)). destruct (Z.eqb_spec (zlen (q_res q)) 0), (Z.eqb_spec (zlen (q_rdata q)) 0), (q_eof q); cbn [orb negb] in RR; try discriminate RR; lia.
    + rewrite <- (app_nil_r e) at 1 3. apply (mi_step _ _ _ _ [] MI); unfold t1; cbn [tm_sleep tm_pc tm_in tm_n tm_m tm_out tm_room]; rewrite ?app_nil_r; change (zlen (@nil Z)) with 0; auto; try discriminate; try lia.
  - (* the buffers that came back *)
    destruct MO as (-> & MD & ND & NE0). cbn [tm_m] in MD, ND, NE0. pose proof P as [SV RD TI CI PH]. pose proof SV as [W RI OUT EO PQ PQ2 PS].
    destruct bufs as [|dat bufs].
    + assert (AM : am (TM x (MBack [] nd false) Awake inp nn out room) = x) by (apply am_same; reflexivity). rewrite AM in P.
      set (pc' := if nd then MRet DNeedIn else match m_cmds x with [] => if m_eof x then MNext else MOut | _ => MNext end). unfold tm_go. cbn [tm_in tm_n tm_out tm_room].
      assert (PC : match pc' with MRet DNeedIn => REM R x <> [] | MNext | MOut => receiving x = true | _ => False end).
      { unfold pc'. destruct nd.
        - apply rem_nonempty. intros X. apply (sread_is_done _ _ _ _ RD) in X. change (m_mux (am _)) with (m_mux x) in X. rewrite (NE0 eq_refl) in X. discriminate X.
        - destruct ND as [X|[X|X]]; [discriminate X|contradiction X; reflexivity|]. destruct (m_cmds x); [destruct (m_eof x)|]; exact X. }
      clearbody pc'. apply (FIN _ _ _ pa pb les R e); cbn [sh_q sh_failed sh_err sh_waiters tm_st slp]; [| |split; reflexivity|lia|discriminate|right; auto| |].
      * apply (tvc_main _ _ _ _ _ _ _ _ _ _ _ _ _ _ _ _ _ _ _ _ C); [|reflexivity|reflexivity]. rewrite am_same by (destruct pc'; try contradiction PC; reflexivity). destruct pc'; try contradiction PC; exact P.
      * unfold mpc_ok. cbn [tm_m tm_pc]. destruct pc'; try contradiction PC; auto.
      * left. unfold phi, back, pcm. cbn [tm_m tm_pc]. destruct pc'; try contradiction PC; lia.
      * rewrite <- (app_nil_r e) at 1 3. apply (mi_step _ _ _ _ [] MI); cbn [tm_sleep tm_pc tm_in tm_n tm_m tm_out tm_room]; rewrite ?app_nil_r; change (zlen (@nil Z)) with 0; auto; try discriminate; try lia; destruct pc' as [[]| | | | | |]; try discriminate; first [exact PC|exact Logic.I|contradiction PC].
    + change (m_mux (am (TM x (MBack (dat :: bufs) nd false) Awake inp nn out room))) with (m_mux x) in *. change (m_out (am (TM x (MBack (dat :: bufs) nd false) Awake inp nn out room))) with (m_out x - zlen (dat :: bufs)) in OUT. change (held (tw_w w) (aq q w (TM x (MBack (dat :: bufs) nd false) Awake inp nn out room))) with (held (tw_w w) q) in OUT.
      rewrite zlen_cons in OUT. pose proof (zlen_nonneg bufs) as LB. pose proof (held_nonneg k K8 (tw_w w) q) as HN. destruct (Z.leb_spec 1 (m_out x)) as [L1|X]; [|lia]. cbn [assert].
      pose proof RI as (B0 & B1 & TD). pose proof (mb_data_len _ B0) as L0.
      set (cmd := buf0 (m_mux x)) in *.
      assert (MS' : forall cmd' o nd', mi R e (TM (m_set_buf x cmd' o) (MBack bufs nd' false) Awake inp nn out room) /\ mgo (TM x (MBack (dat :: bufs) nd false) Awake inp nn out room) (TM (m_set_buf x cmd' o) (MBack bufs nd' false) Awake inp nn out room) R R e e).
      { intros cmd' o nd'. rewrite <- (app_nil_r e) at 1 3. apply (mi_step _ _ _ _ [] MI); cbn [tm_sleep tm_pc tm_in tm_n tm_m tm_out tm_room]; rewrite ?app_nil_r; change (zlen (@nil Z)) with 0; auto; try discriminate; lia. }
      unfold q_push. destruct ((2 <=? zlen (q_data q)) || (zlen (mb_data cmd) =? 0)) eqn:PU.
      * set (cmd' := if zlen (mem cmd) =? 0 then MB (mem dat) (rd cmd) (wr cmd) else cmd).
        assert (C' : bok cmd' /\ mb_data cmd' = mb_data cmd /\ wr cmd' - rd cmd' = wr cmd - rd cmd) by (unfold cmd'; destruct (Z.eqb_spec (zlen (mem cmd)) 0); [pose proof (bok_donate cmd (mem dat) B0 e0) as (X1 & X2); auto|auto]). destruct C' as (BC & DC & RC').
        set (need2 := (m_out x - 1 =? 0) && (negb (wr cmd - rd cmd =? 0) || negb (is_done (eof (m_mux x))))).
        cbn [andb]. unfold tm_go. cbn [tm_in tm_n tm_out tm_room].
        set (t1 := TM (m_set_buf x cmd' (m_out x - 1)) (MBack bufs (nd || need2) false) Awake inp nn out room).
        apply (FIN _ _ _ pa pb les R e); cbn [sh_set_q sh_q sh_failed sh_err sh_waiters]; change (tm_st t1) with Awake; cbn [slp]; [| |split; reflexivity|lia|discriminate|right; auto| |apply MS'].
        -- apply (tvc_main _ _ _ _ _ _ _ _ _ _ _ _ _ _ _ _ _ _ _ _ C); [|reflexivity|reflexivity]. constructor; try assumption. constructor; try assumption.
           ++ change (buf0 (m_mux (am t1))) with cmd'. rewrite DC. exact W.
           ++ exact (rinv_buf0 _ _ RI BC).
           ++ change (m_out (am t1)) with (m_out x - 1 - zlen bufs). change (held (tw_w w) (aq q w t1)) with (held (tw_w w) q). lia.
        -- split; [reflexivity|]. split; [exact MD|]. change (eof (m_mux (tm_m t1))) with (eof (m_mux x)). cbn [t1 tm_m]. split.
           ++ destruct nd; [left; reflexivity|]. destruct bufs as [|d2 bufs]; [|right; left; discriminate]. change (zlen (@nil mbuf)) with 0 in OUT. cbn [orb].
              unfold need2, receiving, ready. change (getb (m_mux (m_set_buf x cmd' (m_out x - 1))) 0) with cmd'. change (eof (m_mux (m_set_buf x cmd' (m_out x - 1)))) with (eof (m_mux x)). change (m_out (m_set_buf x cmd' (m_out x - 1))) with (m_out x - 1). rewrite RC'.
              destruct (Z.eqb_spec (m_out x - 1) 0) as [Z0|Z0].
              ** cbn [andb]. destruct (Z.ltb_spec 0 (m_out x - 1)); [lia|]. cbn [orb]. destruct (wr cmd - rd cmd =? 0), (is_done (eof (m_mux x))); cbn [negb orb andb]; auto.
              ** destruct (Z.ltb_spec 0 (m_out x - 1)); [right; right; reflexivity|lia].
           ++ intros X. destruct nd; [apply NE0; reflexivity|]. cbn [orb] in X. unfold need2 in X. apply andb_prop in X. destruct X as (X1 & X2). apply Z.eqb_eq in X1.
              assert (QD : zlen (q_data q) = 0) by (unfold held in *; pose proof (zlen_nonneg (q_data q)); pose proof (zlen_nonneg (q_rdata q)); destruct (_ =? 0) in OUT, HN; lia).
              rewrite QD in PU. change (2 <=? 0) with false in PU. cbn [orb] in PU. apply Z.eqb_eq in PU. rewrite <- L0, PU in X2. change (0 =? 0) with true in X2. cbn [negb orb] in X2. destruct (is_done _); [discriminate X2|reflexivity].
        -- left. unfold phi, back, pcm. cbn [t1 tm_m tm_pc]. change (buf0 (m_mux (m_set_buf x cmd' (m_out x - 1)))) with cmd'. fold cmd. change (m_cmds (m_set_buf x cmd' (m_out x - 1))) with (m_cmds x). change (m_eof (m_set_buf x cmd' (m_out x - 1))) with (m_eof x). rewrite DC, zlen_cons. lia.
      * apply orb_false_elim in PU. destruct PU as (P1 & P2). apply Z.leb_gt in P1. apply Z.eqb_neq in P2. cbn [mem mb_empty rd wr andb]. change (zlen (@nil Z) =? 0) with true. cbv iota. rewrite orb_false_r.
        assert (NE : mb_data cmd <> []) by (intros X; rewrite X in P2; apply P2; reflexivity).
        assert (LN : 1 <= zlen (mb_data cmd)) by (pose proof (zlen_nonneg (mb_data cmd)); lia).
        set (cmd' := MB (mem dat) 0 0). set (q1 := q_set_data q (q_data q ++ [cmd])). unfold tm_go. cbn [tm_in tm_n tm_out tm_room].
        set (t1 := TM (m_set_buf x cmd' (m_out x - 1 + 1)) (MBack bufs nd false) Awake inp nn out room).
        apply (FIN _ _ _ pa pb les R e); cbn [sh_set_q sh_q sh_failed sh_err sh_waiters]; change (tm_st t1) with Awake; cbn [slp]; [| |split; reflexivity|lia|discriminate|left; reflexivity| |apply MS'].
        -- apply (tvc_main _ _ _ _ _ _ _ _ _ _ _ _ _ _ _ _ _ _ _ _ C); [|reflexivity|reflexivity]. constructor; try assumption. constructor; try assumption.
           ++ change (mb_data (buf0 (m_mux (am t1)))) with (@nil Z). cbn [app].
              destruct W as [TR0 FW WC AR BS FD D2 R2 EO2 DN TK TW0 TP TQ TQ2 TS TC]. constructor; try assumption.
              ** unfold qbytes in *. cbn [aq q1 q_data q_set_data] in *. rewrite map_app, concat_app. cbn [map concat]. rewrite app_nil_r, <- app_assoc. exact AR.
              ** cbn [aq q1 q_data q_set_data] in *. apply Forall_app. split; [exact FD|]. apply Forall_cons; [|constructor]. split; [exact B0|exact NE].
              ** cbn [aq q1 q_data q_set_data] in *. rewrite zlen_app. change (zlen [cmd]) with 1. lia.
           ++ apply (rinv_buf0 _ _ RI). unfold bok. cbn [rd wr mem cmd']. pose proof (zlen_nonneg (mem dat)). lia.
           ++ change (m_out (am t1)) with (m_out x - 1 + 1 - zlen bufs). unfold held in *. cbn [aq q1 q_data q_rdata q_set_data]. rewrite zlen_app. change (zlen [cmd]) with 1. lia.
        -- split; [reflexivity|]. split; [exact MD|]. split; [|exact NE0]. right. right. unfold receiving. cbn [t1 tm_m]. change (m_out (m_set_buf x cmd' (m_out x - 1 + 1))) with (m_out x - 1 + 1). destruct (Z.ltb_spec 0 (m_out x - 1 + 1)); [reflexivity|lia].
        -- left. unfold phi, back, pcm. cbn [t1 tm_m tm_pc]. change (mb_data (buf0 (m_mux (m_set_buf x cmd' (m_out x - 1 + 1))))) with (@nil Z). fold cmd. change (m_cmds (m_set_buf x cmd' (m_out x - 1 + 1))) with (m_cmds x). change (m_eof (m_set_buf x cmd' (m_out x - 1 + 1))) with (m_eof x).
           unfold qbytes, q1. cbn [q_data q_rdata q_res q_set_data]. rewrite map_app, concat_app, zlen_cons, !zlen_app. cbn [map concat]. rewrite app_nil_r. change (zlen [cmd]) with 1. change (zlen (@nil Z)) with 0. lia.
  - (* push_context_map *)
    assert (AM : am (TM x (MMap p) Awake inp nn out room) = x) by (apply am_same; reflexivity). rewrite AM in P.
    pose proof (wv_tok _ _ _ _ _ _ _ _ _ _ _ (sv_w _ _ _ _ _ _ _ _ _ _ _ (pv_s _ _ _ _ _ _ _ _ _ _ _ _ _ _ _ _ _ _ _ _ P))) as TK. cbn [aq amap tm_pc q_cm app length] in TK.
    assert (Q0 : q_cm q = []) by (destruct (q_cm q); [reflexivity|cbn [length] in TK; lia]). rewrite Q0. change (zlen (@nil predmode) <? 2) with true. cbv iota. unfold tm_go. cbn [tm_in tm_n tm_out tm_room].
    apply (FIN _ _ _ pa pb les R e); cbn [sh_set_q sh_q sh_failed sh_err sh_waiters tm_st slp]; [|exact MO|split; reflexivity|lia|discriminate|left; reflexivity| |].
    + apply (tvc_main _ _ _ _ _ _ _ _ _ _ _ _ _ _ _ _ _ _ _ _ C); [|reflexivity|reflexivity]. rewrite am_same by reflexivity. unfold aq in *. cbn [amap tm_pc q_set_cm q_data q_cm q_res q_rdata q_rcm q_eof app] in *. rewrite Q0 in P. exact P.
    + left. unfold phi, back, pcm. cbn [tm_m tm_pc q_set_cm q_data q_rdata q_res]. change (qbytes (q_set_cm q [p])) with (qbytes q). lia.
    + rewrite <- (app_nil_r e) at 1 3. apply (mi_step _ _ _ _ [] MI); cbn [tm_sleep tm_pc tm_in tm_n tm_m tm_out tm_room]; rewrite ?app_nil_r; change (zlen (@nil Z)) with 0; auto; try discriminate; lia.
Qed.
End Main.
