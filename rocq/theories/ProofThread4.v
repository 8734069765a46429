(** Two threads: steps of the two together; no deadlock. *)
From Verif Require ProofRecode3.
From Verif Require Import Prelude ProofList ModelAns SpecAns ModelCdf SpecCdf ModelRecode SpecLz ProofRecode ProofRecode2 ProofAns ProofAnsRt ProofAnsDec ThmCdf ModelMux ProofZlist ProofMux ProofMuxR ModelCmd ModelCrc SpecCrc ProofCrc ModelHeader SpecHeader ProofHeader ModelPriors ModelCodec ModelLit ModelPm ModelTop SpecCodec SpecReplay SpecFile ModelEnc ProofSim ModelDec ProofDec1 ProofDec2 ProofDec3 ProofDec4 ProofDec5 ProofDec6 ModelThread ProofThread1 ProofThread2 ProofThread3.

Definition runw (x : world) : bool := match tw_st (wd_w x) with Asleep => false | _ => negb (ended (wd_w x)) end.
Definition runm (x : world) : bool := match tm_st (wd_m x) with Asleep => false | _ => in_call (wd_m x) end.
Section Both.
Context (dict : dict_fn) (wl : word_len_fn) (D : dims) (wlen k : Z) (K8 : 3 <= k) (WL : wlen = 2 ^ k) (W1 : 1 < wlen) (skip : bool) (Tr hf : list Z).
Notation TV := (tv dict wl D wlen skip Tr hf).
Notation STEP := (step dict wl D skip).

Lemma tm_st_same m : tm_set_st m (tm_st m) = m. Proof. destruct m; reflexivity. Qed.
Lemma tw_st_same w : tw_set_st w (tw_st w) = w. Proof. destruct w; reflexivity. Qed.
Lemma tv_leave_w n pw ci ces outsW pa pb les R e s w m : TV n pw ci ces outsW pa pb les R e s w m -> tw_st w <> Asleep ->
  TV n pw ci ces outsW pa pb les R e (leave_wait (tw_st w) s) (tw_set_st w Awake) m /\ meas n pw pa (leave_wait (tw_st w) s) (tw_set_st w Awake) m = meas n pw pa s w m.
Proof.
  clear K8 WL W1. intros [C M E W S1 S2] N. destruct (tw_st w) eqn:ST; [|contradiction N; reflexivity|]; cbn [leave_wait].
  - rewrite <- ST, tw_st_same. split; [constructor; try assumption; congruence|reflexivity].
  - split.
    + constructor; try assumption.
      * pose proof (tvc_st _ _ _ _ _ _ _ _ _ _ _ _ _ _ _ _ _ _ _ _ Awake (tm_st m) C) as X. rewrite tm_st_same in X. exact X.
      * cbn [sh_wait sh_waiters tw_set_st tw_st]. rewrite W. cbn [slp]. lia.
      * discriminate.
    + unfold meas. cbn [sh_wait sh_q]. pose proof (phi_st n pw pa (sh_q s) w m Awake (tm_st m)) as X. rewrite tm_st_same in X. rewrite X, ST. cbn [tw_set_st tw_st awk]. reflexivity.
Qed.
Lemma tv_leave_m n pw ci ces outsW pa pb les R e s w m : TV n pw ci ces outsW pa pb les R e s w m -> tm_st m <> Asleep ->
  TV n pw ci ces outsW pa pb les R e (leave_wait (tm_st m) s) w (tm_set_st m Awake) /\ meas n pw pa (leave_wait (tm_st m) s) w (tm_set_st m Awake) = meas n pw pa s w m.
Proof.
  clear K8 WL W1. intros [C M E W S1 S2] N. destruct (tm_st m) eqn:ST; [|contradiction N; reflexivity|]; cbn [leave_wait].
  - rewrite <- ST, tm_st_same. split; [constructor; try assumption; congruence|reflexivity].
  - split.
    + constructor; try assumption.
      * pose proof (tvc_st _ _ _ _ _ _ _ _ _ _ _ _ _ _ _ _ _ _ _ _ (tw_st w) Awake C) as X. rewrite tw_st_same in X. exact X.
      * cbn [sh_wait sh_waiters tm_set_st tm_st]. rewrite W. cbn [slp]. lia.
      * discriminate.
    + unfold meas. cbn [sh_wait sh_q]. rewrite phi_mst, ST. cbn [tm_set_st tm_st awk]. reflexivity.
Qed.

Lemma mstep_pc s t s' t' note : mstep dict skip s t = Some (s', t', note) -> tm_pc t' = tm_pc t \/ tm_st t' = Awake.
Proof.
  clear. unfold mstep. destruct (tm_pc t) as [r| | | | |[|d bufs] nd bad|p] eqn:PC.
  - intros [= _ <- _]. auto.
  - destruct (process_input _ _ _ _) as [(((? & ?) & ?) & ?)|]; cbn [bind]; [intros [= _ <- _]; auto|discriminate].
  - destruct (output_front _ _ _) as [((? & ?) & ?)|]; cbn [bind]; [intros [= _ <- _]; auto|discriminate].
  - destruct (m_cmds (tm_m t)) as [|c cs].
    + destruct (m_eof _); [destruct (finish _ _ _) as [((? & ?) & ?)|]; cbn [bind]; [|discriminate]|]; intros [= _ <- _]; auto.
    + destruct c; try (match goal with |- bind ?e _ = _ -> _ => destruct e as [((? & ?) & ?)|] end; cbn [bind]; [intros [= _ <- _]; auto|discriminate]).
      destruct (obs_prediction_mode _ _); [intros [= _ <- _]; auto|intros [= _ <- _]; auto|discriminate].
  - unfold assert. destruct (_ && _); [|discriminate]. destruct (result_ready _); [match goal with |- context [if ?c then Some _ else None] => destruct c end; [intros [= _ <- _]; auto|discriminate]|destruct (sh_err _); intros [= _ <- _]; auto].
  - intros [= _ <- _]. auto.
  - unfold assert. destruct (_ <=? _); [|discriminate]. destruct (q_push _ _); intros [= _ <- _]; auto.
  - destruct (_ <? 2); intros [= _ <- _]; auto.
Qed.

Lemma step_worker n pw ci ces outsW pa pb les R e x : TV n pw ci ces outsW pa pb les R e (wd_sh x) (wd_w x) (wd_m x) ->
  exists x' n' pw' ci' ces' outs', STEP ByWorker x = Some x' /\ TV n' pw' ci' ces' outs' pa pb les R e (wd_sh x') (wd_w x') (wd_m x') /\
    (exists st, wd_m x' = tm_set_st (wd_m x) st /\ (st = tm_st (wd_m x) \/ st = wake (tm_st (wd_m x)))) /\
    meas n' pw' pa (wd_sh x') (wd_w x') (wd_m x') + (if runw x then 1 else 0) <= meas n pw pa (wd_sh x) (wd_w x) (wd_m x).
Proof.
  clear WL W1. intros V. destruct x as [s w m]. cbn [wd_sh wd_w wd_m] in *. unfold step, runw. cbn [wd_sh wd_w wd_m].
  assert (SAME : exists x' n' pw' ci' ces' outs', Some (WD s w m) = Some x' /\ TV n' pw' ci' ces' outs' pa pb les R e (wd_sh x') (wd_w x') (wd_m x') /\
    (exists st, wd_m x' = tm_set_st m st /\ (st = tm_st m \/ st = wake (tm_st m))) /\ meas n' pw' pa (wd_sh x') (wd_w x') (wd_m x') + 0 <= meas n pw pa s w m).
  { exists (WD s w m), n, pw, ci, ces, outsW. split; [reflexivity|]. split; [exact V|]. split; [exists (tm_st m); rewrite tm_st_same; auto|]. cbn [wd_sh wd_w wd_m]. lia. }
  destruct (ended w) eqn:EN; [destruct (tw_st w); exact SAME|]. cbn [negb].
  assert (GO : tw_st w <> Asleep -> exists x' n' pw' ci' ces' outs',
    (let? '(s0, w0, note) := wstep wl D (leave_wait (tw_st w) s) (tw_set_st w Awake) in Some (WD s0 w0 (if note then tm_set_st m (wake (tm_st m)) else m))) = Some x' /\
    TV n' pw' ci' ces' outs' pa pb les R e (wd_sh x') (wd_w x') (wd_m x') /\
    (exists st, wd_m x' = tm_set_st m st /\ (st = tm_st m \/ st = wake (tm_st m))) /\ meas n' pw' pa (wd_sh x') (wd_w x') (wd_m x') + 1 <= meas n pw pa s w m).
  { intros NA. destruct (tv_leave_w _ _ _ _ _ _ _ _ _ _ _ _ _ V NA) as (V1 & M1).
    destruct (wstep_spec _ _ _ _ _ _ _ _ _ _ _ _ _ _ _ _ _ _ _ _ V1 eq_refl EN) as (s' & w' & note & n' & pw' & ci' & ces' & outs' & -> & V2 & M2). cbn [bind].
    eexists. exists n', pw', ci', ces', outs'. split; [reflexivity|]. cbn [wd_sh wd_w wd_m]. split; [exact V2|]. split; [|lia].
    destruct note; [exists (wake (tm_st m)); auto|exists (tm_st m); rewrite tm_st_same; auto]. }
  destruct (tw_st w) eqn:ST; [apply GO; discriminate|exact SAME|apply GO; discriminate].
Qed.
Lemma step_main future tail n pw ci ces outsW pa pb les R e x : TV n pw ci ces outsW pa pb les R e (wd_sh x) (wd_w x) (wd_m x) -> mi Tr hf future tail R e (wd_m x) ->
  exists x' pa' pb' les' R' e', STEP ByMain x = Some x' /\ TV n pw ci ces outsW pa' pb' les' R' e' (wd_sh x') (wd_w x') (wd_m x') /\ mi Tr hf future tail R' e' (wd_m x') /\ mgo Tr (wd_m x) (wd_m x') R R' e e' /\
    (exists st, wd_w x' = tw_set_st (wd_w x) st /\ (st = tw_st (wd_w x) \/ st = wake (tw_st (wd_w x)))) /\ (tm_pc (wd_m x') = tm_pc (wd_m x) \/ tm_st (wd_m x') = Awake) /\ (in_call (wd_m x) = false -> x' = x) /\
    meas n pw pa' (wd_sh x') (wd_w x') (wd_m x') + (if runm x then 1 else 0) <= meas n pw pa (wd_sh x) (wd_w x) (wd_m x).
Proof.
  intros V MI. destruct x as [s w m]. cbn [wd_sh wd_w wd_m] in *. unfold step, runm. cbn [wd_sh wd_w wd_m].
  assert (SAME : exists x' pa' pb' les' R' e', Some (WD s w m) = Some x' /\ TV n pw ci ces outsW pa' pb' les' R' e' (wd_sh x') (wd_w x') (wd_m x') /\ mi Tr hf future tail R' e' (wd_m x') /\ mgo Tr m (wd_m x') R R' e e' /\
    (exists st, wd_w x' = tw_set_st w st /\ (st = tw_st w \/ st = wake (tw_st w))) /\ (tm_pc (wd_m x') = tm_pc m \/ tm_st (wd_m x') = Awake) /\ (in_call m = false -> x' = WD s w m) /\ meas n pw pa' (wd_sh x') (wd_w x') (wd_m x') + 0 <= meas n pw pa s w m).
  { exists (WD s w m), pa, pb, les, R, e. split; [reflexivity|]. split; [exact V|]. split; [exact MI|]. cbn [wd_sh wd_w wd_m]. split.
    { split; [exists []|exists []; rewrite !app_nil_r]; change (zlen (@nil Z)) with 0; cbn [app]; split; auto; split; auto; lia. }
    split; [exists (tw_st w); rewrite tw_st_same; auto|]. split; [left; reflexivity|]. split; [reflexivity|lia]. }
  destruct (in_call m) eqn:IC; [|destruct (tm_st m); exact SAME].
  assert (GO : tm_st m <> Asleep -> exists x' pa' pb' les' R' e',
    (let? '(s0, m0, note) := mstep dict skip (leave_wait (tm_st m) s) (tm_set_st m Awake) in Some (WD s0 (if note then tw_set_st w (wake (tw_st w)) else w) m0)) = Some x' /\
    TV n pw ci ces outsW pa' pb' les' R' e' (wd_sh x') (wd_w x') (wd_m x') /\ mi Tr hf future tail R' e' (wd_m x') /\ mgo Tr m (wd_m x') R R' e e' /\
    (exists st, wd_w x' = tw_set_st w st /\ (st = tw_st w \/ st = wake (tw_st w))) /\ (tm_pc (wd_m x') = tm_pc m \/ tm_st (wd_m x') = Awake) /\ (true = false -> x' = WD s w m) /\ meas n pw pa' (wd_sh x') (wd_w x') (wd_m x') + 1 <= meas n pw pa s w m).
  { intros NA. destruct (tv_leave_m _ _ _ _ _ _ _ _ _ _ _ _ _ V NA) as (V1 & M1).
    assert (MI1 : mi Tr hf future tail R e (tm_set_st m Awake)) by (destruct MI as [A1 A2 A3 A4 A5]; constructor; assumption).
    destruct (mstep_spec dict wl D wlen k K8 WL W1 skip Tr hf future tail _ _ _ _ _ _ _ _ _ _ _ _ _ V1 MI1 eq_refl IC) as (s' & m' & note & pa' & pb' & les' & R' & e' & ES & (V2 & M2) & MI2 & G2). rewrite ES. cbn [bind].
    eexists. exists pa', pb', les', R', e'. split; [reflexivity|]. cbn [wd_sh wd_w wd_m]. split; [exact V2|]. split; [exact MI2|]. split; [exact G2|]. split; [|split; [|split; [discriminate|lia]]].
    - destruct note; [exists (wake (tw_st w)); auto|exists (tw_st w); rewrite tw_st_same; auto].
    - exact (mstep_pc _ _ _ _ _ ES). }
  destruct (tm_st m) eqn:ST; [apply GO; discriminate|exact SAME|apply GO; discriminate].
Qed.
Lemma step_spurious n pw ci ces outsW pa pb les R e x ev0 : TV n pw ci ces outsW pa pb les R e (wd_sh x) (wd_w x) (wd_m x) -> ev0 = WakeMain \/ ev0 = WakeWorker ->
  exists x', STEP ev0 x = Some x' /\ TV n pw ci ces outsW pa pb les R e (wd_sh x') (wd_w x') (wd_m x') /\
    (exists st, wd_m x' = tm_set_st (wd_m x) st /\ (st = tm_st (wd_m x) \/ st = wake (tm_st (wd_m x)))) /\
    (exists st, wd_w x' = tw_set_st (wd_w x) st /\ (st = tw_st (wd_w x) \/ st = wake (tw_st (wd_w x)))) /\
    meas n pw pa (wd_sh x') (wd_w x') (wd_m x') <= meas n pw pa (wd_sh x) (wd_w x) (wd_m x) + 1.
Proof.
  clear K8 WL W1. intros V H. destruct x as [s w m]. cbn [wd_sh wd_w wd_m] in *. pose proof V as [C M E W S1 S2].
  destruct H as [-> | ->]; unfold step; cbn [wd_sh wd_w wd_m]; eexists; (split; [reflexivity|]); cbn [wd_sh wd_w wd_m].
  - split; [|split; [exists (wake (tm_st m)); auto|split; [exists (tw_st w); rewrite tw_st_same; auto|]]].
    + constructor; try assumption.
      * pose proof (tvc_st _ _ _ _ _ _ _ _ _ _ _ _ _ _ _ _ _ _ _ _ (tw_st w) (wake (tm_st m)) C) as X. rewrite tw_st_same in X. exact X.
      * cbn [tm_set_st tm_st]. rewrite slp_wake. exact W.
      * cbn [tm_set_st tm_st]. destruct (tm_st m); discriminate.
    + unfold meas. rewrite phi_mst. cbn [tm_set_st tm_st]. pose proof (awk_wake (tm_st m)). pose proof (awk_le (tm_st m)). lia.
  - split; [|split; [exists (tm_st m); rewrite tm_st_same; auto|split; [exists (wake (tw_st w)); auto|]]].
    + constructor; try assumption.
      * pose proof (tvc_st _ _ _ _ _ _ _ _ _ _ _ _ _ _ _ _ _ _ _ _ (wake (tw_st w)) (tm_st m) C) as X. rewrite tm_st_same in X. exact X.
      * cbn [tw_set_st tw_st]. rewrite slp_wake. exact W.
      * cbn [tw_set_st tw_st]. destruct (tw_st w); discriminate.
    + unfold meas. pose proof (phi_st n pw pa (sh_q s) w m (wake (tw_st w)) (tm_st m)) as X. rewrite tm_st_same in X. rewrite X. cbn [tw_set_st tw_st]. pose proof (awk_wake (tw_st w)). pose proof (awk_le (tw_st w)). lia.
Qed.
Lemma no_deadlock n pw ci ces outsW pa pb les R e x : TV n pw ci ces outsW pa pb les R e (wd_sh x) (wd_w x) (wd_m x) -> in_call (wd_m x) = true -> runm x = true \/ runw x = true.
Proof.
  clear WL W1. intros V IC. destruct x as [s w m]. cbn [wd_sh wd_w wd_m] in *. unfold runm, runw. cbn [wd_sh wd_w wd_m]. rewrite IC. pose proof V as [C M (E1 & E2) W S1 S2]. destruct (tm_st m); [auto| |auto]. right.
  destruct (S2 eq_refl) as (PC & RR). unfold result_ready in RR. apply orb_false_elim in RR. destruct RR as (RR & R4). apply orb_false_elim in RR. destruct RR as (RR & R3). apply orb_false_elim in RR. destruct RR as (_ & R2).
  assert (Q3 : q_res (sh_q s) = []) by (destruct (Z.eqb_spec (zlen (q_res (sh_q s))) 0) as [X|X]; [apply zlen_nil_inv, X|discriminate R3]).
  assert (Q4 : q_rdata (sh_q s) = []) by (destruct (Z.eqb_spec (zlen (q_rdata (sh_q s))) 0) as [X|X]; [apply zlen_nil_inv, X|discriminate R4]). clear R3 R4.
  pose proof C as [P B RC RS RE (WD0 & WO)]. pose proof P as [SV RD TI CI PH]. pose proof SV as [WV RI OUT EO PQ PQ2 PS].
  unfold mpc_ok in M. rewrite PC in M. destruct M as (RV & MD & MC & ME).
  assert (BK : back m = [] /\ amap m = []) by (unfold back, amap; rewrite PC; auto). destruct BK as (BK & AK).
  pose proof (am_same m BK) as AM. rewrite AM in *.
  assert (EN : ended w = false).
  { unfold ended. destruct (tw_pc w) eqn:WP; try reflexivity; [|contradiction WO]. pose proof (wv_eof _ _ _ _ _ _ _ _ _ _ _ WV) as X. cbn [aq q_eof] in X. congruence. }
  rewrite EN. destruct (tw_st w); [reflexivity| |reflexivity]. exfalso. specialize (S1 eq_refl). unfold wblocked in S1. destruct (tw_pc w) as [|kk pm| | | |] eqn:WP; try exact S1.
  - rewrite Q3, Q4 in S1. change (zlen (@nil mbuf)) with 0 in S1. change (zlen (@nil command)) with 0 in S1. destruct S1 as [(_ & _ & X)|X]; [lia|]. destruct kk; [lia| |]; [destruct WO as (_ & _ & WO); lia|destruct WO as (_ & _ & _ & _ & WO); lia].
  - destruct WO as (M0 & NN & NT & LB).
    assert (O0 : m_out (tm_m m) = 0) by (rewrite OUT; unfold held; cbn [aq q_data q_rdata]; rewrite S1, Q4, M0; reflexivity).
    unfold receiving in RV. rewrite O0 in RV. change (0 <? 0) with false in RV. cbn [orb] in RV. apply andb_prop in RV. destruct RV as (RV1 & RV2). unfold ready in RV2. change (getb (m_mux (tm_m m)) 0) with (buf0 (m_mux (tm_m m))) in RV2. apply Z.eqb_eq in RV2.
    pose proof (mb_data_len _ (proj1 RI)) as L0. rewrite RV2 in L0. apply zlen_nil_inv in L0.
    apply (no_data dict wl D wlen k skip Tr hf _ _ _ _ _ _ _ _ _ _ _ _ _ P); try assumption; [apply (wtr_more wl D _ _ _ _ (wv_tr _ _ _ _ _ _ _ _ _ _ _ WV) NT)|]. apply (sread_is_done _ _ _ _ RD). exact RV1.
  - destruct WO as (IP & HP & LB). pose proof (wv_tok _ _ _ _ _ _ _ _ _ _ _ WV) as TK. cbn [aq q_res q_cm] in TK. rewrite AK, S1, Q3, MC in TK. unfold hs in TK. rewrite HP in TK. cbn [app length cpm] in TK. unfold apend in B. rewrite WP in B. rewrite B in TK. destruct (k_st ci); try contradiction IP. cbn [pop_pm] in TK. lia.
Qed.
End Both.
