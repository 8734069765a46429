(** Two threads, any input: the main thread's steps. *)
From Verif Require Import Prelude ProofList ModelAns SpecAns ModelCdf SpecCdf ProofCdf ProofAns ProofAnsRt ProofAnsDec ThmCdf ModelMux ProofZlist ProofMux ProofMuxR ModelCmd ModelCrc ModelHeader ModelRecode SpecLz ProofRecode ProofRecode2 ModelPriors ModelCodec ModelLit ModelPm ModelTop SpecCodec ModelEnc ModelDec ModelContextLut ThmPriors ProofCodecInv ProofCodecInv2 ProofRun ProofTop ProofDec2 ProofDec3 ProofDec4 ProofDec5 SpecHostile ProofHostile SpecGuard ProofGuard1 ProofGuard2 ProofGuard3 ProofGuard4 ProofGuard5 ProofGuard6 ProofGuard7 ModelThread SpecTany SpecTguard ProofTg1 ProofTg2.

Section MainSteps.
Context (dict : dict_fn) (wl : word_len_fn) (D : dims) (BIG : big D) (skip : bool).
Notation minv := (ProofGuard5.minv dict D). Notation CI := (CI dict D). Notation CIw := (CIw D). Notation qinv := (qinv D). Notation mstep := (mstep dict skip).
Definition mout (s : shared) (w : wthread) (t : mthread) (x : option (shared * mthread * bool)) : Prop :=
  exists s' t' note, x = Some (s', t', note) /\
    (tm_pc t' = MRet DFail \/
     exists n', CI n' s' w t' /\ (tm_pc t' = MRet DSuccess -> q_eof (sh_q s') = true) /\
       ((tm_st t' = Awake /\ sh_waiters s' = sh_waiters s /\ BM t' + BQ (sh_q s') < BM t + BQ (sh_q s)) \/
        (tm_st t' = Asleep /\ sh_waiters s' = sh_waiters s + 1 /\ mblocked s' t' /\ BM t' + BQ (sh_q s') <= BM t + BQ (sh_q s))) /\
       (note = true -> BM t' + BQ (sh_q s') < BM t + BQ (sh_q s)) /\
       (wblocked s w -> wblocked s' w \/ note = notify s)).
Lemma mmove n' s w t s' t' note : CI n' s' w t' -> (tm_pc t' = MRet DSuccess -> q_eof (sh_q s') = true) -> tm_st t' = Awake -> sh_waiters s' = sh_waiters s ->
  BM t' + BQ (sh_q s') < BM t + BQ (sh_q s) -> (wblocked s w -> wblocked s' w \/ note = notify s) -> mout s w t (Some (s', t', note)).
Proof. intros C F A Wt L B. exists s', t', note. split; [reflexivity|]. right. exists n'. split; [exact C|]. split; [exact F|]. split; [left; auto|]. split; [auto|exact B]. Qed.
Lemma CIw_main n n' k k' s s' w : CIw n k s w -> q_eof (sh_q s') = q_eof (sh_q s) -> sh_failed s' = sh_failed s -> sh_err s' = sh_err s -> (n' + k = n + k')%nat -> (k' <= n')%nat -> CIw n' k' s' w.
Proof.
  intros [C1 C2 C3] E1 E2 E3 N K. constructor; rewrite ?E1, ?E2, ?E3; auto.
  - intros PC. destruct (C1 PC) as (A1 & A2 & A3 & _). auto.
  - intros L. destruct (C2 L) as (A1 & A2 & A3 & A4 & A5 & A6). do 3 (split; [assumption|]). split; [lia|auto].
Qed.
Lemma to_sh n s w t : CI n s w t -> backs (tm_pc t) = [] -> exists h, b2n h = n /\ shinv D (fk D h (wk_slice (tw_w w)) (q_eof (sh_q s))) (sh_q s) (tm_m t).
Proof.
  intros [C1 C2 C3 C4 C5 C6 C7 C8 C9 C10 C11] B. destruct (to_fk D BIG _ _ _ _ C1) as (h & E & V). exists h. split; [exact E|].
  constructor; try assumption. rewrite C2, B. change (zlen (@nil mbuf)) with 0. rewrite Z.add_0_r. reflexivity.
Qed.
(** a step that leaves the queue, the commands and the input alone *)
Lemma CI_keep n s w t m' pc o st : CI n s w t -> backs (tm_pc t) = [] -> mm (tm_pc t) = 0%nat -> keep_in (tm_m t) m' -> minv m' -> 0 <= tm_room t - zlen o ->
  backs pc = [] -> mm pc = 0%nat -> (fin (tm_m t) -> fin m') ->
  match pc with
  | MRet _ | MIn => True
  | MOut => fin m'
  | MNext => fin m' /\ rests m'
  | MPull => fin m' /\ rests m' /\ m_cmds m' = [] /\ m_eof m' = false
  | _ => False
  end ->
  CI n s w (TM m' pc st (tm_in t) (tm_n t) (tm_out t ++ o) (tm_room t - zlen o)).
Proof.
  intros C B MM KI MI RM B' MM' FF PC. pose proof KI as ((b & A1) & A2 & A3 & A4 & A5 & A6 & A7). destruct C as [C1 C2 C3 C4 C5 C6 C7 C8 C9 C10 C11].
  constructor; cbn [tm_m tm_pc tm_in tm_room]; rewrite ?A4, ?A5, ?A7, ?MM', ?B', ?A6; try assumption.
  - rewrite B in C2. exact C2.
  - rewrite ?A5, ?A6 in PC. destruct pc; first [exact PC|contradiction].
  - rewrite MM in C11. exact C11.
Qed.
Lemma step_out n s w t : CI n s w t -> tm_pc t = MOut -> front_danger dict (tm_m t) = None -> mout s w t (mstep s t).
Proof.
  intros C PC FD. pose proof (ci_pc _ _ _ _ _ _ C) as FI. rewrite PC in FI. unfold ModelThread.mstep. rewrite PC.
  destruct (output_front_any dict D (tm_m t) (tm_room t) (ci_m _ _ _ _ _ _ C) (ci_room _ _ _ _ _ _ C) FD) as (o & m' & r & -> & LO & KI & R). cbn [bind].
  pose proof KI as ((b & A1) & A2 & A3 & A4 & A5 & A6 & A7).
  assert (FF : fin (tm_m t) -> fin m') by (unfold fin; rewrite A1, A4; exact (fun H => H)).
  assert (GO : forall pc, minv m' -> backs pc = [] -> mm pc = 0%nat -> rankM pc < 4 -> (tm_pc (tm_put t m' pc o) = MRet DSuccess -> q_eof (sh_q s) = true) ->
    match pc with MRet _ | MIn => True | MOut => fin m' | MNext => fin m' /\ rests m' | MPull => fin m' /\ rests m' /\ m_cmds m' = [] /\ m_eof m' = false | _ => False end ->
    mout s w t (Some (s, tm_put t m' pc o, false))).
  { intros pc MI B M RK SU P. apply (mmove n); auto.
    - unfold tm_put. apply CI_keep; auto; [rewrite PC; reflexivity|rewrite PC; reflexivity|lia].
    - unfold BM. cbn [tm_put tm_m tm_pc tm_in]. rewrite A1, A5, A6, PC. change (rankM MOut) with 4. change (buf0 (setb (m_mux (tm_m t)) 1 b)) with (buf0 (m_mux (tm_m t))). lia. }
  destruct r.
  - destruct R as (MI & RS). apply GO; auto; try reflexivity; discriminate.
  - apply GO; auto; try reflexivity; discriminate.
  - apply GO; auto; try reflexivity; discriminate.
  - do 3 eexists. split; [reflexivity|]. left. reflexivity.
Qed.
Lemma step_in n s w t : CI n s w t -> tm_pc t = MIn -> mout s w t (mstep s t).
Proof.
  intros C PC. unfold ModelThread.mstep. rewrite PC. destruct (to_sh n s w t C ltac:(rewrite PC; reflexivity)) as (h & BN & SV).
  destruct (process_input_any dict D skip _ _ _ (tm_in t) SV (ci_m _ _ _ _ _ _ C) (ci_in _ _ _ _ _ _ C)) as (k & q' & m' & ok & E & NB & SV' & MI' & MC & PH).
  assert (M0 : 0 <= m_out (tm_m t)).
  { rewrite (hs_out _ _ _ _ SV). unfold held. pose proof (zlen_nonneg (q_data (sh_q s))). pose proof (zlen_nonneg (q_rdata (sh_q s))). destruct (_ =? 0); lia. }
  destruct (input_shape skip _ _ _ _ _ _ _ (mv_mux _ _ _ (ci_m _ _ _ _ _ _ C)) (ci_in _ _ _ _ _ _ C) M0 E) as (_ & MP & ME & FI & SH). rewrite E. cbn [bind].
  destruct SV' as [V' OUT' PQ' PQ2' PS']. apply (of_fk D) in V'. rewrite BN in V'.
  assert (QE : q_eof q' = q_eof (sh_q s)) by (destruct SH as [-> |(b & -> & _)]; reflexivity).
  pose proof (ci_w _ _ _ _ _ _ C) as CW. rewrite PC in CW.
  assert (LT : BQ q' + (BB + 40) * (zlen (mb_data (buf0 (m_mux m'))) + (zlen (tm_in t) - k)) <= BQ (sh_q s) + (BB + 40) * (zlen (mb_data (buf0 (m_mux (tm_m t)))) + zlen (tm_in t))).
  { rewrite !PHI_eq, MC in PH. destruct SH as [-> |(b & -> & NE)].
    - clear -PH. unfold CB, BB in *. mlia.
    - pose proof (W_data (fk D h (wk_slice (tw_w w)) (q_eof (sh_q s))) (sh_q s) (q_data (sh_q s) ++ [b])) as WD. unfold cbytes in WD. rewrite map_app, concat_app in WD. cbn [map concat] in WD. rewrite app_nil_r, zlen_app in WD.
      unfold BQ. cbn [q_set_data q_data q_res q_rdata]. unfold cbytes. rewrite map_app, concat_app. cbn [map concat]. rewrite app_nil_r, !zlen_app. change (zlen [b]) with 1.
      assert (1 <= zlen (mb_data b)) by (destruct (mb_data b); [contradiction|rewrite zlen_cons; pose proof (zlen_nonneg l); lia]).
      unfold q_set_data in *. revert PH WD H. generalize (zlen (mb_data b)), (zlen (concat (map mb_data (q_data (sh_q s))))), (zlen (mb_data (buf0 (m_mux m')))), (zlen (mb_data (buf0 (m_mux (tm_m t))))).
      unfold CB, BB. clear. intros. mlia. }
  assert (RC : ok = true -> receiving m' = true).
  { intros X. specialize (FI X). unfold receiving, fin in *. destruct (Z.ltb_spec 0 (m_out m')) as [_|L]; [reflexivity|]. assert (M1 : m_out m' = 0).
    { pose proof (zlen_nonneg (q_data q')). pose proof (zlen_nonneg (q_rdata q')). unfold held in OUT'. destruct (_ =? 0) in OUT'; lia. }
    destruct (FI M1) as (F1 & F2). rewrite F1. cbn [orb andb]. apply Z.eqb_eq. unfold ready. change (getb (m_mux m') 0) with (buf0 (m_mux m')).
    pose proof (mv_mux _ _ _ MI') as (B0 & _ & _). rewrite <- (mb_data_len _ B0), F2. reflexivity. }
  apply (mmove n).
  - constructor; cbn [tm_m tm_pc tm_in tm_room sh_set_q sh_q]; try assumption.
    + rewrite OUT'. destruct ok; cbn [negb]; [rewrite (RC eq_refl)|]; cbn [backs]; change (zlen (@nil mbuf)) with 0; rewrite Z.add_0_r; reflexivity.
    + unfold bytes in *. unfold zskip. apply Forall_skipn. exact (ci_in _ _ _ _ _ _ C).
    + exact (ci_room _ _ _ _ _ _ C).
    + rewrite ME, QE. exact (ci_eof _ _ _ _ _ _ C).
    + destruct ok; cbn [negb]; [rewrite (RC eq_refl); auto|exact Logic.I].
    + apply (CIw_main n n 0 _ s); cbn [sh_set_q sh_q sh_failed sh_err]; auto; destruct ok; cbn [negb]; try rewrite (RC eq_refl); cbn [mm]; lia.
  - cbn [tm_pc]. destruct ok; cbn [negb]; [rewrite (RC eq_refl)|]; discriminate.
  - reflexivity.
  - reflexivity.
  - unfold BM. cbn [tm_m tm_pc tm_in sh_set_q sh_q]. rewrite MC, ME, PC. rewrite zlen_skip by lia. change (rankM MIn) with 5.
    assert (RK : rankM (if negb ok then MRet DNeedIn else if receiving m' then MOut else MIn) < 5) by (destruct ok; cbn [negb]; [rewrite (RC eq_refl)|]; cbn; lia). clear -LT RK NB. revert LT RK. generalize (BQ q'), (BQ (sh_q s)). unfold BB. intros. lia.
  - destruct SH as [-> |(b & -> & _)]; [left; exact H|right]. cbn [q_set_data q_data]. rewrite zlen_app. change (zlen [b]) with 1. destruct (Z.ltb_spec (zlen (q_data (sh_q s))) (zlen (q_data (sh_q s)) + 1)); [reflexivity|lia].
Qed.
Lemma step_mmap n s w t p : CI n s w t -> tm_pc t = MMap p -> mout s w t (mstep s t).
Proof.
  intros C PC. pose proof (ci_pc _ _ _ _ _ _ C) as FI. rewrite PC in FI. destruct FI as (FI & PO). pose proof (ci_w _ _ _ _ _ _ C) as CW. rewrite PC in CW. cbn [mm] in CW.
  assert (N1 : (1 <= n)%nat).
  { destruct CW as [W1 W2 _]. destruct (tw_pc w) eqn:WP; try (destruct (W2 Logic.I) as (_ & _ & _ & X & _); lia). destruct (W1 eq_refl) as (_ & _ & _ & X). exact X. }
  pose proof (qi_tok _ _ _ _ _ (ci_q _ _ _ _ _ _ C)) as TK. assert (Q0 : q_cm (sh_q s) = []) by (destruct (q_cm (sh_q s)); [reflexivity|cbn [length] in TK; lia]).
  unfold ModelThread.mstep. rewrite PC, Q0. change (zlen (@nil predmode) <? 2) with true. cbn iota.
  apply (mmove 0).
  - destruct C as [C1 C2 C3 C4 C5 C6 C7 C8 C9 C10 C11]. constructor; cbn [tm_go tm_m tm_pc tm_in tm_room sh_set_q sh_q]; try assumption.
    + destruct C1 as [Q1 Q2 Q3 Q4 Q5 Q6 Q7 Q8 Q9 Q10 Q11]. constructor; cbn [q_set_cm q_data q_rdata q_res q_cm q_rcm]; try assumption; [cbn [length]; rewrite Q0 in Q6; cbn [length] in Q6; lia|]. apply Forall_cons; [exact PO|apply Forall_nil].
    + rewrite PC in C2. exact C2.
    + apply (CIw_main n 0 1 0 s); auto. rewrite Q0 in TK. cbn [length] in TK. lia.
  - discriminate.
  - reflexivity.
  - reflexivity.
  - unfold BM. cbn [tm_go tm_m tm_pc tm_in sh_set_q sh_q]. rewrite PC. change (rankM (MMap p)) with 5. change (rankM MOut) with 4. change (BQ (q_set_cm (sh_q s) [p])) with (BQ (sh_q s)). lia.
  - auto.
Qed.
Lemma step_next n s w t : CI n s w t -> tm_pc t = MNext -> (forall c cs, m_cmds (tm_m t) = c :: cs -> speeds_danger c (tm_m t) = None) -> mout s w t (mstep s t).
Proof.
  intros C PC SD. pose proof (ci_pc _ _ _ _ _ _ C) as FI. rewrite PC in FI. destruct FI as (FI & RS). unfold ModelThread.mstep. rewrite PC.
  pose proof (ci_w _ _ _ _ _ _ C) as CW. rewrite PC in CW. cbn [mm] in CW.
  destruct (m_cmds (tm_m t)) as [|c cs] eqn:MC.
  - destruct (m_eof (tm_m t)) eqn:ME.
    + destruct (finish_any dict D skip (tm_m t) (tm_room t) (ci_m _ _ _ _ _ _ C) RS (ci_room _ _ _ _ _ _ C)) as (o & m' & r & -> & LO & MI & KI). cbn [bind].
      pose proof KI as ((b & A1) & A2 & A3 & A4 & A5 & A6 & A7).
      apply (mmove n); auto.
      * unfold tm_put. apply CI_keep; auto; try (rewrite PC; reflexivity); [lia|]. unfold fin. rewrite A1, A4. exact (fun H => H).
      * intros _. apply (ci_eof _ _ _ _ _ _ C ME).
      * unfold BM. cbn [tm_put tm_m tm_pc tm_in]. rewrite A1, A5, A6, PC, ME. change (rankM MNext) with 3. change (rankM (MRet r)) with 0. change (buf0 (setb (m_mux (tm_m t)) 1 b)) with (buf0 (m_mux (tm_m t))). lia.
    + apply (mmove n); auto.
      * destruct C as [C1 C2 C3 C4 C5 C6 C7 C8 C9 C10 C11]. constructor; cbn [tm_go tm_m tm_pc tm_in tm_room]; try assumption; [rewrite PC in C2; exact C2|auto].
      * discriminate.
      * unfold BM. cbn [tm_go tm_m tm_pc tm_in]. rewrite PC, ME. change (rankM MNext) with 3. change (rankM MPull) with 2. lia.
  - specialize (SD c cs eq_refl). destruct (to_sh n s w t C ltac:(rewrite PC; reflexivity)) as (h & BN & SV).
    destruct (take_any dict D BIG _ _ _ c cs SV (ci_m _ _ _ _ _ _ C) RS MC SD) as (q' & m' & r & E & R).
    assert (PLAIN : match c with PredictionMode _ => False | _ => True end -> mout s w t (let? '(q, m, r) := take_command c (sh_q s) (m_set_cmds (tm_m t) cs) in Some (sh_set_q s q, tm_go t m MOut, false))).
    { intros NP. rewrite E. cbn [bind].
      assert (SH : q' = sh_q s /\ m_mux m' = m_mux (tm_m t) /\ m_out m' = m_out (tm_m t) /\ m_eof m' = m_eof (tm_m t) /\ m_cmds m' = cs /\ (match r with Some (Processed _) => False | _ => True end)).
      { destruct c; try contradiction; cbn [take_command] in E; injection E as <- <- <-; repeat split. }
      destruct SH as (-> & S1 & S2 & S3 & S4 & S5).
      assert (RR : shinv D (fk D h (wk_slice (tw_w w)) (q_eof (sh_q s))) (sh_q s) m' /\ minv m') by (destruct r as [[]|]; [contradiction|destruct R as (R1 & R2 & _); auto|destruct R as (R1 & R2 & _); auto]).
      destruct RR as ([V' OUT' PQ' PQ2' PS'] & MI'). apply (of_fk D) in V'. rewrite BN in V'.
      apply (mmove n); cbn [sh_set_q sh_q]; auto.
      - destruct C as [C1 C2 C3 C4 C5 C6 C7 C8 C9 C10 C11]. constructor; cbn [tm_go tm_m tm_pc tm_in tm_room sh_set_q sh_q]; try assumption.
        + rewrite S2. rewrite PC in C2. exact C2.
        + rewrite S3. exact C9.
        + unfold fin in *. rewrite S1, S2. exact FI.
        + apply (CIw_main n n 0 0 s); auto. lia.
      - discriminate.
      - unfold BM. cbn [tm_go tm_m tm_pc tm_in]. rewrite S1, S3, S4, PC, MC, zlen_cons. change (rankM MNext) with 3. change (rankM MOut) with 4. lia. }
    destruct c as [d ln|ws wid tr fs|data he|x|tt0|tt0|tt0 st]; try (apply PLAIN; exact Logic.I). clear PLAIN.
    cbn [take_command m_pred m_lbk m_set_pred m_set_cmds] in E. cbn zeta. change (m_lbk (m_set_pred (m_set_cmds (tm_m t) cs) (snd (m_pred (tm_m t)), pm_nop))) with (m_lbk (tm_m t)).
    destruct (obs_prediction_mode (m_lbk (tm_m t)) (fst (m_pred (tm_m t)))) as [l|er|]; [| |discriminate E].
    2:{ do 3 eexists. split; [reflexivity|]. left. reflexivity. }
    pose proof (ci_q _ _ _ _ _ _ C) as Q. pose proof (qi_tok _ _ _ _ _ Q) as TK. rewrite MC, cpm_cons in TK.
    assert (C0 : cpm cs = 0%nat) by lia. assert (Q0 : q_cm (sh_q s) = []) by (destruct (q_cm (sh_q s)); [reflexivity|cbn [length] in TK; lia]).
    rewrite Q0 in E. change (zlen (@nil predmode) <? 2) with true in E. cbn [assert] in E. injection E as E1 E2 E3. subst q' m' r.
    destruct R as (_ & MI' & _). set (m' := m_set_lbk (m_set_pred (m_set_cmds (tm_m t) cs) (snd (m_pred (tm_m t)), pm_nop)) l (traits l)) in *.
    apply (mmove (S n)); auto.
    + destruct C as [C1 C2 C3 C4 C5 C6 C7 C8 C9 C10 C11]. constructor; cbn [tm_go tm_m tm_pc tm_in tm_room]; try assumption.
      * change (m_cmds m') with cs. rewrite C0. destruct Q as [Q1 Q2 Q3 Q4 Q5 Q6 Q7 Q8 Q9 Q10 Q11]. constructor; try assumption. rewrite Q0 in *. cbn [length] in *. lia.
      * rewrite PC in C2. exact C2.
      * change (m_cmds m') with cs. rewrite C0. change (fst (m_pred m')) with (snd (m_pred (tm_m t))). exact C5.
      * change (fst (m_pred m')) with (snd (m_pred (tm_m t))). rewrite C5. discriminate.
      * reflexivity.
      * split; [exact FI|]. apply C4. rewrite C3, MC, cpm_cons, C0. reflexivity.
      * cbn [mm]. apply (CIw_main n (S n) 0 1 s); auto; lia.
    + discriminate.
    + unfold BM. cbn [tm_go tm_m tm_pc tm_in]. change (m_cmds m') with cs. change (m_mux m') with (m_mux (tm_m t)). change (m_eof m') with (m_eof (tm_m t)). rewrite PC, MC, zlen_cons. change (rankM MNext) with 3. change (rankM (MMap _)) with 5. lia.
Qed.
Lemma step_mpull n s w t : CI n s w t -> tm_pc t = MPull -> mout s w t (mstep s t).
Proof.
  intros C PC. pose proof (ci_pc _ _ _ _ _ _ C) as FI. rewrite PC in FI. destruct FI as (FI & RS & MC & ME). unfold ModelThread.mstep. rewrite PC.
  pose proof (ci_w _ _ _ _ _ _ C) as CW. rewrite PC in CW. cbn [mm] in CW. pose proof (ci_q _ _ _ _ _ _ C) as Q.
  pose proof (ci_pq _ _ _ _ _ _ C) as PQ. rewrite MC in PQ. cbn [cpm Nat.eqb] in PQ. pose proof (ci_ps _ _ _ _ _ _ C) as PS. rewrite PQ, PS. cbn [negb andb assert].
  destruct (result_ready s) eqn:RR.
  2:{ unfold result_ready in RR. assert (SF : sh_failed s = false) by (destruct (sh_failed s); [discriminate RR|reflexivity]).
      assert (SE : sh_err s = false).
      { destruct CW as [W1 W2 _]. destruct (tw_pc w) eqn:WP; try (destruct (W2 Logic.I) as (_ & X & _); exact X). destruct (W1 eq_refl) as (X & _). congruence. }
      rewrite SE. do 3 eexists. split; [reflexivity|]. right. exists n. split; [|split; [|split; [|split]]].
      - destruct C as [C1 C2 C3 C4 C5 C6 C7 C8 C9 C10 C11]. constructor; cbn [tm_sleep tm_m tm_pc tm_in tm_room]; try assumption.
        destruct C11 as [W1 W2 W3]. constructor; assumption.
      - cbn [tm_sleep tm_pc]. rewrite PC. discriminate.
      - right. split; [reflexivity|]. split; [reflexivity|]. split; [|change (BM (tm_sleep t)) with (BM t); cbn [sh_wait sh_q]; lia]. split; [exact PC|]. split; [exact RR|exact SE].
      - discriminate.
      - intros X. left. exact X. }
  assert (A2 : match q_res (sh_q s) with [] => negb (has_speeds (fst (q_rcm (sh_q s)))) && negb (has_speeds (snd (q_rcm (sh_q s)))) | _ => true end = true).
  { destruct (q_res (sh_q s)) eqn:QR; [|reflexivity]. pose proof (qi_tq _ _ _ _ _ Q) as TQ. pose proof (qi_ts _ _ _ _ _ Q) as TS. rewrite QR in TQ. cbn in TQ. rewrite TQ, TS. reflexivity. }
  rewrite A2. cbn [assert]. apply (mmove n); auto.
  - destruct C as [C1 C2 C3 C4 C5 C6 C7 C8 C9 C10 C11]. destruct Q as [Q1 Q2 Q3 Q4 Q5 Q6 Q7 Q8 Q9 Q10 Q11]. rewrite MC in Q6. cbn [cpm] in Q6. constructor; cbn [tm_go tm_m tm_pc tm_in tm_room sh_set_q sh_q m_cmds m_out m_pred m_mux m_eof backs mm]; try assumption.
    + constructor; cbn [q_data q_rdata q_res q_cm q_rcm cpm]; try assumption; try apply Forall_nil; try (change (zlen (@nil mbuf)) with 0; lia); try (change (zlen (@nil command)) with 0; unfold NUM_BUFFERED; lia); try lia.
    + rewrite C2, PC. unfold held. cbn [q_data q_rdata backs]. change (zlen (@nil mbuf)) with 0. lia.
    + apply (minv_io dict D (tm_m t)); try reflexivity; try assumption. apply C6.
    + rewrite ME. cbn [orb q_eof]. intros X. apply andb_true_iff in X. apply X.
    + split; [exact RS|]. intros QR _. exact FI.
    + apply (CIw_main n n 0 0 s); auto. lia.
  - discriminate.
  - unfold BM, BQ. cbn [tm_go tm_m tm_pc tm_in sh_set_q sh_q m_cmds m_mux m_eof q_res q_rdata q_data]. rewrite PC, MC, ME. change (zlen (@nil command)) with 0. change (zlen (@nil mbuf)) with 0. change (rankM MPull) with 2. cbn [rankM orb].
    pose proof (zlen_nonneg (q_res (sh_q s))) as N1. pose proof (zlen_nonneg (q_rdata (sh_q s))) as N2. unfold result_ready in RR.
    destruct (sh_failed s); cbn [orb negb andb] in *; [rewrite andb_false_r; lia|]. rewrite andb_true_r.
    destruct (q_eof (sh_q s)); [lia|]. cbn [orb] in RR. apply orb_true_iff in RR. destruct RR as [R|R]; apply negb_true_iff, Z.eqb_neq in R; lia.
Qed.
Lemma step_back n s w t l need bad : CI n s w t -> tm_pc t = MBack l need bad -> mout s w t (mstep s t).
Proof.
  intros C PC. pose proof (ci_pc _ _ _ _ _ _ C) as FI. rewrite PC in FI. destruct FI as (RS & FI). unfold ModelThread.mstep. rewrite PC.
  pose proof (ci_w _ _ _ _ _ _ C) as CW. rewrite PC in CW. cbn [mm] in CW. pose proof (ci_q _ _ _ _ _ _ C) as Q. pose proof (ci_out _ _ _ _ _ _ C) as OUT. rewrite PC in OUT. cbn [backs] in OUT.
  destruct l as [|dat bufs].
  - destruct bad; [do 3 eexists; split; [reflexivity|left; reflexivity]|].
    apply (mmove n); auto.
    + destruct C as [C1 C2 C3 C4 C5 C6 C7 C8 C9 C10 C11]. constructor; cbn [tm_go tm_m tm_pc tm_in tm_room]; try assumption.
      * rewrite OUT. destruct need; [reflexivity|]. destruct (m_cmds (tm_m t)); [destruct (m_eof (tm_m t))|]; reflexivity.
      * destruct need; [exact Logic.I|]. specialize (FI eq_refl eq_refl). destruct (m_cmds (tm_m t)); [destruct (m_eof (tm_m t))|]; auto.
      * destruct need; [exact CW|]. destruct (m_cmds (tm_m t)); [destruct (m_eof (tm_m t))|]; exact CW.
    + cbn [tm_go tm_pc]. destruct need; [discriminate|]. destruct (m_cmds (tm_m t)); [destruct (m_eof (tm_m t))|]; discriminate.
    + unfold BM. cbn [tm_go tm_m tm_pc tm_in]. rewrite PC. cbn [rankM]. change (zlen (@nil mbuf)) with 0.
      destruct need; [cbn [rankM]; lia|]. destruct (m_cmds (tm_m t)); [destruct (m_eof (tm_m t))|]; cbn [rankM]; lia.
  - rewrite zlen_cons in OUT. pose proof (zlen_nonneg bufs) as LB. pose proof (mv_mux _ _ _ (ci_m _ _ _ _ _ _ C)) as RI. pose proof RI as (B0 & B1 & TD).
    assert (HN : 0 <= held (tw_w w) (sh_q s)) by (unfold held; pose proof (zlen_nonneg (q_data (sh_q s))); pose proof (zlen_nonneg (q_rdata (sh_q s))); destruct (_ =? 0); lia).
    unfold assert. destruct (Z.leb_spec 1 (m_out (tm_m t))) as [_|X]; [|lia]. cbn zeta.
    unfold q_push. destruct ((2 <=? zlen (q_data (sh_q s))) || (zlen (mb_data (buf0 (m_mux (tm_m t)))) =? 0)) eqn:PU.
    + set (cmd := buf0 (m_mux (tm_m t))) in *. set (cmd' := if zlen (mem cmd) =? 0 then MB (mem dat) (rd cmd) (wr cmd) else cmd).
      assert (C' : bok cmd' /\ mb_data cmd' = mb_data cmd) by (unfold cmd'; destruct (Z.eqb_spec (zlen (mem cmd)) 0); [apply bok_donate; assumption|auto]). destruct C' as (BC & DC).
      apply (mmove n); auto.
      * destruct C as [C1 C2 C3 C4 C5 C6 C7 C8 C9 C10 C11]. constructor; cbn [tm_go tm_m tm_pc tm_in tm_room sh_set_q sh_q m_set_buf m_set_in m_cmds m_out m_pred m_eof backs mm]; try assumption.
        -- lia.
        -- apply (minv_io dict D (tm_m t)); try reflexivity; try assumption; [apply rinv_buf0; assumption|apply C6].
        -- split; [exact RS|]. intros -> N. apply orb_false_elim in N. destruct N as (N1 & N2). unfold fin. cbn [m_out m_set_buf m_set_in m_mux]. intros O0. rewrite O0 in N2. change (0 =? 0) with true in N2. cbn [andb] in N2. apply orb_false_elim in N2. destruct N2 as (N2 & N3). apply negb_false_iff in N2, N3.
           change (eof (setb (m_mux (tm_m t)) 0 cmd')) with (eof (m_mux (tm_m t))). change (buf0 (setb (m_mux (tm_m t)) 0 cmd')) with cmd'. split; [exact N3|]. rewrite DC. apply Z.eqb_eq in N2. rewrite <- (mb_data_len _ B0) in N2. fold cmd in N2. destruct (mb_data cmd) as [|y z]; [reflexivity|]. rewrite zlen_cons in N2. pose proof (zlen_nonneg z). lia.
        -- apply (CIw_main n n 0 0 s); auto. lia.
      * discriminate.
      * unfold BM. cbn [tm_go tm_m tm_pc tm_in sh_set_q sh_q m_set_buf m_set_in m_cmds m_mux m_eof]. change (buf0 (setb (m_mux (tm_m t)) 0 cmd')) with cmd'. rewrite DC, PC. cbn [rankM]. rewrite zlen_cons. unfold cmd. lia.
    + apply orb_false_elim in PU. destruct PU as (P1 & P2). apply Z.leb_gt in P1. apply Z.eqb_neq in P2. cbn [mem mb_empty rd wr]. change (zlen (@nil Z) =? 0) with true. cbv iota.
      assert (NE : mb_data (buf0 (m_mux (tm_m t))) <> []) by (intros X; rewrite X in P2; apply P2; reflexivity).
      apply (mmove n); auto.
      * destruct C as [C1 C2 C3 C4 C5 C6 C7 C8 C9 C10 C11]. constructor; cbn [tm_go tm_m tm_pc tm_in tm_room sh_set_q sh_q m_set_buf m_set_in m_cmds m_out m_pred m_eof backs mm]; try assumption.
        -- destruct Q as [Q1 Q2 Q3 Q4 Q5 Q6 Q7 Q8 Q9 Q10 Q11]. constructor; cbn [q_set_data q_data q_rdata q_res q_cm q_rcm]; try assumption.
           ++ apply Forall_app. split; [assumption|]. apply Forall_cons; [|constructor]. split; [exact B0|exact NE].
           ++ rewrite zlen_app. change (zlen [buf0 (m_mux (tm_m t))]) with 1. lia.
        -- unfold held in *. cbn [q_data q_rdata q_set_data]. rewrite zlen_app. change (zlen [buf0 (m_mux (tm_m t))]) with 1. lia.
        -- apply (minv_io dict D (tm_m t)); try reflexivity; try assumption; [|apply C6]. apply rinv_buf0; [exact RI|]. unfold bok. cbn [rd wr mem]. pose proof (zlen_nonneg (mem dat)). lia.
        -- split; [exact RS|]. intros -> N. unfold fin. cbn [m_out m_set_buf m_set_in m_mux]. intros O0. lia.
        -- apply (CIw_main n n 0 0 s); auto. lia.
      * discriminate.
      * unfold BM, BQ. cbn [tm_go tm_m tm_pc tm_in sh_set_q sh_q m_set_buf m_set_in m_cmds m_mux m_eof q_set_data q_data q_res q_rdata]. change (mb_data (buf0 (setb (m_mux (tm_m t)) 0 (MB (mem dat) 0 0)))) with (@nil Z). change (zlen (@nil Z)) with 0. rewrite PC. cbn [rankM]. rewrite zlen_cons.
        unfold cbytes. rewrite map_app, concat_app. cbn [map concat]. rewrite app_nil_r, !zlen_app. change (zlen [buf0 (m_mux (tm_m t))]) with 1. pose proof (zlen_nonneg (mb_data (buf0 (m_mux (tm_m t))))) as Z0.
        revert P2 Z0. generalize (zlen (mb_data (buf0 (m_mux (tm_m t))))), (zlen (concat (map mb_data (q_data (sh_q s))))). clear. unfold BB. intros. lia.
Qed.
Definition safe_main (t : mthread) : Prop :=
  match tm_pc t with
  | MOut => front_danger dict (tm_m t) = None
  | MNext => forall c cs, m_cmds (tm_m t) = c :: cs -> speeds_danger c (tm_m t) = None
  | _ => True
  end.
Lemma mstep_any n s w t : CI n s w t -> in_call t = true -> safe_main t -> mout s w t (mstep s t).
Proof.
  intros C IC S. unfold safe_main in S. destruct (tm_pc t) as [r| | | | |l need bad|p] eqn:PC.
  - unfold in_call in IC. rewrite PC in IC. discriminate.
  - apply (step_in n); assumption.
  - apply (step_out n); assumption.
  - apply (step_next n); assumption.
  - apply (step_mpull n); assumption.
  - apply (step_back n s w t l need bad); assumption.
  - apply (step_mmap n s w t p); assumption.
Qed.
End MainSteps.
