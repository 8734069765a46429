(** Decompressor: input, rounds, calls. *)
From Verif Require ProofRecode3.
From Verif Require Import Prelude ProofList ModelAns SpecAns ModelCdf SpecCdf ModelRecode SpecLz ProofRecode ProofRecode2 ProofAns ProofAnsRt ProofAnsDec ThmCdf ModelMux ProofZlist ProofMux ProofMuxR ModelCmd ModelCrc SpecCrc ProofCrc ModelHeader SpecHeader ProofHeader ModelPriors ModelCodec ModelLit ModelPm ModelTop SpecCodec SpecReplay SpecFile ModelEnc ProofSim ModelDec ProofDec1 ProofDec2 ProofDec3 ProofDec4 ProofDec5.

Section Proc.
Context (dict : dict_fn) (wl : word_len_fn) (D : dims) (wlen k : Z) (K8 : 3 <= k) (WL : wlen = 2 ^ k) (skip : bool) (Tr hf : list Z).
Notation SINV := (sinv wl D).
Notation MPH := (mph dict wlen).

(** the unread rest of the file *)
Definition rem (R : list Z) (m : main) : list Z := R ++ skipn (length (m_trailer m)) Tr.
Definition crcinv (R : list Z) (m : main) : Prop :=
  bytes R /\ 0 <= m_crc m < 2 ^ 32 /\ (skip = false -> trailer (crc32c_update (m_crc m) R) = Tr).
Record pinv (n : nat) (pw : predmode) (ci : codec unit) (ces : list ev) (outsW : list command) (pa pb : list Z) (les : list ev) (R e : list Z) (w : worker) (q : squeue) (m : main) : Prop := {
  pv_s : SINV n pw ci ces outsW pa w q m;
  pv_rd : sread (st (m_mux m)) R = Some (pa, pb);
  pv_t : tinv skip Tr R m;
  pv_crc : crcinv R m;
  pv_ph : MPH m e (pending q m outsW) les hf pb }.

Lemma sread_is_done x R pa pb : sread (st x) R = Some (pa, pb) -> (is_done (eof x) = true <-> R = []).
Proof.
  unfold st. intros S'. split.
  - intros X. destruct (eof x); try discriminate X. destruct R as [|b R]; [reflexivity|]. cbn [sread sstep dstep] in S'. destruct (nrm (to_deser x)); discriminate S'.
  - intros ->. cbn [sread] in S'. destruct (nrm (to_deser x)), (eof x); try discriminate S'. reflexivity.
Qed.
Lemma sread_end x pa pb : sread (st x) [] = Some (pa, pb) -> pa = [] /\ pb = [].
Proof. apply sread_done. Qed.

Lemma complete_rem R m : tinv skip Tr R m -> (complete R m <-> rem R m = []).
Proof.
  intros (T1 & _ & (t & T3) & _). unfold complete, rem. assert (L : (length (m_trailer m) <= 8)%nat) by (rewrite <- T1, <- T3, app_length; lia).
  split.
  - intros (-> & E). cbn [app]. apply skipn_all2. lia.
  - intros E. apply app_eq_nil in E. destruct E as (-> & E). split; [reflexivity|]. apply (f_equal (@length Z)) in E. rewrite skipn_length in E. cbn [length] in E. lia.
Qed.

Lemma mph_mux m m' e outs les hf0 pb q0 : MPH m e outs les hf0 (q0 ++ pb) -> bok (buf1 (m_mux m')) ->
  mb_data (buf1 (m_mux m')) = mb_data (buf1 (m_mux m)) ++ q0 ->
  m_lbk m' = m_lbk m -> m_mix m' = m_mix m -> m_dec m' = m_dec m -> m_rec m' = m_rec m -> m_lit m' = m_lit m -> m_pop m' = m_pop m ->
  MPH m' e outs les hf0 pb.
Proof.
  intros PH B E A1 A2 A3 A4 A5 A6. unfold mph, midle, mpop, mlit, litok in *. rewrite A1, A2, A3, A4, A5, A6.
  destruct PH as [(X1 & X2 & X3 & (X4 & X5 & X6) & X7)|[(c & h0 & h & X1 & X2 & X3 & (X4 & X5 & X6) & X7)|(safe & s & les1 & l1 & s1 & les2 & h & X1 & X2 & X3 & X4 & X5 & X6)]].
  - left. rewrite E, <- app_assoc. auto 10.
  - right. left. exists c, h0, h. rewrite E, <- app_assoc. auto 10.
  - right. right. exists safe, s, les1, l1, s1, les2, h. split; [exact X1|]. split; [exact X2|]. split; [exact X3|]. split; [exact X4|]. split; [|exact X6].
    destruct X5 as [Y1 Y2 Y3 Y4 Y5 Y6]. constructor; try assumption; [rewrite E, <- app_assoc; exact Y3|].
    intros SF. destruct (Y6 SF) as (Z1 & Z2). split; [exact Z1|].
    pose proof (ready_len _ B) as L1. pose proof (ready_len _ Y1) as L2. rewrite E, app_length in L1. destruct Z2 as [Z2|(Z2 & [Z3|Z3])]; [left; lia|right; auto|right; split; [exact Z2|right; lia]].
Qed.

(** ** decode_process_input *)
Lemma held_nonneg w q : 0 <= held w q.
Proof. unfold held. pose proof (zlen_nonneg (q_data q)); pose proof (zlen_nonneg (q_rdata q)). destruct (_ =? 0); lia. Qed.
Lemma process_input_spec n pw ci ces outsW pa pb les R e w q m input future tail : pinv n pw ci ces outsW pa pb les R e w q m ->
  bytes input -> input ++ future = rem R m ++ tail ->
  exists pre suf R' pa' pb' q' m' ok, process_input skip q m input = Some (zlen pre, q', m', ok) /\ input = pre ++ suf /\ rem R m = pre ++ rem R' m' /\
    pinv n pw ci ces outsW pa' pb' les R' e w q' m' /\ (rem R' m' <> [] -> suf = []) /\ (ok = false -> rem R' m' <> []) /\
    pending q' m' outsW = pending q m outsW /\ q_rdata q' = q_rdata q /\ tot w q' m' pa' = tot w q m pa /\ (q_data q' = [] -> mb_data (buf0 (m_mux m')) = []).
Proof.
  intros PV BI E. pose proof PV as [SV RD TI CI PH]. pose proof SV as [W RI OUT EO PQ PQ2 PS].
  unfold rem in E. rewrite <- app_assoc in E.
  destruct (deser_file (m_mux m) input R _ future pa pb RI BI RD E) as (pre & R' & suf & p0 & q0 & p' & q1 & x & DE & IN & RE & RI' & SR' & PA & PB & B0 & B1 & STOP & DONE).
  unfold process_input. rewrite DE. cbn [bind].
  assert (ZS : zskip (zlen pre) input = suf) by (rewrite IN; unfold zskip, zlen; rewrite Nat2Z.id, skipn_app, skipn_all, Nat.sub_diag; reflexivity).
  assert (ZF : zfirst (zlen pre) input = pre) by (rewrite IN; unfold zfirst, zlen; rewrite Nat2Z.id, firstn_app, firstn_all, Nat.sub_diag; cbn [firstn]; apply app_nil_r).
  rewrite ZS, ZF. destruct TI as (T1 & T2 & (t & T3) & T4 & T5). destruct CI as (C1 & C2 & C3).
  assert (BP : bytes pre /\ bytes R') by (rewrite RE in C1; unfold bytes in *; apply Forall_app in C1; exact C1). destruct BP as (BP & BR).
  set (crc := if skip then m_crc m else crc32c_update (m_crc m) pre).
  set (amt := if is_done (eof x) then Nat.min (length suf) (8 - length (m_trailer m)) else 0%nat).
  set (tr := m_trailer m ++ firstn amt suf).
  assert (RT : (if is_done (eof x) then read_trailer (m_trailer m) suf else (m_trailer m, 0%nat)) = (tr, amt)).
  { unfold tr, amt, read_trailer. destruct (is_done (eof x)); [reflexivity|]. cbn [firstn]. rewrite app_nil_r. reflexivity. }
  rewrite RT.
  (* the trailer *)
  assert (LT : (length (m_trailer m) <= 8)%nat) by (rewrite <- T1, <- T3, app_length; lia).
  assert (TS : skipn (length (m_trailer m)) Tr = t) by (rewrite <- T3, skipn_app, skipn_all, Nat.sub_diag; reflexivity).
  rewrite TS in E.
  assert (SF : R' = [] -> suf ++ future = t ++ tail).
  { intros ->. rewrite IN, RE in E. rewrite app_nil_r, <- app_assoc in E. apply app_inv_head in E. exact E. }
  assert (LTt : (length t = 8 - length (m_trailer m))%nat) by (apply (f_equal (@length Z)) in T3; rewrite app_length in T3; lia).
  assert (AM : R' <> [] -> amt = 0%nat). { intros N. unfold amt. destruct (is_done (eof x)) eqn:X; [|reflexivity]. contradiction N. apply DONE. reflexivity. }
  assert (FT : firstn amt suf = firstn amt t).
  { destruct R' as [|y R'']; [|rewrite AM by discriminate; reflexivity]. specialize (SF eq_refl). unfold amt. destruct (is_done (eof x)); [|reflexivity].
    transitivity (firstn (Nat.min (length suf) (8 - length (m_trailer m))) (suf ++ future)); [rewrite firstn_app|rewrite SF, firstn_app].
    - replace (_ - length suf)%nat with 0%nat by lia. cbn [firstn]. rewrite app_nil_r. reflexivity.
    - replace (_ - length t)%nat with 0%nat by lia. cbn [firstn]. rewrite app_nil_r. reflexivity. }
  assert (T3' : tr ++ skipn amt t = Tr) by (unfold tr; rewrite FT, <- app_assoc, firstn_skipn; exact T3).
  assert (LTR : skipn (length tr) Tr = skipn amt t) by (rewrite <- T3' at 1; rewrite skipn_app, skipn_all, Nat.sub_diag; reflexivity).
  assert (AL : (amt <= length suf)%nat) by (unfold amt; destruct (is_done (eof x)); lia).
  (* the checksum *)
  assert (CRC : 0 <= crc < 2 ^ 32 /\ (skip = false -> trailer (crc32c_update crc R') = Tr)).
  { unfold crc. destruct skip; [split; [exact C2|discriminate]|]. split; [apply crc_update_range; assumption|]. intros _. rewrite <- crc_update_app by assumption. rewrite <- RE. apply C3. reflexivity. }
  destruct CRC as (CR1 & CR2).
  assert (TIN : forall m', m_trailer m' = tr -> m_crc m' = crc -> tinv skip Tr R' m').
  { intros m' A1 A2. unfold tinv. rewrite A1, A2. split; [exact T1|]. split; [exact T2|]. split; [eauto|]. split.
    - intros N. unfold tr. rewrite (AM N), T4; [reflexivity|]. intros X. rewrite X in RE. symmetry in RE. apply app_eq_nil in RE. apply N, RE.
    - intros R0 SK. rewrite R0 in CR2. rewrite <- (CR2 SK). rewrite crc_update_ok by (assumption || constructor). unfold crc32c. cbn [fold_left]. rewrite Z.lxor_assoc, Z.lxor_nilpotent, Z.lxor_0_r. reflexivity. }
  assert (REM : forall m', m_trailer m' = tr -> rem R m = (pre ++ firstn amt suf) ++ rem R' m').
  { intros m' A1. unfold rem. rewrite A1, LTR, TS, RE, <- !app_assoc. f_equal. destruct R' as [|y R'']; [cbn [app]; rewrite FT, firstn_skipn; reflexivity|]. rewrite AM by discriminate. reflexivity. }
  assert (STOP' : forall m', m_trailer m' = tr -> rem R' m' <> [] -> skipn amt suf = []).
  { intros m' A1 N. destruct R' as [|y R'']; [|rewrite AM by discriminate; destruct STOP as [X|X]; [discriminate X|exact X]].
    unfold rem in N. rewrite A1, LTR in N. cbn [app] in N. apply skipn_all2. apply Nat.nlt_ge. intros X. apply N. apply skipn_all2.
    unfold amt in *. rewrite (proj2 DONE eq_refl) in *. lia. }
  assert (OUTN : zlen (pre ++ firstn amt suf) = zlen pre + Z.of_nat amt) by (rewrite zlen_app; unfold zlen at 2; rewrite firstn_length; lia).
  assert (INN : input = (pre ++ firstn amt suf) ++ skipn amt suf) by (rewrite <- app_assoc, firstn_skipn; exact IN).
  rewrite PA in *. rewrite PB in *. pose proof (ready_len _ (proj1 RI')) as RL. rewrite RL.
  assert (W2 : winv wl D n pw ci ces outsW (cpm (m_cmds m)) (mb_data (buf0 x) ++ p') w q) by (rewrite B0, <- app_assoc; exact W).
  (* state when nothing is pushed *)
  assert (KEEP : pinv n pw ci ces outsW p' q1 les R' e w q (m_set_in m x crc tr (m_out m))).
  { constructor.
    - constructor; try assumption.
    - exact SR'.
    - apply TIN; reflexivity.
    - split; [exact BR|]. split; assumption.
    - apply (mph_mux m _ _ _ _ _ _ q0); try reflexivity; [exact PH|apply RI'|exact B1]. }
  assert (TOT : tot w q (m_set_in m x crc tr (m_out m)) p' = tot w q m (p0 ++ p')).
  { unfold tot. cbn [m_mux m_set_in]. rewrite B0, <- !app_assoc. reflexivity. }
  assert (ZL : zlen (mb_data (buf0 x)) = Z.of_nat (length (mb_data (buf0 x)))) by reflexivity.
  destruct (Z.eqb_spec (Z.of_nat (length (mb_data (buf0 x)))) 0) as [Z0|Z0]; cbn [negb].
  - exists (pre ++ firstn amt suf), (skipn amt suf), R', p', q1, q, (m_set_in m x crc tr (m_out m)). eexists. rewrite OUTN. split; [reflexivity|]. split; [exact INN|]. split; [apply REM; reflexivity|].
    split; [exact KEEP|]. split; [apply STOP'; reflexivity|]. split; [|split; [reflexivity|split; [reflexivity|split; [exact TOT|]]]].
    + intros X. apply orb_false_elim in X. destruct X as (X & _). intros Y. unfold rem in Y. apply app_eq_nil in Y. destruct Y as (Y & _). apply DONE in Y. congruence.
    + intros _. cbn [m_mux m_set_in]. destruct (mb_data (buf0 x)); [reflexivity|cbn [length] in Z0; lia].
  - unfold q_push. rewrite ZL. destruct (Z.eqb_spec (Z.of_nat (length (mb_data (buf0 x)))) 0) as [X|_]; [contradiction|]. rewrite orb_false_r.
    destruct (Z.leb_spec 2 (zlen (q_data q))) as [L2|L2].
    + exists (pre ++ firstn amt suf), (skipn amt suf), R', p', q1, q, (m_set_in m x crc tr (m_out m)). eexists. rewrite OUTN. split; [reflexivity|]. split; [exact INN|]. split; [apply REM; reflexivity|].
      split; [exact KEEP|]. split; [apply STOP'; reflexivity|]. split; [|split; [reflexivity|split; [reflexivity|split; [exact TOT|]]]].
      * intros X. exfalso. rewrite OUT in X. unfold held in X. pose proof (zlen_nonneg (q_rdata q)). destruct (zlen (mem (wk_slice w)) =? 0) in X; destruct (Z.eqb_spec (zlen (q_data q) + zlen (q_rdata q) + 0) 0), (Z.eqb_spec (zlen (q_data q) + zlen (q_rdata q) + 1) 0); try discriminate X; lia.
      * intros X. rewrite X in L2. change (zlen (@nil mbuf)) with 0 in L2. lia.
    + exists (pre ++ firstn amt suf), (skipn amt suf), R', p', q1, (q_set_data q (q_data q ++ [buf0 x])), (m_set_in m (setb x 0 mb_empty) crc tr (m_out m + 1)). eexists. rewrite OUTN. split; [reflexivity|]. split; [exact INN|]. split; [apply REM; reflexivity|].
      assert (NE : mb_data (buf0 x) <> []) by (intros X; rewrite X in Z0; apply Z0; reflexivity).
      split; [|split; [apply STOP'; reflexivity|split; [discriminate|split; [reflexivity|split; [reflexivity|split; [|reflexivity]]]]]].
      * destruct KEEP as [KS KR KT KC KP]. constructor; try assumption.
        -- constructor; try assumption.
           ++ change (buf0 (m_mux (m_set_in m (setb x 0 mb_empty) crc tr (m_out m + 1)))) with mb_empty. change (mb_data mb_empty) with (@nil Z). cbn [app].
              destruct W2 as [TR FW WC AR BS FD D2 R2 EO2 DN TK TW TP TQ TQ2 TS2 TC]. constructor; try assumption.
              ** unfold qbytes in *. cbn [q_data q_set_data]. rewrite map_app, concat_app. cbn [map concat]. rewrite app_nil_r, <- app_assoc. exact AR.
              ** cbn [q_data q_set_data]. apply Forall_app. split; [exact FD|]. apply Forall_cons; [|constructor]. split; [apply RI'|exact NE].
              ** cbn [q_data q_set_data]. rewrite zlen_app. change (zlen [buf0 x]) with 1. lia.
           ++ apply rinv_buf0; [exact RI'|apply bok_empty].
           ++ cbn [m_out m_set_in]. unfold held in *. cbn [q_data q_rdata q_set_data]. rewrite zlen_app. change (zlen [buf0 x]) with 1. lia.

      * unfold tot. cbn [m_mux m_set_in]. change (mb_data (buf0 (setb x 0 mb_empty))) with (@nil Z). unfold qbytes. cbn [q_data q_set_data]. rewrite map_app, concat_app. cbn [map concat]. rewrite !app_nil_r, B0, <- !app_assoc. reflexivity.
Qed.

(** ** The rounds of a call *)
Definition mu (w : worker) (q : squeue) (m : main) (pa : list Z) (outsW : list command) : nat :=
  (4 * tot w q m pa + 4 * length (pending q m outsW) + length (q_rdata q))%nat.
Definition cost (n : nat) (w : worker) (q : squeue) (m : main) (pa : list Z) (outsW : list command) : nat :=
  (2 * n + 4 + 4 * tot w q m pa + 4 * length (pending q m outsW))%nat.

Lemma run_done fuel w q : wk_done w = true -> w_run wl D (S fuel) w q = Some (w, q, WSuccess).
Proof. intros H. cbn [w_run]. unfold w_step. rewrite H. reflexivity. Qed.
Lemma worker_spec fuel n pw ci ces outsW pa pb les R e w q m : pinv n pw ci ces outsW pa pb les R e w q m -> (2 * n + 2 <= fuel)%nat ->
  exists w' q' r n' pw' ci' ces' outs', w_run wl D fuel w q = Some (w', q', r) /\ pinv n' pw' ci' ces' outs' pa pb les R e w' q' m /\ (n' <= n)%nat /\
    pending q' m outs' = pending q m outsW /\ held w' q' = held w q /\ (tot w' q' m pa <= tot w q m pa)%nat /\
    match r with
    | WSuccess => wk_done w' = true
    | WNeedOut => NUM_BUFFERED <= zlen (q_res q') \/ (has_speeds pw' = false /\ q_cm q' = [] /\ pop_pm (k_st (wk_c w')) = 0%nat)
    | WNeedIn => ces' <> [] /\ need (wk_dec w') <> 0%nat /\
        ((tot w' q' m pa < tot w q m pa)%nat \/ (q_data q = [] /\ q_data q' = [] /\ zlen (mem (wk_slice w')) = 0) \/ zlen (q_rdata q) = 2)
    | WFail _ => False
    end.
Proof.
  intros PV F. pose proof PV as [SV RD TI CI PH]. pose proof SV as [W RI OUT EO PQ PQ2 PS].
  destruct (wk_done w) eqn:WD.
  { destruct fuel as [|fuel]; [lia|]. rewrite (run_done fuel w q WD). exists w, q, WSuccess, n, pw, ci, ces, outsW. split; [reflexivity|]. split; [exact PV|]. auto 10. }
  destruct (w_run_spec wl D fuel _ _ _ _ _ _ _ _ _ W F) as (w' & q' & r & n' & pw' & ci' & ces' & outs' & -> & W' & (G1 & G2 & G3 & G4) & ST & N').
  exists w', q', r, n', pw', ci', ces', outs'. split; [reflexivity|].
  assert (PE : pending q' m outs' = pending q m outsW) by (unfold pending; rewrite G1; reflexivity).
  assert (TOT : tot w q m pa = (left_w w q + length (mb_data (buf0 (m_mux m)) ++ pa))%nat) by (unfold tot, left_w; rewrite !app_length; lia).
  assert (TOT' : tot w' q' m pa = (left_w w' q' + length (mb_data (buf0 (m_mux m)) ++ pa))%nat) by (unfold tot, left_w; rewrite !app_length; lia).
  split.
  { constructor; try assumption.
    - constructor; try assumption.
      + congruence.
      + intros X. destruct (EO X). discriminate.
      + intros X. rewrite (PQ2 X). symmetry. apply G4, X.
    - rewrite PE. exact PH. }
  split; [exact N'|]. split; [exact PE|]. split; [exact G2|]. split; [lia|]. destruct r; try exact ST. destruct ST as (S1 & S2 & [S3|S3]); split; auto; split; auto. left. lia.
Qed.

Lemma no_data n pw ci ces outsW pa pb les R e w q m : pinv n pw ci ces outsW pa pb les R e w q m -> ces <> [] -> need (wk_dec w) <> 0%nat ->
  q_data q = [] -> zlen (mem (wk_slice w)) = 0 -> mb_data (buf0 (m_mux m)) = [] -> R <> [].
Proof.
  intros [SV RD _ _ _] C N Q M B ->. destruct (sread_end _ _ _ RD) as (-> & ->). pose proof (wv_dec _ _ _ _ _ _ _ _ _ _ _ (sv_w _ _ _ _ _ _ _ _ _ _ _ SV)) as A.
  assert (S0 : mb_data (wk_slice w) = []). { unfold mb_data. apply zlen_nil_inv in M. rewrite M. unfold zskip, zfirst. rewrite ?skipn_nil, ?firstn_nil, ?skipn_nil. reflexivity. }
  rewrite B, S0 in A. unfold qbytes in A. rewrite Q in A. cbn [map concat app] in A. destruct ces as [|x ces]; [contradiction C; reflexivity|]. cbn [ivs map] in A. apply arel_need in A. cbn [length] in A. lia.
Qed.
Lemma rem_nonempty R m : R <> [] -> rem R m <> [].
Proof. unfold rem. destruct R; [intros X; contradiction X; reflexivity|discriminate]. Qed.

Lemma process_spec : 1 < wlen -> forall fuel n pw ci ces outsW pa pb les R e w q m input future tail room, pinv n pw ci ces outsW pa pb les R e w q m ->
  bytes input -> input ++ future = rem R m ++ tail -> 0 <= room -> (2 * n + 2 + mu w q m pa outsW <= fuel)%nat ->
  exists pre suf o p' r n' pw' ci' ces' outs' pa' pb' les' R',
    process dict wl D skip fuel (PR w q m) input room = Some (zlen pre, o, p', r) /\ input = pre ++ suf /\ rem R m = pre ++ rem R' (p_m p') /\ zlen o <= room /\
    pinv n' pw' ci' ces' outs' pa' pb' les' R' (e ++ o) (p_w p') (p_q p') (p_m p') /\
    (cost n' (p_w p') (p_q p') (p_m p') pa' outs' <= cost n w q m pa outsW)%nat /\
    match r with
    | DSuccess => e ++ o = hf /\ rem R' (p_m p') = []
    | DNeedIn => rem R' (p_m p') <> [] /\ suf = []
    | DNeedOut => zlen o = room /\ (rem R' (p_m p') <> [] -> suf = [])
    | DFail => False
    end.
Proof.
  intros W1. induction fuel as [|rounds IH]; intros n pw ci ces outsW pa pb les R e w q m input future tail room PV BI EI RM F; [lia|].
  cbn [process p_q p_m p_w].
  destruct (process_input_spec _ _ _ _ _ _ _ _ _ _ _ _ _ _ _ _ PV BI EI) as (pre & suf & R1 & pa1 & pb1 & q1 & m1 & ok & -> & IN & RE & PV1 & STOP & OK & PE1 & RD1 & TT1 & QB1). cbn [bind].
  assert (MU1 : mu w q1 m1 pa1 outsW = mu w q m pa outsW) by (unfold mu; rewrite TT1, PE1, RD1; reflexivity).
  destruct ok; cbn [negb].
  2:{ exists pre, suf, [], (PR w q1 m1), DNeedIn, n, pw, ci, ces, outsW, pa1, pb1, les, R1. cbn [p_w p_q p_m]. rewrite app_nil_r. split; [reflexivity|]. split; [exact IN|]. split; [exact RE|]. change (zlen (@nil Z)) with 0. split; [exact RM|]. split; [exact PV1|].
      split; [unfold cost; rewrite TT1, PE1; lia|]. split; [apply OK; reflexivity|]. apply STOP, OK. reflexivity. }
  destruct (worker_spec (S rounds) _ _ _ _ _ _ _ _ _ _ _ _ _ PV1) as (w2 & q2 & wr & n2 & pw2 & ci2 & ces2 & outs2 & -> & PV2 & N2 & PE2 & HL2 & TT2 & WR); [unfold mu in F; lia|]. cbn [bind].
  destruct PV2 as [SV2 RD2 TI2 CI2 PH2]. pose proof (conj SV2 (conj RD2 (conj TI2 (conj CI2 PH2)))) as HPV2.
  assert (PV2 : pinv n2 pw2 ci2 ces2 outs2 pa1 pb1 les R1 e w2 q2 m1) by (constructor; assumption). clear HPV2.
  assert (HO : m_out m1 = held w2 q2) by (apply SV2).
  assert (EARLY : wr = WNeedIn -> m_out m1 = 0 -> R1 <> []).
  { intros -> M0. destruct WR as (X1 & X2 & _). rewrite HO in M0. pose proof HL2 as H1. unfold held in M0, H1. pose proof (zlen_nonneg (q_data q2)) as P1. pose proof (zlen_nonneg (q_rdata q2)) as P2. pose proof (zlen_nonneg (q_data q1)) as P3. pose proof (zlen_nonneg (q_rdata q1)) as P4.
    assert (Q2 : zlen (q_data q2) = 0 /\ zlen (q_rdata q2) = 0 /\ zlen (mem (wk_slice w2)) = 0) by (destruct (Z.eqb_spec (zlen (mem (wk_slice w2))) 0); lia).
    destruct Q2 as (Q2 & Q3 & Q4). rewrite Q4, Q2, Q3 in H1. change (0 =? 0) with true in H1. cbv iota in H1.
    assert (Q1 : zlen (q_data q1) = 0) by (destruct (zlen (mem (wk_slice w)) =? 0) in H1; lia).
    apply zlen_nil_inv in Q1, Q2. apply (no_data _ _ _ _ _ _ _ _ _ _ _ _ _ PV2 X1 X2 Q2 Q4). apply QB1, Q1. }
  assert (DI : is_done (eof (m_mux m1)) = true <-> R1 = []) by (eapply sread_is_done; exact RD2).
  (* the main part, without the early exit *)
  assert (GO : forall P : Prop, P -> (wr <> WNeedIn \/ m_out m1 <> 0) ->
    exists pre0 suf0 o p' r n' pw' ci' ces' outs' pa' pb' les' R',
      (let? '(o, q, m, r) := process_output dict skip (S rounds) q2 m1 room in
          match r with
          | Processed r => Some (zlen pre, o, PR w2 q m, r)
          | Yield =>
              let? '(nn, o2, p, r) := process dict wl D skip rounds (PR w2 q m) (zskip (zlen pre) input) (room - zlen o) in
              Some (zlen pre + nn, o ++ o2, p, r)
          end) = Some (zlen pre0, o, p', r) /\ input = pre0 ++ suf0 /\ rem R m = pre0 ++ rem R' (p_m p') /\ zlen o <= room /\
    pinv n' pw' ci' ces' outs' pa' pb' les' R' (e ++ o) (p_w p') (p_q p') (p_m p') /\
    (cost n' (p_w p') (p_q p') (p_m p') pa' outs' <= cost n w q m pa outsW)%nat /\
    match r with
    | DSuccess => e ++ o = hf /\ rem R' (p_m p') = []
    | DNeedIn => rem R' (p_m p') <> [] /\ suf0 = []
    | DNeedOut => zlen o = room /\ (rem R' (p_m p') <> [] -> suf0 = [])
    | DFail => False
    end).
  { intros P _ NX.
    destruct (process_output_spec dict wl D wlen k K8 WL skip Tr R1 n2 pw2 ci2 ces2 outs2 pa1 pb1 hf w2 W1) with (fuel := S rounds) (q := q2) (m := m1) (e := e) (les := les) (room := room)
      as (o & q3 & m3 & r & les3 & -> & LO & SV3 & PH3 & KO & TT3 & PL3 & RES); try assumption.
    { intros ->. apply (sread_end _ _ _ RD2). }
    { rewrite PE2, PE1. unfold mu in F. lia. }
    cbn [bind]. pose proof KO as (K1 & K2 & K3 & K4).
    assert (PV3 : pinv n2 pw2 ci2 ces2 outs2 pa1 pb1 les3 R1 (e ++ o) w2 q3 m3).
    { constructor; try assumption.
      - unfold st in RD2 |- *. rewrite K1, K2. exact RD2.
      - apply (tinv_keep _ _ _ _ _ KO TI2).
      - unfold crcinv in *. rewrite K3. exact CI2. }
    assert (RM3 : rem R1 m3 = rem R1 m1) by (unfold rem; rewrite K4; reflexivity).
    assert (CO : (cost n2 w2 q3 m3 pa1 outs2 <= cost n w q m pa outsW)%nat) by (unfold cost; rewrite TT3; rewrite PE2, PE1 in PL3; lia).
    assert (CM : complete R1 m1 <-> rem R1 m3 = []) by (rewrite RM3; apply complete_rem, TI2).
    destruct r as [r|].
    - exists pre, suf, o, (PR w2 q3 m3), r, n2, pw2, ci2, ces2, outs2, pa1, pb1, les3, R1. cbn [p_w p_q p_m]. split; [reflexivity|]. split; [exact IN|]. rewrite RM3. split; [exact RE|]. split; [exact LO|]. split; [exact PV3|]. split; [exact CO|].
      rewrite <- RM3. destruct r.
      + split; [apply RES|]. apply CM, RES.
      + assert (X : rem R1 m3 <> []) by (intros X; apply RES, CM, X). split; [exact X|]. rewrite RM3 in X. apply STOP, X.
      + split; [exact RES|]. rewrite RM3. exact STOP.
      + exact RES.
    - assert (ZS : zskip (zlen pre) input = suf) by (rewrite IN; unfold zskip, zlen; rewrite Nat2Z.id, skipn_app, skipn_all, Nat.sub_diag; reflexivity). rewrite ZS.
      assert (MU : (mu w2 q3 m3 pa1 outs2 < mu w q m pa outsW)%nat).
      { rewrite <- MU1. pose proof (wv_rdata2 _ _ _ _ _ _ _ _ _ _ _ (sv_w _ _ _ _ _ _ _ _ _ _ _ SV3)) as L3. unfold zlen in L3. unfold mu. rewrite TT3. rewrite PE2 in *.
        destruct RES as [RES|(Y1 & Y2 & Y3 & Y4 & Y5)]; [lia|]. rewrite Y4. cbn [length].
        destruct wr as [| | |er]; [exfalso| |exfalso|contradiction WR].
        - pose proof (wv_eof _ _ _ _ _ _ _ _ _ _ _ (sv_w _ _ _ _ _ _ _ _ _ _ _ SV2)) as X. congruence.
        - destruct WR as (X1 & X2 & [X3|[(X3 & X4 & X5)|X3]]).
          + lia.
          + exfalso. apply Y5. destruct NX as [NX|NX]; [contradiction NX; reflexivity|]. rewrite HO in NX. unfold held in NX. rewrite X4, X5 in NX. change (zlen (@nil mbuf)) with 0 in NX. change (0 =? 0) with true in NX. cbv iota in NX.
            split; [intros Z; rewrite Z in NX; apply NX; reflexivity|]. split; [exact X4|]. split; [exact X5|]. pose proof (QB1 X3) as B0. split; [exact B0|].
            destruct (is_done (eof (m_mux m1))) eqn:DN; [|reflexivity]. exfalso. apply (no_data _ _ _ _ _ _ _ _ _ _ _ _ _ PV2 X1 X2 X4 X5 B0). apply DI. reflexivity.
          + unfold zlen in X3. lia.
        - destruct WR as [X|(X1 & X2 & X3)]; [rewrite Y2 in X; unfold NUM_BUFFERED in X; change (zlen (@nil command)) with 0 in X; lia|].
          pose proof (sv_w _ _ _ _ _ _ _ _ _ _ _ SV2) as W2. pose proof (wv_tok _ _ _ _ _ _ _ _ _ _ _ W2) as TK. rewrite (wv_c _ _ _ _ _ _ _ _ _ _ _ W2) in X3. cbn [k_st wpm] in X3. rewrite X2, Y1, Y2, X3 in TK. unfold hs in TK. rewrite X1 in TK. cbn in TK. lia. }
      assert (EI3 : suf ++ future = rem R1 m3 ++ tail) by (rewrite RM3; rewrite IN, RE in EI; rewrite <- !app_assoc in EI; apply app_inv_head in EI; exact EI).
      assert (BS : bytes suf) by (rewrite IN in BI; unfold bytes in *; apply Forall_app in BI; apply BI).
      destruct (IH _ _ _ _ _ _ _ _ _ _ _ _ _ suf future tail (room - zlen o) PV3 BS EI3) as (pre4 & suf4 & o4 & p4 & r4 & n4 & pw4 & ci4 & ces4 & outs4 & pa4 & pb4 & les4 & R4 & -> & IN4 & RE4 & LO4 & PV4 & CO4 & RES4); [lia|lia|].
      cbn [bind]. exists (pre ++ pre4), suf4, (o ++ o4), p4, r4, n4, pw4, ci4, ces4, outs4, pa4, pb4, les4, R4. rewrite !zlen_app. split; [reflexivity|].
      split; [rewrite IN, IN4, app_assoc; reflexivity|]. split; [rewrite RE, <- RM3, RE4, app_assoc; reflexivity|]. split; [lia|]. rewrite app_assoc. split; [exact PV4|]. split; [lia|].
      destruct r4; try exact RES4. destruct RES4 as (RES4 & RES5). split; [lia|exact RES5]. }
  destruct wr as [| | |er]; [| | |contradiction WR]; cbn [andb].
  - apply (GO True Logic.I). left. discriminate.
  - destruct (Z.eqb_spec (m_out m1) 0) as [M0|M0].
    + pose proof (rem_nonempty R1 m1 (EARLY eq_refl M0)) as RN.
      exists pre, suf, [], (PR w2 q2 m1), DNeedIn, n2, pw2, ci2, ces2, outs2, pa1, pb1, les, R1. cbn [p_w p_q p_m]. rewrite app_nil_r. split; [reflexivity|]. split; [exact IN|]. split; [exact RE|]. change (zlen (@nil Z)) with 0. split; [exact RM|]. split; [exact PV2|].
      split; [unfold cost; rewrite PE2, PE1; lia|]. split; [exact RN|]. apply STOP, RN.
    + apply (GO True Logic.I). right. exact M0.
  - apply (GO True Logic.I). left. discriminate.
Qed.
End Proc.
