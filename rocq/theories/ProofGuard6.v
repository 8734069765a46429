(** Any bytes in the decompressor: one run of decode_process_output. *)
From Verif Require ProofRecode3.
From Verif Require Import Prelude ProofList ModelAns SpecAns ModelCdf SpecCdf ProofCdf ProofAns ProofAnsRt ProofAnsDec ThmCdf ModelMux ProofZlist ProofMux ProofMuxR ModelCmd ModelCrc ModelHeader ModelRecode SpecLz ProofRecode ProofRecode2 ModelPriors ModelCodec ModelLit ModelPm ModelTop SpecCodec ModelEnc ModelDec ModelContextLut ThmPriors ProofCodecInv ProofCodecInv2 ProofRun ProofTop ProofDec2 ProofDec3 ProofDec4 ProofDec5 SpecHostile ProofHostile SpecGuard ProofGuard1 ProofGuard2 ProofGuard3 ProofGuard4 ProofGuard5.

Definition CB : Z := 983044.
Section Out.
Context (dict : dict_fn) (wl : word_len_fn) (D : dims) (BIG : big D).
Notation minv := (minv dict D). Notation winvH := (winvH D). Notation okcmd := (okcmd D).
Record shinv (w : worker) (q : squeue) (m : main) : Prop := {
  hs_w : winvH (cpm (m_cmds m)) w q;
  hs_out : m_out m = held w q;
  hs_pq : has_speeds (fst (m_pred m)) = Nat.eqb (cpm (m_cmds m)) 1;
  hs_pq2 : has_speeds (fst (m_pred m)) = true -> pm_ok D (fst (m_pred m));
  hs_ps : has_speeds (snd (m_pred m)) = false }.
Definition PHI (w : worker) (q : squeue) (m : main) : Z := W w q + CB * zlen (mb_data (buf0 (m_mux m))) + 4 * zlen (m_cmds m).
Definition cbytes (l : list mbuf) : Z := zlen (concat (map mb_data l)).
Lemma W_data w q qd : W w (q_set_data q qd) + CB * cbytes (q_data q) = W w q + CB * cbytes qd.
Proof.
  unfold W, pot, LW, H, left_w, qbytes, cbytes, CB. cbn [q_data q_set_data q_res q_rdata]. rewrite !app_length. unfold zlen. lia.
Qed.
Lemma W_rest w q x c e : q_rdata q = q_rdata q -> W w (SQ (q_data q) c [] [] x e) + 4 * zlen (q_res q) + zlen (q_rdata q) = W w q.
Proof. intros _. unfold W, H, LW, left_w, qbytes. cbn [q_data q_res q_rdata]. change (zlen (@nil command)) with 0. change (zlen (@nil mbuf)) with 0. lia. Qed.
Lemma W_cm w q c : W w (q_set_cm q c) = W w q. Proof. reflexivity. Qed.

Lemma take_back_any cM w : forall bufs q m, winvH cM w q -> rinv (m_mux m) -> q_rdata q = [] -> m_out m = held w q + zlen bufs ->
  exists b' qd o need, take_back bufs q m = Some (q_set_data q qd, m_set_buf m b' o, need) /\
    winvH cM w (q_set_data q qd) /\ bok b' /\ o = held w (q_set_data q qd) /\
    W w (q_set_data q qd) + CB * zlen (mb_data b') = W w q + CB * zlen (mb_data (buf0 (m_mux m))).
Proof.
  induction bufs as [|dat bufs IH]; intros q m V RI RD OUT.
  { exists (buf0 (m_mux m)), (q_data q), (m_out m), false. cbn [take_back]. split; [destruct q, m as [[]]; reflexivity|].
    assert (Q : q_set_data q (q_data q) = q) by (destruct q; reflexivity). rewrite Q. split; [exact V|]. split; [apply RI|]. change (zlen (@nil mbuf)) with 0 in OUT. split; [lia|]. reflexivity. }
  cbn [take_back]. rewrite zlen_cons in OUT. pose proof (zlen_nonneg bufs) as LB.
  assert (HN : 0 <= held w q) by (unfold held; pose proof (zlen_nonneg (q_data q)); pose proof (zlen_nonneg (q_rdata q)); destruct (_ =? 0); lia).
  unfold assert. destruct (Z.leb_spec 1 (m_out m)) as [_|X]; [|lia].
  pose proof RI as (B0 & B1 & TD).
  unfold q_push. destruct ((2 <=? zlen (q_data q)) || (zlen (mb_data (buf0 (m_mux m))) =? 0)) eqn:PU.
  - set (cmd := buf0 (m_mux m)) in *.
    set (cmd' := if zlen (mem cmd) =? 0 then MB (mem dat) (rd cmd) (wr cmd) else cmd).
    assert (C' : bok cmd' /\ mb_data cmd' = mb_data cmd) by (unfold cmd'; destruct (Z.eqb_spec (zlen (mem cmd)) 0); [apply bok_donate; assumption|auto]). destruct C' as (BC & DC).
    destruct (IH q (m_set_buf m cmd' (m_out m - 1))) as (b' & qd & o & need & E & V' & B' & O' & DT).
    + exact V.
    + apply rinv_buf0; assumption.
    + exact RD.
    + change (m_out (m_set_buf m cmd' (m_out m - 1))) with (m_out m - 1). lia.
    + rewrite E. cbn [bind]. exists b', qd, o. eexists. split; [reflexivity|]. split; [exact V'|]. split; [exact B'|]. split; [exact O'|].
      change (buf0 (m_mux (m_set_buf m cmd' (m_out m - 1)))) with cmd' in *. rewrite DC in *. exact DT.
  - apply orb_false_elim in PU. destruct PU as (P1 & P2). apply Z.leb_gt in P1. apply Z.eqb_neq in P2. cbn [mem mb_empty rd wr]. change (zlen (@nil Z) =? 0) with true. cbv iota.
    assert (NE : mb_data (buf0 (m_mux m)) <> []) by (intros X; rewrite X in P2; apply P2; reflexivity).
    destruct (IH (q_set_data q (q_data q ++ [buf0 (m_mux m)])) (m_set_buf m (MB (mem dat) 0 0) (m_out m - 1 + 1))) as (b' & qd & o & need & E & V' & B' & O' & DT).
    + destruct V. constructor; try assumption; cbn [q_data q_set_data].
      * apply Forall_app. split; [assumption|]. apply Forall_cons; [|constructor]. split; [exact B0|exact NE].
      * rewrite zlen_app. change (zlen [buf0 (m_mux m)]) with 1. lia.
    + apply rinv_buf0; [exact RI|]. unfold bok. cbn [rd wr mem]. pose proof (zlen_nonneg (mem dat)). lia.
    + exact RD.
    + change (m_out (m_set_buf m (MB (mem dat) 0 0) (m_out m - 1 + 1))) with (m_out m - 1 + 1). unfold held in *. cbn [q_data q_rdata q_set_data]. rewrite zlen_app. change (zlen [buf0 (m_mux m)]) with 1. lia.
    + rewrite E. cbn [bind]. exists b', qd, o. eexists. split; [reflexivity|]. split; [exact V'|]. split; [exact B'|]. split; [exact O'|].
      pose proof (W_data w q (q_data q ++ [buf0 (m_mux m)])) as WD. unfold cbytes in WD. rewrite map_app, concat_app in WD. cbn [map concat] in WD. rewrite app_nil_r, zlen_app in WD.
      change (mb_data (buf0 (m_mux (m_set_buf m (MB (mem dat) 0 0) (m_out m - 1 + 1))))) with (@nil Z) in DT. change (zlen (@nil Z)) with 0 in DT. cbn [q_data q_set_data q_cm q_res q_rdata q_rcm q_eof] in *. unfold q_set_data in *. cbn [q_data q_cm q_res q_rdata q_rcm q_eof] in *. lia.
Qed.
Lemma minv_io m m' : minv m -> rinv (m_mux m') -> buf1 (m_mux m') = buf1 (m_mux m) -> m_dec m' = m_dec m -> m_lbk m' = m_lbk m -> m_mix m' = m_mix m -> m_rec m' = m_rec m ->
  m_lit m' = m_lit m -> m_pop m' = m_pop m -> Forall okcmd (m_cmds m') -> minv m'.
Proof.
  intros [V1 V2 V3 V4 V5 V6 V7 V8] R E1 E2 E3 E4 E5 E6 E7 F. constructor; rewrite ?E2, ?E3, ?E4, ?E5; try assumption.
  unfold mphase. rewrite E1, E2, E3, E4, E5, E6, E7. exact V8.
Qed.
Lemma pull_any w q m : shinv w q m -> minv m ->
  exists q' m' need, pull_commands q m = Some (q', m', need) /\ shinv w q' m' /\ minv m' /\ m_lit m' = m_lit m /\ m_pop m' = m_pop m /\ zlen (m_cmds m') + zlen (q_res q') = zlen (m_cmds m) + zlen (q_res q) /\ PHI w q' m' <= PHI w q m /\
    (m_cmds m' = [] -> m_eof m' = false -> m_cmds m = [] /\ q_res q = [] /\ q_eof q = false /\ (PHI w q' m' < PHI w q m \/ q_rdata q = [])).
Proof.
  intros SV MI. pose proof SV as [V OUT PQ PQ2 PS]. unfold pull_commands. destruct (m_cmds m) as [|c cs] eqn:MC.
  2:{ exists q, m, false. split; [reflexivity|]. split; [exact SV|]. split; [exact MI|]. rewrite MC. do 3 (split; [reflexivity|]). split; [lia|]. discriminate. }
  destruct (m_eof m) eqn:ME.
  { exists q, m, false. split; [reflexivity|]. split; [exact SV|]. split; [exact MI|]. rewrite MC. do 3 (split; [reflexivity|]). split; [lia|]. intros _ X. congruence. }
  cbn [cpm Nat.eqb] in *. rewrite PQ, PS. cbn [negb andb assert].
  assert (A2 : match q_res q with [] => negb (has_speeds (fst (q_rcm q))) && negb (has_speeds (snd (q_rcm q))) | _ => true end = true).
  { destruct (q_res q) eqn:QR; [|reflexivity]. pose proof (hv_tq _ _ _ _ V) as TQ. pose proof (hv_ts _ _ _ _ V) as TS. rewrite QR in TQ. cbn in TQ. rewrite TQ, TS. reflexivity. }
  rewrite A2. cbn [assert].
  set (q1 := SQ (q_data q) (q_cm q) [] [] (m_pred m) (q_eof q)).
  set (m1 := MN (m_mux m) (m_crc m) (m_trailer m) (m_out m) (m_lbk m) (m_mix m) (m_dec m) (m_rec m) (m_lit m) (m_pop m) (q_res q) (false || q_eof q) (q_rcm q)).
  assert (V1 : winvH (cpm (q_res q)) w q1).
  { destruct V. constructor; try assumption.
    - change (zlen (@nil mbuf) <= 2); change (zlen (@nil mbuf)) with 0; lia.
    - change (zlen (@nil command) <= NUM_BUFFERED). change (zlen (@nil command)) with 0. unfold NUM_BUFFERED. lia.
    - cbn [q_res q1 cpm q_cm]. lia.
    - cbn [q_res q1]. constructor. }
  assert (HL : m_out m1 = held w q1 + zlen (q_rdata q)) by (change (m_out m1) with (m_out m); rewrite OUT; unfold held; cbn [q1 q_data q_rdata]; change (zlen (@nil mbuf)) with 0; lia).
  destruct (take_back_any (cpm (q_res q)) w (q_rdata q) q1 m1 V1 (mv_mux _ _ _ MI) eq_refl HL) as (b' & qd & o & need & E & V' & B' & O' & DT).
  rewrite E. exists (q_set_data q1 qd), (m_set_buf m1 b' o), need. split; [reflexivity|].
  pose proof (W_rest w q (m_pred m) (q_cm q) (q_eof q) eq_refl) as WR. fold q1 in WR.
  assert (PH : PHI w (q_set_data q1 qd) (m_set_buf m1 b' o) + zlen (q_rdata q) = PHI w q m).
  { unfold PHI. change (buf0 (m_mux (m_set_buf m1 b' o))) with b'. change (m_cmds (m_set_buf m1 b' o)) with (q_res q). change (buf0 (m_mux m1)) with (buf0 (m_mux m)) in DT. rewrite MC. change (zlen (@nil command)) with 0. clear -DT WR. lia. }
  pose proof (zlen_nonneg (q_rdata q)) as RN.
  split; [|split; [|split; [reflexivity|split; [reflexivity|split; [|split; [lia|]]]]]].
  - constructor; [exact V'|exact O'|exact (hv_tq _ _ _ _ V)|exact (hv_tq2 _ _ _ _ V)|exact (hv_ts _ _ _ _ V)].
  - apply (minv_io m); try reflexivity; [exact MI|apply (rinv_buf0 (m_mux m)); [apply MI|exact B']|exact (hv_cmds _ _ _ _ V)].
  - change (m_cmds (m_set_buf m1 b' o)) with (q_res q). change (q_res (q_set_data q1 qd)) with (@nil command). change (zlen (@nil command)) with 0. lia.
  - intros MC' ME'. change (m_cmds (m_set_buf m1 b' o)) with (q_res q) in MC'. change (m_eof (m_set_buf m1 b' o)) with (q_eof q) in ME'. split; [reflexivity|]. split; [exact MC'|]. split; [exact ME'|].
    destruct (q_rdata q) as [|x l] eqn:QD; [right; reflexivity|]. left. rewrite zlen_cons in PH. pose proof (zlen_nonneg l). lia.
Qed.
Lemma lbk_last8 l x : lbk_ok l -> lbk_ok (set_last_8 l x).
Proof. intros []. split; assumption. Qed.
Lemma lbk_btype l t : lbk_ok l -> byte t -> lbk_ok (set_btype_last l t).
Proof. intros [] B. split; assumption. Qed.
Lemma cpm_cons c cs : cpm (c :: cs) = (match c with PredictionMode _ => 1 | _ => 0 end + cpm cs)%nat.
Proof. destruct c; reflexivity. Qed.
Lemma take_any w q m c cs : shinv w q m -> minv m -> rests m -> m_cmds m = c :: cs -> speeds_danger c m = None ->
  exists q' m' r, take_command c q (m_set_cmds m cs) = Some (q', m', r) /\
    match r with
    | Some (Processed _) => r = Some (Processed DFail)
    | _ => shinv w q' m' /\ minv m' /\ zlen (m_cmds m') + zlen (q_res q') + 1 = zlen (m_cmds m) + zlen (q_res q) /\ PHI w q' m' < PHI w q m
    end.
Proof.
  intros SV MI (ML & MP) MC SD. pose proof SV as [V OUT PQ PQ2 PS]. pose proof MI as [V1 V2 V3 V4 V5 V6 V7 V8]. unfold mphase in V8. rewrite ML, MP in V8. destruct V8 as (PA & h & e & ID).
  rewrite MC in V7. inversion V7 as [|? ? OK OKS]; subst.
  assert (SKEEP : match c with PredictionMode _ => False | _ => True end -> forall m', m_mux m' = m_mux m -> m_out m' = m_out m -> m_pred m' = m_pred m -> m_cmds m' = cs -> shinv w q m').
  { intros NP m' E1 E2 E3 E4. assert (CC : cpm (m_cmds m) = cpm cs) by (rewrite MC; destruct c; try reflexivity; destruct NP). rewrite CC in *. constructor; rewrite ?E1, ?E2, ?E3, ?E4; assumption. }
  assert (PKEEP : forall q' m', W w q' = W w q -> zlen (q_res q') = zlen (q_res q) -> m_mux m' = m_mux m -> m_cmds m' = cs ->
    zlen (m_cmds m') + zlen (q_res q') + 1 = zlen (m_cmds m) + zlen (q_res q) /\ PHI w q' m' < PHI w q m).
  { intros q' m' E0 E00 E1 E2. unfold PHI. rewrite E0, E00, E1, E2, MC, zlen_cons. lia. }
  assert (POP : match c with PredictionMode _ => False | _ => True end -> minv (m_set_pop (m_set_cmds m cs) (Some c))).
  { intros NP. constructor; try assumption. unfold mphase. cbn [m_lit m_set_pop m_set_cmds m_dec m_pop m_rec]. rewrite ML. split; [exact PA|]. split; [exact OK|]. exists h, h, e. apply idle_mid, ID. }
  destruct c as [d ln|ws wid tr fs|data he|x|t|t|t st]; cbn [take_command];
  try (do 3 eexists; split; [reflexivity|]; cbn iota; split; [apply SKEEP; [exact Logic.I|reflexivity..]|]; split; [exact (POP Logic.I)|]; apply PKEEP; reflexivity).
  - (* a literal *)
    cbn [m_lbk m_set_cmds m_mix m_rec]. do 3 eexists. split; [reflexivity|]. cbn iota. split; [apply SKEEP; [exact Logic.I|reflexivity..]|]. split; [|apply PKEEP; reflexivity].
    assert (LO : lbk_ok (set_last_8 (m_lbk m) (pack8 (m_rec m)))) by (apply lbk_last8, V4).
    constructor; try assumption. unfold mphase. cbn [m_lit m_set_lit m_set_lbk m_set_cmds m_dec m_pop m_rec m_mix m_mux m_lbk]. split; [exact MP|]. split; [exists h, e; exact ID|].
    cbn [okcmd sane_command] in OK. destruct OK as (DB & DL).
    constructor; try assumption.
    + apply V1.
    + unfold lit_sane, LMAX. cbn [l_sub l_data l_len]. change (zlen (@nil Z)) with 0. split; [constructor|]. lia.
    + unfold pos_ok. cbn [l_sub]. lia.
    + intros X. split; [reflexivity|left]. apply Z.leb_le in X. exact X.
  - (* a prediction mode *)
    cbn [m_pred m_set_cmds m_lbk m_set_pred]. cbn [speeds_danger] in SD.
    pose proof (hv_tok _ _ _ _ V) as TK. rewrite MC, cpm_cons in TK, PQ. assert (C0 : cpm cs = 0%nat) by lia. assert (Q0 : q_cm q = []) by (destruct (q_cm q); [reflexivity|cbn [length] in TK; lia]).
    rewrite C0 in PQ. cbn [Nat.add Nat.eqb] in PQ. specialize (PQ2 PQ). pose proof PQ2 as (IP & PN & _).
    destruct (Z.ltb_spec (pm_mode (fst (m_pred m))) 4) as [M4|M4].
    2:{ assert (OB : obs_prediction_mode (m_lbk m) (fst (m_pred m)) = Err PredictionModeOutOfBounds) by (unfold obs_prediction_mode; destruct (Z.ltb_spec (pm_mode (fst (m_pred m))) 4); [lia|reflexivity]).
        rewrite OB. do 3 eexists. split; reflexivity. }
    cbn [andb] in SD. destruct (usable_speeds (fst (m_pred m))) eqn:US; [|discriminate SD].
    pose proof (obs_pm_ok adapted tame D (m_lbk m) (fst (m_pred m)) BIG V4 IP (usables_good _ US)) as OB.
    destruct (obs_prediction_mode (m_lbk m) (fst (m_pred m))) as [l'|er|]; [|lia|contradiction OB]. destruct OB as (_ & LO' & MX').
    rewrite Q0. change (zlen (@nil predmode) <? 2) with true. cbn [assert]. do 3 eexists. split; [reflexivity|]. cbn iota. split; [|split; [|apply PKEEP; reflexivity]].
    + constructor; cbn [m_cmds m_set_lbk m_set_pred m_set_cmds m_pred fst snd m_out]; rewrite ?C0.
      * destruct V. constructor; try assumption.
        -- cbn [q_res q_set_cm q_cm length]. rewrite Q0 in TK. cbn [length] in TK. lia.
        -- cbn [q_cm q_set_cm]. apply Forall_cons; [exact PQ2|constructor].
      * exact OUT.
      * exact PS.
      * rewrite PS. discriminate.
      * reflexivity.
    + constructor; try assumption. unfold mphase. cbn [m_lit m_set_lbk m_set_pred m_set_cmds m_dec m_pop m_rec]. rewrite ML, MP. split; [exact PA|]. exists h, e. exact ID.
  - (* a switch of the literal block type *)
    cbn [m_lbk m_set_cmds]. do 3 eexists. split; [reflexivity|]. cbn iota. split; [apply SKEEP; [exact Logic.I|reflexivity..]|]. split; [|apply PKEEP; reflexivity].
    cbn [okcmd sane_command] in OK. constructor; try assumption; cbn [m_lbk m_mix m_set_lbk m_set_cmds].
    + apply lbk_btype; [exact V4|apply OK].
    + unfold traits, inv_mix in *. cbn [set_btype_last wt_low wt_high]. destruct V5 as (-> & ->). destruct (m_mix m); split; reflexivity.
    + unfold mphase. cbn [m_lit m_set_lbk m_set_cmds m_dec m_pop m_rec]. rewrite ML, MP. split; [exact PA|]. exists h, e. exact ID.
Qed.
Lemma finish_any skip m room : minv m -> rests m -> 0 <= room ->
  exists o m' r, finish skip m room = Some (o, m', r) /\ zlen o <= room /\ minv m' /\ keep_in m m'.
Proof.
  intros MI (ML & MP) RM. pose proof MI as [V1 V2 V3 V4 V5 V6 V7 V8]. unfold mphase in V8. rewrite ML, MP in V8. destruct V8 as (PA & h & e & ID). unfold finish.
  destruct (ProofRecode3.flush_done (m_rec m) h e room ID RM) as (res & o & r' & -> & ID' & LR' & _ & LO' & RES). cbn [bind].
  assert (KI : keep_in m (m_set_rec m r' (m_pop m))) by (unfold keep_in; split; [exists (buf1 (m_mux m)); cbn; destruct (m_mux m); reflexivity|]; repeat split).
  assert (M' : minv (m_set_rec m r' (m_pop m))).
  { constructor; try assumption; cbn [m_rec m_set_rec]; [unfold len in *; lia|]. unfold mphase. cbn [m_lit m_set_rec m_dec m_pop m_rec]. rewrite ML, MP. split; [exact PA|]. exists h, (e ++ o). exact ID'. }
  destruct RES as [(-> & _)|(-> & _)]; do 3 eexists; (split; [reflexivity|]; auto).
Qed.
Lemma shinv_keep w q m m' : shinv w q m -> keep_in m m' -> shinv w q m' /\ PHI w q m' = PHI w q m.
Proof.
  intros [V OUT PQ PQ2 PS] ((b & A1) & A2 & A3 & A4 & A5 & A6 & A7). split; [constructor; rewrite ?A4, ?A5, ?A7; assumption|]. unfold PHI. rewrite A1, A5. reflexivity.
Qed.
Definition out_fine (w : worker) (q : squeue) (m : main) (room : Z) (x : guarded (list Z * squeue * main * presult)) : Prop :=
  (exists h, x = Unsafe h) \/
  exists o q' m' r, x = Fine (o, q', m', r) /\ zlen o <= room /\
    (r = Processed DFail \/
     shinv w q' m' /\ minv m' /\ PHI w q' m' <= PHI w q m /\
     (r = Yield -> PHI w q' m' < PHI w q m \/ (m_cmds m = [] /\ q_res q = [] /\ q_rdata q = [] /\ q_eof q = false))).
Lemma output_any skip w : forall fuel q m room, shinv w q m -> minv m -> 0 <= room -> zlen (m_cmds m) + zlen (q_res q) < Z.of_nat fuel ->
  out_fine w q m room (g_output dict skip fuel q m room).
Proof.
  induction fuel as [|fuel IH]; intros q m room SV MI RM F; [pose proof (zlen_nonneg (m_cmds m)); pose proof (zlen_nonneg (q_res q)); lia|].
  rewrite g_output_front. destruct (front_any dict D m room MI RM) as [(hz & ->)|(o & m1 & fr & -> & LO & KI & FR)]; [left; eexists; reflexivity|].
  destruct (shinv_keep _ _ _ _ SV KI) as (SV1 & PE).
  destruct fr.
  - destruct FR as (MI1 & RS1).
    destruct (pull_any w q m1 SV1 MI1) as (q2 & m2 & need & -> & SV2 & MI2 & L2 & P2 & N2 & PH2 & YD). cbn [of_opt gbind].
    assert (RS2 : rests m2) by (destruct RS1 as (R1 & R2); split; congruence).
    destruct need.
    + right. do 4 eexists. split; [reflexivity|]. split; [exact LO|]. right. split; [exact SV2|]. split; [exact MI2|]. split; [lia|discriminate].
    + destruct (m_cmds m2) as [|c cs] eqn:MC.
      * destruct (m_eof m2) eqn:ME.
        -- destruct (finish_any skip m2 (room - zlen o) MI2 RS2 ltac:(lia)) as (o2 & m3 & r & -> & LO2 & MI3 & KI3). cbn [of_opt gbind].
           destruct (shinv_keep _ _ _ _ SV2 KI3) as (SV3 & PE3). right. do 4 eexists. split; [reflexivity|]. rewrite zlen_app. split; [lia|]. right. split; [exact SV3|]. split; [exact MI3|]. split; [lia|discriminate].
        -- destruct (YD eq_refl eq_refl) as (Y1 & Y2 & Y3 & Y4). right. do 4 eexists. split; [reflexivity|]. split; [exact LO|]. right. split; [exact SV2|]. split; [exact MI2|]. split; [lia|]. intros _.
           destruct KI as (_ & _ & _ & _ & K5 & _). rewrite <- K5. destruct Y4 as [Y4|Y4]; [left; lia|right; auto].
      * destruct (speeds_danger c m2) as [hz|] eqn:SD; cbn [unless gbind]; [left; eexists; reflexivity|].
        destruct (take_any w q2 m2 c cs SV2 MI2 RS2 MC SD) as (q3 & m3 & r & -> & R). cbn [of_opt gbind].
        destruct r as [[r|]|].
        -- right. do 4 eexists. split; [reflexivity|]. split; [exact LO|]. left. congruence.
        -- destruct R as (SV3 & MI3 & N3 & PH3). right. do 4 eexists. split; [reflexivity|]. split; [exact LO|]. right. split; [exact SV3|]. split; [exact MI3|]. split; [lia|]. intros _. left. lia.
        -- destruct R as (SV3 & MI3 & N3 & PH3). destruct KI as (_ & _ & _ & _ & K5 & _).
           destruct (IH q3 m3 (room - zlen o) SV3 MI3 ltac:(lia) ltac:(rewrite K5 in N2; rewrite MC in N3; lia)) as [(hz & ->)|(o4 & q4 & m4 & r4 & -> & LO4 & R4)]; cbn [gbind]; [left; eexists; reflexivity|].
           right. do 4 eexists. split; [reflexivity|]. rewrite zlen_app. split; [lia|]. destruct R4 as [R4|(SV4 & MI4 & PH4 & Y4)]; [left; exact R4|]. right. split; [exact SV4|]. split; [exact MI4|]. split; [lia|]. intros _. left. lia.
  - right. do 4 eexists. split; [reflexivity|]. split; [exact LO|]. right. split; [exact SV1|]. split; [exact FR|]. split; [lia|discriminate].
  - right. do 4 eexists. split; [reflexivity|]. split; [exact LO|]. right. split; [exact SV1|]. split; [exact FR|]. split; [lia|discriminate].
  - right. do 4 eexists. split; [reflexivity|]. split; [exact LO|]. left. reflexivity.
Qed.
End Out.
