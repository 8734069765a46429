(** Two threads, any input: worlds, sessions and progress. *)
From Verif Require Import Prelude ProofList ModelAns SpecAns ModelCdf SpecCdf ProofCdf ProofAns ProofAnsRt ProofAnsDec ThmCdf ModelMux ProofZlist ProofMux ProofMuxR ModelCmd ModelCrc ModelHeader ModelRecode SpecLz ProofRecode ProofRecode2 ModelPriors ModelCodec ModelLit ModelPm ModelTop SpecCodec ModelEnc ModelDec ModelContextLut ThmPriors ProofCodecInv ProofCodecInv2 ProofRun ProofTop ProofDec2 ProofDec3 ProofDec4 ProofDec5 SpecHostile ProofHostile SpecGuard ProofGuard1 ProofGuard2 ProofGuard3 ProofGuard4 ProofGuard5 ProofGuard6 ProofGuard7 ModelThread SpecThread SpecCheck ProofCheck SpecTany SpecTguard ProofTany ProofTg1 ProofTg2 ProofTg3.

Lemma event_eq_main (e : event) : e = ByMain \/ e <> ByMain.
Proof. destruct e; [left; reflexivity|right; discriminate..]. Qed.
Section Worlds.
Context (dict : dict_fn) (wl : word_len_fn) (D : dims) (BIG : big D) (skip : bool).
Notation CI := (CI dict D). Notation step := (step dict wl D skip).
Definition aw (st : sleep) : Z := match st with Awake => 0 | _ => 1 end.
Definition sw (st : sleep) : Z := match st with Awake => 2 | Woken => 1 | Asleep => 0 end.
Definition Psi (x : world) : Z := 4 * (BW (wd_w x) + BQ (sh_q (wd_sh x)) + BM (wd_m x)) + sw (tw_st (wd_w x)) + sw (tm_st (wd_m x)).
Record WI (x : world) : Prop := {
  wi_c : exists n, CI n (wd_sh x) (wd_w x) (wd_m x);
  wi_n : sh_waiters (wd_sh x) = aw (tm_st (wd_m x)) + aw (tw_st (wd_w x));
  wi_m : tm_st (wd_m x) = Asleep -> mblocked (wd_sh x) (wd_m x);
  wi_w : tw_st (wd_w x) = Asleep -> wblocked (wd_sh x) (wd_w x) /\ ended (wd_w x) = false }.
Lemma CI_st n s w t k a b : CI n s w t -> CI n (sh_wait s k) (tw_set_st w a) (tm_set_st t b).
Proof. intros [C1 C2 C3 C4 C5 C6 C7 C8 C9 C10 [C11 C12 C13]]. constructor; try assumption. constructor; assumption. Qed.
Lemma CI_st0 n s w t a b : CI n s w t -> CI n s (tw_set_st w a) (tm_set_st t b).
Proof. intros [C1 C2 C3 C4 C5 C6 C7 C8 C9 C10 [C11 C12 C13]]. constructor; try assumption. constructor; assumption. Qed.
Lemma w_st w : tw_set_st w (tw_st w) = w. Proof. destruct w; reflexivity. Qed.
Lemma t_st t : tm_set_st t (tm_st t) = t. Proof. destruct t; reflexivity. Qed.
Lemma CI_leave n s w t st a b : CI n s w t -> CI n (leave_wait st s) (tw_set_st w a) (tm_set_st t b).
Proof. destruct st; [apply CI_st0|apply CI_st0|apply CI_st]. Qed.
Lemma leave_q st s : sh_q (leave_wait st s) = sh_q s. Proof. destruct st; reflexivity. Qed.
Lemma leave_n st s : st <> Asleep -> sh_waiters (leave_wait st s) = sh_waiters s - aw st.
Proof. destruct st; cbn [leave_wait sh_wait sh_waiters aw]; intros; try lia. contradiction. Qed.
Lemma leave_w st s w : wblocked s w -> wblocked (leave_wait st s) w. Proof. destruct st; exact (fun x => x). Qed.
Lemma leave_m st s t : mblocked s t -> mblocked (leave_wait st s) t. Proof. destruct st; exact (fun x => x). Qed.
Lemma wake_sw st : sw (wake st) <= sw st + 1. Proof. destruct st; cbn; lia. Qed.
Lemma wake_aw st : aw (wake st) = aw st. Proof. destruct st; reflexivity. Qed.
Lemma wake_awake st : wake st <> Asleep. Proof. destruct st; discriminate. Qed.
Lemma BW_nonneg n s w t : CI n s w t -> 0 <= BW w.
Proof.
  intros C. destruct (ended w) eqn:EN; [rewrite BW_end by exact EN; lia|]. rewrite BW_eq by exact EN.
  assert (L : live (tw_pc w)) by (unfold ended in EN; unfold live; destruct (tw_pc w); auto; discriminate).
  destruct (cw_ok _ _ _ _ _ (ci_w _ _ _ _ _ _ C) L) as (_ & _ & K & TK & _ & WP). pose proof (qi_tok _ _ _ _ _ (ci_q _ _ _ _ _ _ C)).
  assert (DN : wk_done (tw_w w) = false) by (unfold wpc_ok in WP; unfold ended in EN; destruct (tw_pc w); try apply WP; discriminate).
  pose proof (U_pos D (tw_w w) K DN ltac:(lia)). pose proof (zlen_nonneg (tw_buf w)). assert (0 <= rankW (tw_pc w)) by (destruct (tw_pc w) as [|[]| | | |]; cbn; lia). lia.
Qed.
Lemma BQ_nonneg q : 0 <= BQ q.
Proof. unfold BQ, cbytes, BB. pose proof (zlen_nonneg (q_res q)). pose proof (zlen_nonneg (q_rdata q)). pose proof (zlen_nonneg (q_data q)). pose proof (zlen_nonneg (concat (map mb_data (q_data q)))). lia. Qed.
Lemma BM_nonneg t : 0 <= BM t.
Proof.
  unfold BM, BB. pose proof (zlen_nonneg (m_cmds (tm_m t))). pose proof (zlen_nonneg (mb_data (buf0 (m_mux (tm_m t))))). pose proof (zlen_nonneg (tm_in t)).
  assert (0 <= rankM (tm_pc t)) by (destruct (tm_pc t) as [r| | | | |l nd bd|p]; cbn [rankM]; try lia; pose proof (zlen_nonneg l); destruct bd; lia). destruct (m_eof (tm_m t)); lia.
Qed.
Lemma Psi_nonneg x : WI x -> 0 <= Psi x.
Proof.
  intros [(n & C) _ _ _]. unfold Psi. pose proof (BW_nonneg _ _ _ _ C). pose proof (BQ_nonneg (sh_q (wd_sh x))). pose proof (BM_nonneg (wd_m x)).
  assert (forall st, 0 <= sw st) as S by (intros []; cbn; lia). pose proof (S (tw_st (wd_w x))). pose proof (S (tm_st (wd_m x))). lia.
Qed.
Lemma wi_worker x : WI x -> (tw_pc (wd_w x) = WRun -> w_danger wl D (tw_w (wd_w x)) squeue_new = None) ->
  ((tw_st (wd_w x) = Asleep \/ ended (wd_w x) = true) /\ step ByWorker x = Some x) \/
  exists x', step ByWorker x = Some x' /\ WI x' /\ Psi x' < Psi x /\ exists st, wd_m x' = tm_set_st (wd_m x) st /\ (tm_st (wd_m x) = Awake -> st = Awake).
Proof.
  intros V HD. destruct x as [s w t]. unfold ModelThread.step. cbn [wd_sh wd_w wd_m] in *. pose proof V as [(n & C) WN WM WW]. cbn [wd_sh wd_w wd_m] in *.
  destruct (ended w) eqn:EN.
  { left. split; [auto|]. destruct (tw_st w); reflexivity. }
  assert (GO : forall st, tw_st w = st -> st <> Asleep -> exists x', (let? '(s1, w1, note) := wstep wl D (leave_wait st s) (tw_set_st w Awake) in Some (WD s1 w1 (if note then tm_set_st t (wake (tm_st t)) else t))) = Some x' /\ WI x' /\ Psi x' < Psi (WD s w t) /\ exists st', wd_m x' = tm_set_st t st' /\ (tm_st t = Awake -> st' = Awake)).
  { intros st ST NS. pose proof (CI_leave n s w t st Awake (tm_st t) C) as C0. rewrite t_st in C0.
    destruct (wstep_any dict wl D BIG n (leave_wait st s) (tw_set_st w Awake) t C0 EN HD) as (s' & w' & note & n' & E & C' & MV & NT & MB).
    rewrite E. cbn [bind]. rewrite leave_n in MV by exact NS. rewrite leave_q in MV, NT. change (BW (tw_set_st w Awake)) with (BW w) in MV, NT.
    eexists. split; [reflexivity|].
    assert (NF : tm_st t = Asleep -> notify (leave_wait st s) = true) by (intros X; unfold notify; rewrite leave_n by exact NS; rewrite WN, X, ST; cbn [aw]; replace (1 + aw st - aw st) with 1 by lia; reflexivity).
    split; [|split; [|destruct note; [exists (wake (tm_st t))|exists (tm_st t)]; cbn [wd_m]; rewrite ?t_st; (split; [reflexivity|]); intros ->; reflexivity]].
    - constructor; cbn [wd_sh wd_w wd_m].
      + exists n'. destruct note; [rewrite <- (w_st w'); apply CI_st0|]; exact C'.
      + assert (TS : aw (tm_st (if note then tm_set_st t (wake (tm_st t)) else t)) = aw (tm_st t)) by (destruct note; [apply wake_aw|reflexivity]). rewrite TS, WN, ST in *. destruct MV as [(A & B & _)|(A & B & _)]; rewrite A, B; cbn [aw]; lia.
      + intros X. destruct note; [exfalso; exact (wake_awake _ X)|]. destruct (MB (leave_m _ _ _ (WM X))) as [Y|Y]; [exact Y|rewrite (NF X) in Y; discriminate].
      + intros X. destruct MV as [(A & _)|(_ & _ & B & Y & _)]; [rewrite X in A; discriminate|split; assumption].
    - unfold Psi. cbn [wd_sh wd_w wd_m]. rewrite ST.
      assert (BE : BM (if note then tm_set_st t (wake (tm_st t)) else t) = BM t) by (destruct note; reflexivity). rewrite BE.
      assert (SE : sw (tm_st (if note then tm_set_st t (wake (tm_st t)) else t)) <= sw (tm_st t) + (if note then 1 else 0)) by (destruct note; [apply wake_sw|lia]).
      assert (S1 : 1 <= sw st) by (destruct st; [cbn; lia|contradiction|cbn; lia]).
      destruct MV as [(A & B & L)|(A & B & _ & _ & L)]; rewrite A; cbn [sw]; destruct note; try specialize (NT eq_refl); lia. }
  destruct (tw_st w) eqn:ST; [|left; split; [auto|reflexivity]|]; right; apply GO; try reflexivity; discriminate.
Qed.
Lemma wi_main x : WI x -> in_call (wd_m x) = true -> safe_main dict (wd_m x) ->
  (tm_st (wd_m x) = Asleep /\ step ByMain x = Some x) \/
  exists x', step ByMain x = Some x' /\
    (tm_pc (wd_m x') = MRet DFail \/
     (WI x' /\ Psi x' < Psi x /\ (tm_pc (wd_m x') = MRet DSuccess -> q_eof (sh_q (wd_sh x')) = true) /\ (tm_st (wd_m x') = Awake \/ tm_pc (wd_m x') = MPull))).
Proof.
  intros V IC HD. destruct x as [s w t]. unfold ModelThread.step. cbn [wd_sh wd_w wd_m] in *. pose proof V as [(n & C) WN WM WW]. cbn [wd_sh wd_w wd_m] in *. rewrite IC.
  assert (GO : forall st, tm_st t = st -> st <> Asleep -> exists x', (let? '(s1, t1, note) := mstep dict skip (leave_wait st s) (tm_set_st t Awake) in Some (WD s1 (if note then tw_set_st w (wake (tw_st w)) else w) t1)) = Some x' /\
    (tm_pc (wd_m x') = MRet DFail \/ (WI x' /\ Psi x' < Psi (WD s w t) /\ (tm_pc (wd_m x') = MRet DSuccess -> q_eof (sh_q (wd_sh x')) = true) /\ (tm_st (wd_m x') = Awake \/ tm_pc (wd_m x') = MPull)))).
  { intros st ST NS. pose proof (CI_leave n s w t st (tw_st w) Awake C) as C0. rewrite w_st in C0.
    destruct (mstep_any dict D BIG skip n (leave_wait st s) w (tm_set_st t Awake) C0 IC HD) as (s' & t' & note & E & R).
    rewrite E. cbn [bind]. eexists. split; [reflexivity|]. cbn [wd_m wd_sh].
    destruct R as [R|(n' & C' & FS & MV & NT & WB)]; [left; exact R|right].
    rewrite leave_n in MV by exact NS. rewrite leave_q in MV, NT. change (BM (tm_set_st t Awake)) with (BM t) in MV, NT.
    assert (NF : tw_st w = Asleep -> notify (leave_wait st s) = true) by (intros X; unfold notify; rewrite leave_n by exact NS; rewrite WN, X, ST; cbn [aw]; replace (aw st + 1 - aw st) with 1 by lia; reflexivity).
    split; [|split; [|split; [exact FS|destruct MV as [(A & _)|(_ & _ & (B & _) & _)]; [left; exact A|right; exact B]]]].
    - constructor; cbn [wd_sh wd_w wd_m].
      + exists n'. destruct note; [rewrite <- (t_st t'); apply CI_st0|]; exact C'.
      + assert (TS : aw (tw_st (if note then tw_set_st w (wake (tw_st w)) else w)) = aw (tw_st w)) by (destruct note; [apply wake_aw|reflexivity]). rewrite TS, WN, ST in *. destruct MV as [(A & B & _)|(A & B & _)]; rewrite A, B; cbn [aw]; lia.
      + intros X. destruct MV as [(A & _)|(_ & _ & B & _)]; [rewrite X in A; discriminate|exact B].
      + intros X. destruct note; [exfalso; exact (wake_awake _ X)|]. destruct (WW X) as (W1 & W2). split; [|exact W2]. destruct (WB (leave_w _ _ _ W1)) as [Y|Y]; [exact Y|rewrite (NF X) in Y; discriminate].
    - unfold Psi. cbn [wd_sh wd_w wd_m]. rewrite ST.
      assert (BE : BW (if note then tw_set_st w (wake (tw_st w)) else w) = BW w) by (destruct note; reflexivity). rewrite BE.
      assert (SE : sw (tw_st (if note then tw_set_st w (wake (tw_st w)) else w)) <= sw (tw_st w) + (if note then 1 else 0)) by (destruct note; [apply wake_sw|lia]).
      assert (S1 : 1 <= sw st) by (destruct st; [cbn; lia|contradiction|cbn; lia]).
      destruct MV as [(A & B & L)|(A & B & _ & L)]; rewrite A; cbn [sw]; destruct note; try specialize (NT eq_refl); lia. }
  destruct (tm_st t) eqn:ST; [|left; split; [auto|reflexivity]|]; right; apply GO; try reflexivity; discriminate.
Qed.
Lemma wi_wake_main x : WI x -> WI (WD (wd_sh x) (wd_w x) (tm_set_st (wd_m x) (wake (tm_st (wd_m x))))).
Proof.
  intros [(n & C) WN WM WW]. constructor; cbn [wd_sh wd_w wd_m]; [exists n; rewrite <- (w_st (wd_w x)); apply CI_st0, C| | |exact WW].
  - cbn [tm_set_st tm_st]. rewrite wake_aw. exact WN.
  - intros X. exfalso. exact (wake_awake _ X).
Qed.
Lemma wi_wake_worker x : WI x -> WI (WD (wd_sh x) (tw_set_st (wd_w x) (wake (tw_st (wd_w x)))) (wd_m x)).
Proof.
  intros [(n & C) WN WM WW]. constructor; cbn [wd_sh wd_w wd_m]; [exists n; rewrite <- (t_st (wd_m x)); apply CI_st0, C| |exact WM|].
  - cbn [tw_set_st tw_st]. rewrite wake_aw. exact WN.
  - intros X. exfalso. exact (wake_awake _ X).
Qed.
(** both threads asleep in a call, or the worker gone *)
Definition drained (x : world) : Prop :=
  let m := tm_m (wd_m x) in let q := sh_q (wd_sh x) in
  is_done (eof (m_mux m)) = true /\ mb_data (buf0 (m_mux m)) = [] /\ q_data q = [] /\ starving (tw_w (wd_w x)) = true /\
  tw_pc (wd_w x) = WPull /\ tm_pc (wd_m x) = MPull /\ m_cmds m = [] /\ result_ready (wd_sh x) = false.
Lemma deadlock x : WI x -> tm_st (wd_m x) = Asleep -> tw_st (wd_w x) = Asleep \/ ended (wd_w x) = true -> drained x.
Proof.
  intros [(n & C) WN WM WW] SM SW. destruct (WM SM) as (PC & RR & SE). pose proof (ci_pc _ _ _ _ _ _ C) as FI. rewrite PC in FI. destruct FI as (FI & RS & MC & ME).
  pose proof (ci_w _ _ _ _ _ _ C) as CW. pose proof RR as RR0. unfold result_ready in RR0. apply orb_false_elim in RR0. destruct RR0 as (RR0 & R4). apply orb_false_elim in RR0. destruct RR0 as (RR0 & R3). apply orb_false_elim in RR0. destruct RR0 as (R1 & R2). apply negb_false_iff, Z.eqb_eq in R3, R4.
  assert (EN : ended (wd_w x) = false).
  { destruct SW as [SW|SW]; [apply (WW SW)|]. unfold ended in *. destruct (tw_pc (wd_w x)) eqn:WP; try reflexivity.
    - pose proof (cw_eof _ _ _ _ _ CW ltac:(rewrite WP; exact Logic.I)) as X. rewrite WP in X. congruence.
    - destruct (cw_bad _ _ _ _ _ CW WP) as (_ & X & _). congruence. }
  assert (WB : wblocked (wd_sh x) (wd_w x)) by (destruct SW as [SW|SW]; [apply (WW SW)|congruence]).
  pose proof (qi_tok _ _ _ _ _ (ci_q _ _ _ _ _ _ C)) as TK.
  assert (L : live (tw_pc (wd_w x))) by (unfold ended in EN; unfold live; destruct (tw_pc (wd_w x)); auto; discriminate).
  destruct (cw_ok _ _ _ _ _ CW L) as (_ & _ & K & TKW & _ & WP). unfold wblocked in WB. unfold wpc_ok in WP. rewrite PC in TKW. cbn [mm] in TKW. rewrite MC in TK. cbn [cpm] in TK.
  assert (QR : q_res (sh_q (wd_sh x)) = []) by (destruct (q_res (sh_q (wd_sh x))) as [|a l]; [reflexivity|rewrite zlen_cons in R3; pose proof (zlen_nonneg l); lia]).
  rewrite QR in TK. cbn [cpm] in TK. rewrite QR in WB. change (zlen (@nil command)) with 0 in WB.
  destruct (tw_pc (wd_w x)) as [|k pm| | | |] eqn:TP; try contradiction.
  - destruct WP as (_ & LB & _). destruct WB as [(_ & X)|X]; lia.
  - destruct WP as (_ & _ & _ & ST & M0). unfold drained. cbn zeta.
    assert (O0 : m_out (tm_m (wd_m x)) = 0).
    { rewrite (ci_out _ _ _ _ _ _ C), PC. unfold held. rewrite WB, R4, M0. change (zlen (@nil mbuf)) with 0. reflexivity. }
    destruct (FI O0) as (F1 & F2). repeat (split; [assumption|]). assumption.
  - exfalso. destruct WP as (_ & _ & C0 & WMP). rewrite WB in TK. cbn [length] in TK. rewrite C0 in TKW. unfold toks, hs in TKW. unfold wants_map in WMP. destruct (k_st (wk_c (tw_w (wd_w x)))); try discriminate WMP. apply negb_true_iff in WMP. rewrite WMP in TKW. cbn [pop_pm] in TKW. lia.
Qed.
Lemma drained_step x e x' : WI x -> drained x -> step e x = Some x' -> drained x' /\ tm_pc (wd_m x') = MPull.
Proof.
  intros [(n & C) WN WM WW] DR. pose proof DR as (D1 & D2 & D3 & D4 & D5 & D6 & D7 & D8). destruct x as [s w t]. cbn [wd_sh wd_w wd_m] in *.
  assert (SE : sh_err s = false) by (destruct (cw_ok _ _ _ _ _ (ci_w _ _ _ _ _ _ C) ltac:(rewrite D5; exact Logic.I)) as (_ & X & _); exact X).
  pose proof (ci_pq _ _ _ _ _ _ C) as PQ. rewrite D7 in PQ. cbn [cpm Nat.eqb] in PQ. pose proof (ci_ps _ _ _ _ _ _ C) as PS.
  assert (IC : in_call t = true) by (unfold in_call; rewrite D6; reflexivity). assert (EN : ended w = false) by (unfold ended; rewrite D5; reflexivity).
  unfold ModelThread.step. cbn [wd_sh wd_w wd_m]. destruct e.
  - assert (MS : forall st, mstep dict skip (leave_wait st s) (tm_set_st t Awake) = Some (sh_wait (leave_wait st s) 1, tm_sleep (tm_set_st t Awake), false)).
    { intros st. unfold mstep. cbn [tm_set_st tm_pc tm_m]. rewrite D6, PQ, PS. cbn [negb andb assert].
      assert (RR : result_ready (leave_wait st s) = false) by (destruct st; exact D8). assert (SE' : sh_err (leave_wait st s) = false) by (destruct st; exact SE). rewrite RR, SE'. reflexivity. }
    destruct (tm_st t); [|intros [= <-]; split; [exact DR|exact D6]|]; rewrite IC, MS; cbn [bind]; intros [= <-]; (split; [|exact D6]); unfold drained; cbn [wd_sh wd_w wd_m]; exact DR.
  - assert (MS : forall st, wstep wl D (leave_wait st s) (tw_set_st w Awake) = Some (sh_wait (leave_wait st s) 1, tw_sleep (tw_set_st w Awake), false)).
    { intros st. unfold wstep. cbn [tw_set_st tw_pc]. rewrite D5, leave_q, D3. reflexivity. }
    destruct (tw_st w); [|intros [= <-]; split; [exact DR|exact D6]|]; rewrite EN, MS; cbn [bind]; intros [= <-]; (split; [|exact D6]); unfold drained; cbn [wd_sh wd_w wd_m]; exact DR.
  - intros [= <-]. split; [exact DR|exact D6].
  - intros [= <-]. split; [exact DR|exact D6].
Qed.
(** ** Sessions *)
Notation yevent := (yevent dict wl D skip). Notation yinv := (yinv skip).
Definition SI (offer : list Z) (s : ysess) : Prop :=
  yinv offer s /\
  ((exists c, In c (y_log s) /\ c_res c = DSuccess) -> worker_is WDone s) /\
  (y_over s = true \/
   match y_d s with
   | PHeader _ => y_call s = None
   | PDecode x => WI x /\ match y_call s with Some _ => in_call (wd_m x) = true | None => in_call (wd_m x) = false /\ tm_st (wd_m x) = Awake /\ tm_in (wd_m x) = y_rest s end
   end).
Definition K4 : Z := 39321920.
Definition PD : Z := 39322280.
Definition PS (s : ysess) : Z :=
  if y_over s then 0 else
  1 + match y_d s with PHeader _ => PD + K4 * zlen (y_rest s) | PDecode x => Psi x end + K4 * zlen (concat (map fst (y_calls s))) + 40 * zlen (y_calls s).
Lemma PS_pos offer s : SI offer s -> y_over s = false -> 0 < PS s.
Proof.
  intros (_ & _ & J) OV. unfold PS, K4, PD. rewrite OV in *. destruct J as [J|J]; [discriminate|]. pose proof (zlen_nonneg (concat (map fst (y_calls s)))). pose proof (zlen_nonneg (y_calls s)).
  destruct (y_d s); [pose proof (zlen_nonneg (y_rest s)); lia|]. destruct J as (V & _). pose proof (Psi_nonneg _ V). lia.
Qed.
Definition idle_m (s : ysess) : Prop := y_ended s \/ (y_call s <> None /\ match y_d s with PHeader _ => False | PDecode x => tm_st (wd_m x) = Asleep end).
Definition idle_w (s : ysess) : Prop := y_over s = true \/ match y_d s with PHeader _ => True | PDecode x => tw_st (wd_w x) = Asleep \/ ended (wd_w x) = true end.
Definition spur (e : event) : Z := match e with WakeMain | WakeWorker => 1 | _ => 0 end.
Definition advance (e : event) (s s' : ysess) : Prop :=
  PS s' < PS s \/
  (PS s' <= PS s + spur e /\ (idle_m s' -> idle_m s) /\ (idle_w s' -> idle_w s) /\ (e = ByMain -> idle_m s) /\ (e = ByWorker -> idle_w s)).
Lemma PS_over s : y_over s = true -> PS s = 0.
Proof. unfold PS. intros ->. reflexivity. Qed.
Lemma world_fresh header ws pc input n room : 10 <= ws -> bytes input -> 0 <= room -> (pc = MIn \/ pc = MRet DNeedIn) ->
  WI (world_new D skip header ws pc input n room) /\ Psi (world_new D skip header ws pc input n room) <= PD + K4 * zlen input.
Proof.
  intros WS BI RM PC. destruct (pok_new dict D BIG skip header ws WS) as (PO & _). destruct PO as (SV & MI). cbn [proc_new p_w p_q p_m] in *.
  split.
  - constructor; cbn [world_new wd_sh wd_w wd_m shared_new sh_waiters tm_st tw_st wthread_new aw]; try reflexivity; try discriminate.
    exists 1%nat. destruct SV as [V OUT PQ PQ2 PS']. pose proof V as [V1 V2 V3 V4 V5 V6 V7 V8 V9 V10 V11 V12 V13 V14].
    constructor; cbn [tm_m tm_pc tm_in tm_room shared_new sh_q tw_w]; try assumption.
    + constructor; try assumption; reflexivity.
    + rewrite OUT. destruct PC as [-> | ->]; cbn [backs]; change (zlen (@nil mbuf)) with 0; rewrite Z.add_0_r; reflexivity.
    + discriminate.
    + destruct PC as [-> | ->]; exact Logic.I.
    + replace (mm pc) with 0%nat by (destruct PC as [-> | ->]; reflexivity). constructor; cbn [wthread_new tw_pc sh_failed sh_err sh_q tw_w tw_buf squeue_new q_eof].
      * discriminate.
      * intros _. split; [reflexivity|]. split; [reflexivity|]. split; [constructor; assumption|]. split; [reflexivity|]. split; [apply Forall_nil|]. unfold wpc_ok. cbn [wthread_new tw_pc tw_w tw_buf]. split; [reflexivity|]. split; [reflexivity|reflexivity].
      * reflexivity.
  - unfold Psi. cbn [world_new wd_sh wd_w wd_m shared_new sh_q tm_st tw_st wthread_new sw]. rewrite BW_eq by reflexivity. cbn [wthread_new tw_w tw_buf tw_pc]. unfold worker_new. rewrite U_eq.
    change (pot dec_new (zlen (mb_data mb_empty))) with 65536. change (zlen (mem mb_empty) =? 0) with true. change (zlen (mb_data mb_empty)) with 0. change (zlen (@nil command)) with 0. change (BQ squeue_new) with 0.
    pose proof (wrank_le (k_st (codec_new D tt))). change (hs (k_pm (codec_new D tt))) with 1%nat. unfold BM. cbn [tm_m tm_pc tm_in main_new m_cmds m_mux m_eof mux_new buf0]. change (zlen (@nil command)) with 0. change (zlen (mb_data mb_empty)) with 0. change (rankW WRun) with 4.
    assert (rankM pc <= 5) by (destruct PC as [-> | ->]; cbn; lia). unfold PD, K4, BB. cbn iota. lia.
Qed.
Lemma Psi_begin x input room : WI x -> in_call (wd_m x) = false -> tm_st (wd_m x) = Awake -> bytes input -> 0 <= room -> forall n, 
  WI (WD (wd_sh x) (wd_w x) (TM (tm_m (wd_m x)) MIn Awake input n [] room)) /\
  Psi (WD (wd_sh x) (wd_w x) (TM (tm_m (wd_m x)) MIn Awake input n [] room)) <= Psi x + 20 + K4 * (zlen input - zlen (tm_in (wd_m x))).
Proof.
  intros [(k & C) WN WM WW] IC ST BI RM n. destruct x as [s w t]. cbn [wd_sh wd_w wd_m] in *.
  assert (PC : exists r, tm_pc t = MRet r) by (unfold in_call in IC; destruct (tm_pc t); try discriminate; eexists; reflexivity). destruct PC as (r & PC).
  split.
  - constructor; cbn [wd_sh wd_w wd_m tm_st]; try assumption; try discriminate; [|rewrite ST in WN; exact WN]. exists k.
    destruct C as [C1 C2 C3 C4 C5 C6 C7 C8 C9 C10 C11]. constructor; cbn [tm_m tm_pc tm_in tm_room]; try assumption; try exact Logic.I; [rewrite PC in C2; exact C2|rewrite PC in C11; exact C11].
  - unfold Psi, BM. cbn [wd_sh wd_w wd_m tm_m tm_pc tm_in tm_st]. rewrite ST, PC. change (rankM MIn) with 5. change (rankM (MRet r)) with 0. unfold BB, K4. lia.
Qed.
Lemma no_success s : ~ (exists c, In c (y_log s) /\ c_res c = DSuccess) -> forall P : Prop, (exists c, In c (y_log s) /\ c_res c = DSuccess) -> P.
Proof. intros N P X. contradiction. Qed.
Lemma log_snoc s c : y_over s = false -> forall offer, yinv offer s -> (exists c', In c' (y_log s ++ [c]) /\ c_res c' = DSuccess) -> c_res c = DSuccess.
Proof.
  intros OV offer (_ & _ & S & _) (c' & IN & E). apply in_app_or in IN. destruct IN as [IN|[<-|[]]]; [|exact E]. destruct (S (ex_intro _ c' (conj IN E))) as (X & _). congruence.
Qed.
Lemma sess_event offer e s : SI offer s ->
  (exists h, gyevent dict wl D skip e s = Unsafe h) \/
  exists s', gyevent dict wl D skip e s = Fine s' /\ yevent e s = Some s' /\ SI offer s' /\ advance e s s'.
Proof.
  intros V. unfold gyevent.
  match goal with |- context [unless ?d _] => destruct d as [h|] eqn:DG end; [left; exists h; reflexivity|right]. cbn [unless].
  cut (exists s', yevent e s = Some s' /\ (yinv offer s' -> SI offer s') /\ advance e s s').
  { intros (s' & E & J & A). exists s'. rewrite E. split; [reflexivity|]. split; [reflexivity|]. split; [|exact A]. apply J. exact (event_any dict wl D skip offer e s s' (proj1 V) E). }
  pose proof V as (YI & WS & J). unfold SpecTany.yevent. destruct (y_over s) eqn:OV.
  { exists s. split; [reflexivity|]. split; [intros _; exact V|]. right. split; [destruct e; cbn [spur]; lia|]. split; [auto|]. split; [auto|]. split; intros _; [left; left; exact OV|left; exact OV]. }
  destruct J as [J|J]; [congruence|]. pose proof YI as (_ & FC & NS & YJ).
  assert (NSU : ~ exists c, In c (y_log s) /\ c_res c = DSuccess) by (intros X; destruct (NS X) as (Y & _); congruence).
  assert (PS0 : PS s = 1 + match y_d s with PHeader _ => PD + K4 * zlen (y_rest s) | PDecode x => Psi x end + K4 * zlen (concat (map fst (y_calls s))) + 40 * zlen (y_calls s)) by (unfold PS; rewrite OV; reflexivity).
  (* the worker's and the wake events *)
  assert (OTHER : forall x, y_d s = PDecode x -> e <> ByMain ->
    exists s', (let? x := step e x in match y_call s, tm_pc (wd_m x) with
       | Some (input, room), MRet r => Some (y_returned (PDecode x) input room (y_calls s) (y_log s) (tm_n (wd_m x)) (tm_out (wd_m x)) r)
       | c, _ => Some (YS (PDecode x) c (y_rest s) (y_calls s) (y_log s) false) end) = Some s' /\ (yinv offer s' -> SI offer s') /\ advance e s s').
  { intros x YD NM. rewrite YD in *. destruct J as (WX & JC).
    assert (KEEP : forall x', WI x' -> (exists st, wd_m x' = tm_set_st (wd_m x) st /\ (tm_st (wd_m x) = Awake -> st = Awake)) ->
      exists s', match y_call s, tm_pc (wd_m x') with
       | Some (input, room), MRet r => Some (y_returned (PDecode x') input room (y_calls s) (y_log s) (tm_n (wd_m x')) (tm_out (wd_m x')) r)
       | c, _ => Some (YS (PDecode x') c (y_rest s) (y_calls s) (y_log s) false) end = Some s' /\ s' = YS (PDecode x') (y_call s) (y_rest s) (y_calls s) (y_log s) false /\ (yinv offer s' -> SI offer s')).
    { intros x' WX' (st & EM & AW). exists (YS (PDecode x') (y_call s) (y_rest s) (y_calls s) (y_log s) false). split; [|split; [reflexivity|]].
      - rewrite EM. cbn [tm_set_st tm_pc]. destruct (y_call s) as [[input room]|]; [|reflexivity]. unfold in_call in JC. destruct (tm_pc (wd_m x)); try reflexivity. discriminate.
      - intros YI'. split; [exact YI'|]. cbn [y_log y_over y_d y_call y_rest]. split; [intros X; contradiction|right]. split; [exact WX'|]. rewrite EM. destruct (y_call s); [exact JC|]. destruct JC as (J1 & J2 & J3). split; [exact J1|]. split; [exact (AW J2)|exact J3]. }
    assert (PS1 : forall x', PS (YS (PDecode x') (y_call s) (y_rest s) (y_calls s) (y_log s) false) = 1 + Psi x' + K4 * zlen (concat (map fst (y_calls s))) + 40 * zlen (y_calls s)) by reflexivity.
    destruct e; [contradiction| | |].
    - assert (SD : tw_pc (wd_w x) = WRun -> w_danger wl D (tw_w (wd_w x)) squeue_new = None).
      { intros X. unfold t_danger in DG. rewrite X in DG. destruct (y_call s); exact DG. }
      destruct (wi_worker x WX SD) as [(ID & ->)|(x' & -> & WX' & LT & KM)]; cbn [bind].
      + destruct (KEEP x WX) as (s' & EQ & -> & SI'); [exists (tm_st (wd_m x)); rewrite t_st; auto|]. eexists. split; [exact EQ|]. split; [exact SI'|]. right. rewrite PS1, PS0. cbn [spur].
        split; [lia|]. unfold idle_m, idle_w, y_ended. cbn [y_over y_d y_call y_calls]. rewrite OV, YD. split; [auto|]. split; [auto|]. split; [discriminate|]. intros _. right. exact ID.
      + destruct (KEEP x' WX' KM) as (s' & EQ & -> & SI'). eexists. split; [exact EQ|]. split; [exact SI'|]. left. rewrite PS1, PS0. lia.
    - cbn [ModelThread.step bind]. destruct (KEEP _ (wi_wake_main x WX)) as (s' & EQ & -> & SI'); [cbn [wd_m]; eexists; split; [reflexivity|]; intros ->; reflexivity|]. eexists. split; [exact EQ|]. split; [exact SI'|]. right. rewrite PS1, PS0. cbn [spur].
      split; [|split; [|split; [|split; discriminate]]].
      + unfold Psi. cbn [wd_sh wd_w wd_m]. change (BM (tm_set_st (wd_m x) (wake (tm_st (wd_m x))))) with (BM (wd_m x)). cbn [tm_set_st tm_st]. pose proof (wake_sw (tm_st (wd_m x))). lia.
      + unfold idle_m, y_ended. cbn [y_over y_d y_call y_calls wd_m tm_set_st tm_st]. rewrite OV. intros [X|(X & Y)]; [left; exact X|]. exfalso. exact (wake_awake _ Y).
      + unfold idle_w. cbn [y_over y_d wd_w]. rewrite OV, YD. exact (fun X => X).
    - cbn [ModelThread.step bind]. destruct (KEEP _ (wi_wake_worker x WX)) as (s' & EQ & -> & SI'); [exists (tm_st (wd_m x)); cbn [wd_m]; rewrite t_st; auto|]. eexists. split; [exact EQ|]. split; [exact SI'|]. right. rewrite PS1, PS0. cbn [spur].
      split; [|split; [|split; [|split; discriminate]]].
      + unfold Psi. cbn [wd_sh wd_w wd_m]. change (BW (tw_set_st (wd_w x) (wake (tw_st (wd_w x))))) with (BW (wd_w x)). cbn [tw_set_st tw_st]. pose proof (wake_sw (tw_st (wd_w x))). lia.
      + unfold idle_m, y_ended. cbn [y_over y_d y_call y_calls wd_m]. rewrite OV, YD. exact (fun X => X).
      + unfold idle_w. cbn [y_over y_d wd_w tw_set_st tw_st]. rewrite OV, YD. intros [X|[X|X]]; [discriminate|exfalso; exact (wake_awake _ X)|right; right; exact X]. }
  assert (HEAD : forall h, y_d s = PHeader h -> e <> ByMain -> advance e s s).
  { intros h YD NM. right. split; [destruct e; cbn [spur]; lia|]. split; [auto|]. split; [auto|]. split; [intros X; contradiction|]. intros _. right. rewrite YD. exact Logic.I. }
  destruct (y_call s) as [[input room]|] eqn:YC.
  - (* a call under way *)
    destruct YJ as (_ & BI & _ & YJ). destruct (y_d s) as [h|x] eqn:YD; [contradiction|]. destruct J as (WX & IC).
    destruct e; try (apply OTHER; [reflexivity|discriminate]). clear OTHER HEAD.
    assert (SM : safe_main dict (wd_m x)).
    { unfold safe_main. unfold t_danger in DG. destruct (tm_pc (wd_m x)); try exact Logic.I; [exact DG|]. intros c cs E. rewrite E in DG. exact DG. }
    destruct (wi_main x WX IC SM) as [(ID & ->)|(x' & E & R)]; cbn [bind].
    + assert (PC : forall r, tm_pc (wd_m x) <> MRet r) by (intros r X; unfold in_call in IC; rewrite X in IC; discriminate).
      exists s. split; [destruct (tm_pc (wd_m x)) as [r| | | | | |]; [elim (PC r eq_refl)|..]; destruct s; cbn in *; subst; reflexivity|]. split; [intros _; exact V|]. right. cbn [spur]. split; [lia|]. split; [auto|]. split; [auto|].
      split; [|discriminate]. intros _. right. rewrite YC, YD. split; [discriminate|exact ID].
    + rewrite E. cbn [bind].
      assert (MI : ProofTany.minv skip (taken (y_log s)) input room (wd_m x')).
      { pose proof E as E0. unfold ModelThread.step in E0. rewrite IC in E0. assert (Q : forall st s1, mstep dict skip (leave_wait st s1) (tm_set_st (wd_m x) Awake) = mstep dict skip (leave_wait st s1) (tm_set_st (wd_m x) Awake)) by reflexivity.
        assert (GO : (let? '(s0, m, note) := mstep dict skip (leave_wait (tm_st (wd_m x)) (wd_sh x)) (tm_set_st (wd_m x) Awake) in Some (WD s0 (if note then tw_set_st (wd_w x) (wake (tw_st (wd_w x))) else wd_w x) m)) = Some x' -> ProofTany.minv skip (taken (y_log s)) input room (wd_m x')).
        { destruct (mstep dict skip (leave_wait (tm_st (wd_m x)) (wd_sh x)) (tm_set_st (wd_m x) Awake)) as [((s0, m0), nt)|] eqn:M; cbn [bind]; [|discriminate]. intros [= <-]. cbn [wd_m]. exact (ProofTany.mstep_any dict skip _ _ _ _ _ _ _ _ BI (minv_st skip _ _ _ _ Awake YJ) IC M). }
        destruct (tm_st (wd_m x)); [exact (GO E0)|injection E0 as <-; exact YJ|exact (GO E0)]. }
      destruct MI as (_ & MN & EI & _).
      destruct R as [R|(WX' & LT & FS & SA)].
      * rewrite R. eexists. split; [reflexivity|]. split.
        -- intros YI'. split; [exact YI'|]. split; [|left; reflexivity]. intros X. cbn [y_returned y_log] in X. pose proof (log_snoc s _ OV offer YI X) as Y. discriminate Y.
        -- left. rewrite PS_over by reflexivity. exact (PS_pos offer s V OV).
      * assert (RET : forall r, tm_pc (wd_m x') = MRet r -> (yinv offer (y_returned (PDecode x') input room (y_calls s) (y_log s) (tm_n (wd_m x')) (tm_out (wd_m x')) r) -> SI offer (y_returned (PDecode x') input room (y_calls s) (y_log s) (tm_n (wd_m x')) (tm_out (wd_m x')) r)) /\
          PS (y_returned (PDecode x') input room (y_calls s) (y_log s) (tm_n (wd_m x')) (tm_out (wd_m x')) r) < PS s).
        { intros r PC. split.
          - intros YI'. split; [exact YI'|]. split.
            + intros X. cbn [y_returned y_log] in X. pose proof (log_snoc s _ OV offer YI X) as Y. cbn [c_res] in Y. subst r. specialize (FS PC). unfold worker_is. cbn [y_returned y_d].
              destruct WX' as [(n & C) _ _ _]. pose proof (ci_w _ _ _ _ _ _ C) as CW. destruct (tw_pc (wd_w x')) eqn:WP; try reflexivity; exfalso.
              1-4: pose proof (cw_eof _ _ _ _ _ CW ltac:(rewrite WP; exact Logic.I)) as Z; rewrite WP in Z; congruence.
              destruct (cw_bad _ _ _ _ _ CW WP) as (_ & _ & Z & _). congruence.
            + cbn [y_returned y_over y_d y_call y_rest]. destruct SA as [SA|SA]; [|congruence]. assert (IC' : in_call (wd_m x') = false) by (unfold in_call; rewrite PC; reflexivity). destruct r; first [left; reflexivity|right; auto].
          - pose proof (PS_pos offer s V OV) as P0. unfold PS at 1. cbn [y_returned y_over y_d y_calls]. rewrite PS0. rewrite PS0 in P0. destruct r; lia. }
        assert (GOON : (forall r, tm_pc (wd_m x') <> MRet r) -> (yinv offer (YS (PDecode x') (Some (input, room)) (y_rest s) (y_calls s) (y_log s) false) -> SI offer (YS (PDecode x') (Some (input, room)) (y_rest s) (y_calls s) (y_log s) false)) /\ PS (YS (PDecode x') (Some (input, room)) (y_rest s) (y_calls s) (y_log s) false) < PS s).
        { intros NR. split; [|unfold PS at 1; cbn [y_over y_d y_calls]; rewrite PS0; lia]. intros YI'. split; [exact YI'|]. cbn [y_log y_over y_d y_call]. split; [intros X; contradiction|right]. split; [exact WX'|]. unfold in_call. destruct (tm_pc (wd_m x')) as [r| | | | | |]; try reflexivity. elim (NR r eq_refl). }
        destruct (tm_pc (wd_m x')) as [r| | | | | |] eqn:PC.
        { eexists. split; [reflexivity|]. destruct (RET r eq_refl) as (R1 & R2). split; [exact R1|left; exact R2]. }
        all: eexists; (split; [reflexivity|]); destruct GOON as (R1 & R2); [discriminate|]; (split; [exact R1|left; exact R2]).
  - (* between calls *)
    destruct YJ as (BR & _ & YJ). specialize (YJ OV).
    destruct (event_eq_main e) as [-> |NM].
    2:{ assert (GO : exists s', match y_d s with PHeader _ => Some s | PDecode x => let? x := step e x in match @None (list Z * Z), tm_pc (wd_m x) with
           | Some (input, room), MRet r => Some (y_returned (PDecode x) input room (y_calls s) (y_log s) (tm_n (wd_m x)) (tm_out (wd_m x)) r)
           | c, _ => Some (YS (PDecode x) c (y_rest s) (y_calls s) (y_log s) false) end end = Some s' /\ (yinv offer s' -> SI offer s') /\ advance e s s').
        { destruct (y_d s) as [h|x] eqn:YD; [|apply OTHER; [reflexivity|exact NM]]. exists s. split; [reflexivity|]. split; [intros _; exact V|]. apply (HEAD h); [reflexivity|exact NM]. }
        destruct e; [contradiction NM; reflexivity|exact GO|exact GO|exact GO]. }
    clear OTHER HEAD DG. destruct (y_calls s) as [|[piece room] calls] eqn:CS.
    { exists s. split; [reflexivity|]. split; [intros _; exact V|]. right. cbn [spur]. split; [lia|]. split; [auto|]. split; [auto|]. split; [|discriminate]. intros _. left. right. auto. }
    apply Forall_cons_iff in FC. destruct FC as ((BP & RM) & FC). cbn [fst snd] in BP, RM.
    assert (BI : bytes (y_rest s ++ piece)) by (apply Forall_app; split; assumption). pose proof (zlen_app (y_rest s) piece) as LI. set (input := y_rest s ++ piece) in *.
    cbn [map fst concat] in PS0. rewrite zlen_app, zlen_cons in PS0. pose proof (zlen_nonneg calls) as CN.
    unfold begin_call. destruct (y_d s) as [h|x] eqn:YD.
    + destruct YJ as (_ & HI). pose proof (hp_any h _ input HI) as HP. destruct (hp_decode h input) as [[h' k] r]. destruct HP as (LN & HR).
      assert (NR : 0 <= Z.of_nat k <= zlen input) by (unfold zlen; lia).
      destruct r as [|er|ws].
      * eexists. split; [reflexivity|]. split.
        -- intros YI'. split; [exact YI'|]. split; [|right; reflexivity]. intros X. cbn [y_returned y_log] in X. pose proof (log_snoc s _ OV offer YI X) as Y. discriminate Y.
        -- left. rewrite PS0. unfold PS. cbn [y_returned y_over y_d y_calls y_rest]. rewrite zlen_skip by lia. unfold K4. lia.
      * eexists. split; [reflexivity|]. split.
        -- intros YI'. split; [exact YI'|]. split; [|left; reflexivity]. intros X. cbn [y_returned y_log] in X. pose proof (log_snoc s _ OV offer YI X) as Y. discriminate Y.
        -- left. rewrite PS_over by reflexivity. exact (PS_pos offer s V OV).
      * destruct HR as (_ & _ & PH). pose proof (header_ws _ _ PH) as W10. cbv zeta. destruct (Z.ltb_spec (Z.of_nat k) (zlen input)) as [LT|GE].
        -- destruct (world_fresh (hp_header h') ws MIn (zskip (Z.of_nat k) input) (Z.of_nat k) room W10 (bytes_zskip _ _ BI) RM (or_introl eq_refl)) as (WX & PX).
           eexists. split; [reflexivity|]. split.
           ++ intros YI'. split; [exact YI'|]. cbn [y_log y_over y_d y_call]. split; [intros X; contradiction|right]. split; [exact WX|reflexivity].
           ++ left. rewrite PS0. unfold PS. cbn [y_over y_d y_calls]. rewrite zlen_skip in PX by lia. unfold K4 in *. lia.
        -- destruct (world_fresh (hp_header h') ws (MRet DNeedIn) [] (Z.of_nat k) room W10 (Forall_nil _) RM (or_intror eq_refl)) as (WX & PX). change (zlen (@nil Z)) with 0 in PX.
           eexists. split; [reflexivity|]. split.
           ++ intros YI'. split; [exact YI'|]. split; [intros X; cbn [y_returned y_log] in X; pose proof (log_snoc s _ OV offer YI X) as Y; discriminate Y|right]. cbn [y_returned y_d y_call y_rest]. split; [exact WX|]. cbn [world_new wd_m tm_pc tm_st tm_in in_call]. split; [reflexivity|]. split; [reflexivity|].
              assert (Z0 : zlen (zskip (Z.of_nat k) input) = 0) by (rewrite zlen_skip by lia; lia). destruct (zskip (Z.of_nat k) input) as [|a l]; [reflexivity|]. rewrite zlen_cons in Z0. pose proof (zlen_nonneg l). lia.
           ++ left. rewrite PS0. unfold PS. cbn [y_returned y_over y_d y_calls]. pose proof (zlen_nonneg (y_rest s)). pose proof (zlen_nonneg piece). unfold K4 in *. lia.
    + destruct J as (WX & J1 & J2 & J3). destruct (Psi_begin x input room WX J1 J2 BI RM 0) as (WX' & PX).
      eexists. split; [reflexivity|]. split.
      * intros YI'. split; [exact YI'|]. cbn [y_log y_over y_d y_call]. split; [intros X; contradiction|right]. split; [exact WX'|reflexivity].
      * left. rewrite PS0. unfold PS. cbn [y_over y_d y_calls]. rewrite J3 in PX. unfold K4 in *. lia.
Qed.
(** ** Runs *)
Notation gyrun := (gyrun dict wl D skip). Notation yrun := (yrun dict wl D skip).
Lemma sess_run offer : forall l s, SI offer s ->
  (exists h, gyrun l s = Unsafe h) \/
  exists s', gyrun l s = Fine s' /\ yrun l s = Some s' /\ SI offer s' /\
    (PS s' < PS s + spurious l \/ (PS s' <= PS s + spurious l /\ (In ByMain l -> idle_m s) /\ (In ByWorker l -> idle_w s))).
Proof.
  induction l as [|e l IH]; intros s V.
  { right. exists s. split; [reflexivity|]. split; [reflexivity|]. split; [exact V|]. right. change (spurious []) with 0. split; [lia|]. split; intros []. }
  cbn [SpecTguard.gyrun SpecTany.yrun]. destruct (sess_event offer e s V) as [(h & ->)|(s1 & -> & -> & V1 & A)]; [left; exists h; reflexivity|]. cbn [gbind bind].
  destruct (IH s1 V1) as [U|(s' & -> & -> & V' & R)]; [left; exact U|right]. exists s'. split; [reflexivity|]. split; [reflexivity|]. split; [exact V'|].
  assert (SP : spurious (e :: l) = spur e + spurious l) by (unfold spurious; destruct e; cbn [filter spur]; rewrite ?zlen_cons; lia). rewrite SP.
  assert (0 <= spur e) by (destruct e; cbn; lia).
  destruct A as [A|(A & A1 & A2 & A3 & A4)]; [left; destruct R as [R|(R & _)]; lia|].
  destruct R as [R|(R & R1 & R2)]; [left; lia|right]. split; [lia|]. split; (intros [X|X]; [auto|auto]).
Qed.
Lemma SI_new calls : Forall (fun c => bytes (fst c) /\ 0 <= snd c) calls -> SI (concat (map fst calls)) (ysess_new calls).
Proof. intros F. split; [apply yinv_new, F|]. cbn [ysess_new y_log y_over y_d y_call pdec_new]. split; [intros (c & [] & _)|right; reflexivity]. Qed.
Lemma stuck_exhausted offer s : SI offer s -> idle_m s -> idle_w s -> y_ended s \/ exhausted s.
Proof.
  intros (YI & _ & J) [M|(YC & M)] W; [left; exact M|]. destruct J as [J|J]; [left; left; exact J|]. unfold idle_w in W. destruct W as [W|W]; [left; left; exact W|].
  unfold exhausted. destruct (y_d s) as [h|x]; [contradiction|]. destruct J as (WX & _). right. split; [exact YC|]. exact (deadlock x WX M W).
Qed.
Lemma settled_event offer e s s' : SI offer s -> y_ended s \/ exhausted s -> yevent e s = Some s' -> y_ended s' \/ exhausted s'.
Proof.
  intros (YI & _ & J) [[OV|(YC & CS)]|(YC & EX)].
  - unfold SpecTany.yevent. rewrite OV. intros [= <-]. left. left. exact OV.
  - unfold SpecTany.yevent. destruct (y_over s) eqn:OV; [intros [= <-]; left; left; exact OV|]. rewrite YC, CS.
    assert (GO : match y_d s with PHeader _ => Some s | PDecode x => let? x := step e x in match @None (list Z * Z), tm_pc (wd_m x) with
           | Some (input, room), MRet r => Some (y_returned (PDecode x) input room [] (y_log s) (tm_n (wd_m x)) (tm_out (wd_m x)) r)
           | c, _ => Some (YS (PDecode x) c (y_rest s) [] (y_log s) false) end end = Some s' -> y_ended s' \/ exhausted s').
    { destruct (y_d s) as [h|x]; [intros [= <-]; left; right; auto|]. destruct (step e x) as [x'|]; cbn [bind]; [|discriminate]. intros [= <-]. left. right. auto. }
    destruct e; [intros [= <-]; left; right; auto|exact GO|exact GO|exact GO].
  - unfold SpecTany.yevent. destruct (y_over s) eqn:OV; [intros [= <-]; left; left; exact OV|]. destruct J as [J|J]; [congruence|].
    destruct (y_d s) as [h|x] eqn:YD; [contradiction|]. destruct J as (WX & JC). destruct (y_call s) as [[input room]|] eqn:Y; [|contradiction].
    intros E. right. assert (E' : (let? x := step e x in match Some (input, room), tm_pc (wd_m x) with
           | Some (input, room), MRet r => Some (y_returned (PDecode x) input room (y_calls s) (y_log s) (tm_n (wd_m x)) (tm_out (wd_m x)) r)
           | c, _ => Some (YS (PDecode x) c (y_rest s) (y_calls s) (y_log s) false) end) = Some s') by (destruct e; exact E). clear E.
    destruct (step e x) as [x'|] eqn:ST; cbn [bind] in E'; [|discriminate]. destruct (drained_step x e x' WX EX ST) as (DR & PC). rewrite PC in E'. injection E' as <-. split; [discriminate|exact DR].
Qed.
Lemma exhausted_event offer e s : SI offer s -> exhausted s -> exists s', yevent e s = Some s' /\ SI offer s' /\ exhausted s' /\ y_log s' = y_log s.
Proof.
  intros V EX. pose proof V as (YI & _ & J). pose proof EX as (YC & EX1). destruct (y_call s) as [[input room]|] eqn:Y; [|contradiction].
  assert (OV : y_over s = false) by (destruct YI as (_ & _ & _ & YI); rewrite Y in YI; apply YI). destruct J as [J|J]; [congruence|].
  destruct (y_d s) as [h|x] eqn:YD; [contradiction|]. destruct J as (WX & JC).
  destruct (sess_event offer e s V) as [(h & U)|(s' & _ & E & V' & _)].
  { exfalso. unfold gyevent in U. rewrite OV, Y, YD in U. destruct EX1 as (_ & _ & _ & _ & D5 & D6 & _).
    assert (TD : t_danger dict wl D e x = None) by (unfold t_danger; rewrite D5, D6; destruct e; reflexivity). rewrite TD in U. destruct e; cbn [unless] in U; unfold of_opt in U; match type of U with match ?a with Some _ => _ | None => _ end = _ => destruct a; discriminate U end. }
  exists s'. split; [exact E|]. split; [exact V'|].
  unfold SpecTany.yevent in E. rewrite OV, Y, YD in E.
  assert (E' : (let? x := step e x in match Some (input, room), tm_pc (wd_m x) with
         | Some (input, room), MRet r => Some (y_returned (PDecode x) input room (y_calls s) (y_log s) (tm_n (wd_m x)) (tm_out (wd_m x)) r)
         | c, _ => Some (YS (PDecode x) c (y_rest s) (y_calls s) (y_log s) false) end) = Some s') by (destruct e; exact E). clear E.
  destruct (step e x) as [x'|] eqn:ST; cbn [bind] in E'; [|discriminate]. destruct (drained_step x e x' WX EX1 ST) as (DR & PC). rewrite PC in E'. injection E' as <-. split; [|reflexivity]. split; [discriminate|exact DR].
Qed.
Lemma settled_run offer : forall l s s', SI offer s -> y_ended s \/ exhausted s -> gyrun l s = Fine s' -> y_ended s' \/ exhausted s'.
Proof.
  induction l as [|e l IH]; intros s s' V S; cbn [SpecTguard.gyrun]; [intros [= <-]; exact S|].
  destruct (sess_event offer e s V) as [(h & ->)|(s1 & -> & E & V1 & _)]; cbn [gbind]; [discriminate|]. apply (IH s1 s' V1). exact (settled_event offer e s s1 V S E).
Qed.
Lemma gyrun_app a b s : gyrun (a ++ b) s = gbind (gyrun a s) (gyrun b).
Proof. revert s. induction a as [|e a IH]; intros s; [reflexivity|]. cbn [app SpecTguard.gyrun]. destruct (gyevent dict wl D skip e s); cbn [gbind]; auto. Qed.
Lemma rounds_run offer : forall rounds s s', SI offer s -> Forall fair_round rounds -> PS s + spurious (concat rounds) < zlen rounds -> gyrun (concat rounds) s = Fine s' -> y_ended s' \/ exhausted s'.
Proof.
  induction rounds as [|r rounds IH]; intros s s' V F L E.
  { change (zlen (@nil (list event))) with 0 in L. change (spurious (concat [])) with 0 in L. exfalso.
    destruct (y_over s) eqn:OV; [rewrite PS_over in L by exact OV; lia|]. pose proof (PS_pos offer s V OV). lia. }
  apply Forall_cons_iff in F. destruct F as ((FM & FW) & F). cbn [concat] in *. rewrite gyrun_app in E.
  assert (SP : spurious (r ++ concat rounds) = spurious r + spurious (concat rounds)) by (unfold spurious; rewrite filter_app, zlen_app; reflexivity). rewrite SP, zlen_cons in L.
  destruct (sess_run offer r s V) as [(h & X)|(s1 & X & _ & V1 & R)]; rewrite X in E; cbn [gbind] in E; [discriminate|].
  destruct R as [R|(_ & R1 & R2)].
  - apply (IH s1 s' V1 F); [lia|exact E].
  - pose proof (stuck_exhausted offer s V (R1 FM) (R2 FW)) as S. apply (settled_run offer (concat rounds) s1 s' V1); [|exact E]. exact (settled_run offer r s s1 V S X).
Qed.
Lemma PS_new calls : PS (ysess_new calls) <= 40000000 * (1 + zlen (concat (map fst calls))) + 40 * zlen calls.
Proof. unfold PS. cbn [ysess_new y_over y_d pdec_new y_rest y_calls]. change (zlen (@nil Z)) with 0. unfold PD, K4. pose proof (zlen_nonneg (concat (map fst calls))). lia. Qed.
End Worlds.
