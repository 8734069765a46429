(** Two threads, any input: the invariant, and the worker's steps. *)
From Verif Require Import Prelude ProofList ModelAns SpecAns ModelCdf SpecCdf ProofCdf ProofAns ProofAnsRt ProofAnsDec ThmCdf ModelMux ProofZlist ProofMux ProofMuxR ModelCmd ModelCrc ModelHeader ModelRecode SpecLz ProofRecode ProofRecode2 ModelPriors ModelCodec ModelLit ModelPm ModelTop SpecCodec ModelEnc ModelDec ModelContextLut ThmPriors ProofCodecInv ProofCodecInv2 ProofRun ProofTop ProofDec2 ProofDec3 ProofDec4 ProofDec5 SpecHostile ProofHostile SpecGuard ProofGuard1 ProofGuard2 ProofGuard3 ProofGuard4 ProofGuard5 ProofGuard6 ProofGuard7 ModelThread SpecTany SpecTguard ProofTg1.

Section Inv.
Context (dict : dict_fn) (wl : word_len_fn) (D : dims) (BIG : big D) (skip : bool).
Notation minv := (ProofGuard5.minv dict D). Notation winvH := (winvH D). Notation okcmd := (okcmd D). Notation wkok := (wkok D).
(** ** The queue; [n]: context maps on the worker's side or on their way back to it *)
Record qinv (n cM : nat) (s : mbuf) (q : squeue) : Prop := {
  qi_slice : bok s;
  qi_data : Forall full (q_data q);
  qi_data2 : zlen (q_data q) <= 2;
  qi_rdata2 : zlen (q_rdata q) <= 2;
  qi_res : zlen (q_res q) <= NUM_BUFFERED;
  qi_tok : (n + cpm (q_res q) + cM + length (q_cm q) = 1)%nat;
  qi_tq : has_speeds (fst (q_rcm q)) = Nat.eqb (cpm (q_res q)) 1;
  qi_tq2 : has_speeds (fst (q_rcm q)) = true -> pm_ok D (fst (q_rcm q));
  qi_ts : has_speeds (snd (q_rcm q)) = false;
  qi_tc : Forall (pm_ok D) (q_cm q);
  qi_cmds : Forall okcmd (q_res q) }.
(** a worker that stands for the real one in the lemmas about the main thread *)
Definition fkc (h : bool) : codec unit := if h then codec_new D tt else kset_pm (codec_new D tt) pm_nop TBegin.
Definition fk (h : bool) (s : mbuf) (e : bool) : worker := WK (fkc h) dec_new s e.
Definition b2n (h : bool) : nat := if h then 1%nat else 0%nat.
Lemma fk_wok h : exists P, wok D (fkc h) P.
Proof.
  exists (k_pm (codec_new D tt)). assert (WO : wok D (codec_new D tt) (k_pm (codec_new D tt))) by (apply sane_wok; [rewrite wpm_same; apply (sane_new no_replayer D BIG (SAFE0 D))|exact Logic.I|reflexivity]).
  destruct h; [exact WO|]. destruct WO as [I B N T PW]. constructor; cbn [fkc kset_pm k_bk k_st k_pm wpm]; try assumption; try exact Logic.I; try discriminate.
Qed.
Lemma fk_toks h : (hs (k_pm (fkc h)) + pop_pm (k_st (fkc h)) = b2n h)%nat.
Proof. destruct h; reflexivity. Qed.
Lemma to_fk n cM s q : qinv n cM s q -> exists h, b2n h = n /\ winvH cM (fk h s (q_eof q)) q.
Proof.
  intros [Q1 Q2 Q3 Q4 Q5 Q6 Q7 Q8 Q9 Q10 Q11]. assert (C : n = 0%nat \/ n = 1%nat) by lia.
  exists (Nat.eqb n 1). assert (E : b2n (Nat.eqb n 1) = n) by (destruct C as [-> | ->]; reflexivity). split; [exact E|].
  constructor; cbn [fk wk_c wk_dec wk_slice wk_done]; try assumption; try reflexivity; [apply fk_wok|apply dsane_new|]. pose proof (fk_toks (Nat.eqb n 1)). lia.
Qed.
Lemma of_fk h cM s e q : winvH cM (fk h s e) q -> qinv (b2n h) cM s q.
Proof.
  intros [Q0 Q1 Q2 Q3 Q4 Q5 Q6 Q7 Q8 Q9 Q10 Q11 Q12 Q13]. cbn [fk wk_c wk_dec wk_slice wk_done] in *. constructor; try assumption. pose proof (fk_toks h). lia.
Qed.
(** ** The invariant *)
Definition mm (pc : mpc) : nat := match pc with MMap _ => 1 | _ => 0 end.
Definition backs (pc : mpc) : list mbuf := match pc with MBack l _ _ => l | _ => [] end.
Definition wpc_ok (w : wthread) : Prop :=
  match tw_pc w with
  | WRun => wk_done (tw_w w) = false /\ zlen (tw_buf w) < NUM_BUFFERED /\ cpm (tw_buf w) = 0%nat
  | WPush k pm =>
      wk_done (tw_w w) = false /\ zlen (tw_buf w) <= NUM_BUFFERED /\
      match pm with Some p => k = KRun /\ pm_ok D p /\ cpm (tw_buf w) = 1%nat | None => cpm (tw_buf w) = 0%nat end /\
      match k with KEof => k_st (wk_c (tw_w w)) = TEnd | KPull => starving (tw_w w) = true | KRun => True end
  | WPull => wk_done (tw_w w) = false /\ zlen (tw_buf w) < NUM_BUFFERED /\ cpm (tw_buf w) = 0%nat /\ starving (tw_w w) = true /\ zlen (mem (wk_slice (tw_w w))) = 0
  | WMap => wk_done (tw_w w) = false /\ zlen (tw_buf w) < NUM_BUFFERED /\ cpm (tw_buf w) = 0%nat /\ wants_map (wk_c (tw_w w)) = true
  | WDone | WFailed => True
  end.
Definition live (pc : wpc) : Prop := match pc with WFailed => False | _ => True end.
Record CIw (n k : nat) (s : shared) (w : wthread) : Prop := {
  cw_bad : tw_pc w = WFailed -> sh_failed s = true /\ sh_err s = true /\ q_eof (sh_q s) = false /\ (k <= n)%nat;
  cw_ok : live (tw_pc w) -> sh_failed s = false /\ sh_err s = false /\ wkok (tw_w w) /\ (toks (tw_w w) + cpm (tw_buf w) + k = n)%nat /\ Forall okcmd (tw_buf w) /\ wpc_ok w;
  cw_eof : live (tw_pc w) -> q_eof (sh_q s) = match tw_pc w with WDone => true | _ => false end }.
Record CI (n : nat) (s : shared) (w : wthread) (t : mthread) : Prop := {
  ci_q : qinv n (cpm (m_cmds (tm_m t))) (wk_slice (tw_w w)) (sh_q s);
  ci_out : m_out (tm_m t) = held (tw_w w) (sh_q s) + zlen (backs (tm_pc t));
  ci_pq : has_speeds (fst (m_pred (tm_m t))) = Nat.eqb (cpm (m_cmds (tm_m t))) 1;
  ci_pq2 : has_speeds (fst (m_pred (tm_m t))) = true -> pm_ok D (fst (m_pred (tm_m t)));
  ci_ps : has_speeds (snd (m_pred (tm_m t))) = false;
  ci_m : minv (tm_m t);
  ci_in : bytes (tm_in t);
  ci_room : 0 <= tm_room t;
  ci_eof : m_eof (tm_m t) = true -> q_eof (sh_q s) = true;
  ci_pc : match tm_pc t with
          | MRet _ | MIn => True
          | MOut => fin (tm_m t)
          | MNext => fin (tm_m t) /\ rests (tm_m t)
          | MPull => fin (tm_m t) /\ rests (tm_m t) /\ m_cmds (tm_m t) = [] /\ m_eof (tm_m t) = false
          | MBack l need _ => rests (tm_m t) /\ (l = [] -> need = false -> fin (tm_m t))
          | MMap p => fin (tm_m t) /\ pm_ok D p
          end;
  ci_w : CIw n (mm (tm_pc t)) s w }.
(** ** The measure *)
Definition BB : Z := 9830440.
Definition rankW (pc : wpc) : Z :=
  match pc with WRun => 4 | WPush KRun _ => 5 | WPush KPull _ => 3 | WPull => 2 | WMap => 2 | WPush KEof _ => 1 | _ => 0 end.
Definition rankM (pc : mpc) : Z :=
  match pc with
  | MRet _ => 0 | MBack l _ bad => zlen l + (if bad then 1 else 6) | MPull => 2 | MNext => 3 | MOut => 4 | MIn => 5 | MMap _ => 5
  end.
Definition BW (w : wthread) : Z := if ended w then 0 else 10 * U (tw_w w) + 20 * zlen (tw_buf w) + rankW (tw_pc w).
Definition BQ (q : squeue) : Z := 16 * zlen (q_res q) + 8 * zlen (q_rdata q) + 40 * zlen (q_data q) + BB * cbytes (q_data q).
Definition BM (t : mthread) : Z :=
  8 * zlen (m_cmds (tm_m t)) + (BB + 40) * (zlen (mb_data (buf0 (m_mux (tm_m t)))) + zlen (tm_in t)) + (if m_eof (tm_m t) then 0 else 10) + rankM (tm_pc t).
Lemma BW_eq w : ended w = false -> BW w = 10 * U (tw_w w) + 20 * zlen (tw_buf w) + rankW (tw_pc w).
Proof. intros E. unfold BW. rewrite E. reflexivity. Qed.
Lemma BW_end w : ended w = true -> BW w = 0.
Proof. intros E. unfold BW. rewrite E. reflexivity. Qed.
Lemma U_eq c d s e : U (WK c d s e) = 15 * pot d (zlen (mb_data s)) + 6 * Z.of_nat (wrank (k_st c)) + 3 * (1 - Z.of_nat (hs (k_pm c))) + 4 * zlen (mb_data s) + (if zlen (mem s) =? 0 then 0 else 1).
Proof. unfold U, W, LW, H, left_w, qbytes. cbn [squeue_new q_data q_res q_rdata map concat wk_c wk_dec wk_slice]. rewrite app_nil_r. change (zlen (@nil command)) with 0. change (zlen (@nil mbuf)) with 0. unfold zlen. lia. Qed.
(** ** Being blocked *)
Definition mblocked (s : shared) (t : mthread) : Prop := tm_pc t = MPull /\ result_ready s = false /\ sh_err s = false.
Definition wblocked (s : shared) (w : wthread) : Prop :=
  match tw_pc w with
  | WPull => q_data (sh_q s) = []
  | WMap => q_cm (sh_q s) = []
  | WPush k _ => (k = KPull /\ zlen (q_rdata (sh_q s)) = 2) \/ NUM_BUFFERED - zlen (q_res (sh_q s)) < zlen (tw_buf w)
  | _ => False
  end.
Definition wout (s : shared) (w : wthread) (t : mthread) (x : option (shared * wthread * bool)) : Prop :=
  exists s' w' note n', x = Some (s', w', note) /\ CI n' s' w' t /\
    ((tw_st w' = Awake /\ sh_waiters s' = sh_waiters s /\ BW w' + BQ (sh_q s') < BW w + BQ (sh_q s)) \/
     (tw_st w' = Asleep /\ sh_waiters s' = sh_waiters s + 1 /\ wblocked s' w' /\ ended w' = false /\ BW w' + BQ (sh_q s') <= BW w + BQ (sh_q s))) /\
    (note = true -> BW w' + BQ (sh_q s') < BW w + BQ (sh_q s)) /\
    (mblocked s t -> mblocked s' t \/ note = notify s).
Lemma CI_worker n n' s s' w w' t : CI n s w t -> qinv n' (cpm (m_cmds (tm_m t))) (wk_slice (tw_w w')) (sh_q s') -> held (tw_w w') (sh_q s') = held (tw_w w) (sh_q s) ->
  (q_eof (sh_q s) = true -> q_eof (sh_q s') = true) -> CIw n' (mm (tm_pc t)) s' w' -> CI n' s' w' t.
Proof. intros [C1 C2 C3 C4 C5 C6 C7 C8 C9 C10 C11] Q HE EO CW. constructor; auto. rewrite HE. exact C2. Qed.
Lemma wmove n' s w t s' w' note : CI n' s' w' t -> tw_st w' = Awake -> sh_waiters s' = sh_waiters s -> BW w' + BQ (sh_q s') < BW w + BQ (sh_q s) ->
  (mblocked s t -> mblocked s' t \/ note = notify s) -> wout s w t (Some (s', w', note)).
Proof. intros C A WT LT MB. exists s', w', note, n'. split; [reflexivity|]. split; [exact C|]. split; [left; auto|]. split; [intros _; exact LT|exact MB]. Qed.
Lemma blocked_same s t (P : Prop) : mblocked s t -> mblocked s t \/ P. Proof. auto. Qed.
Lemma CIw_same n k s w w' : CIw n k s w -> live (tw_pc w) -> live (tw_pc w') -> tw_pc w <> WDone -> tw_pc w' <> WDone -> wkok (tw_w w') -> (toks (tw_w w') + cpm (tw_buf w') = toks (tw_w w) + cpm (tw_buf w))%nat -> Forall okcmd (tw_buf w') -> wpc_ok w' -> CIw n k s w'.
Proof.
  intros [C1 C2 C3] L L' ND ND' K T F P. destruct (C2 L) as (SF & SE & _ & TT & _). constructor.
  - intros E. rewrite E in L'. contradiction L'.
  - intros _. repeat (split; [assumption|]). split; [lia|]. split; assumption.
  - intros _. rewrite (C3 L). destruct (tw_pc w); try contradiction; destruct (tw_pc w'); try reflexivity; contradiction.
Qed.
Lemma qinv_slice n cM s s' q : qinv n cM s q -> bok s' -> qinv n cM s' q.
Proof. intros []. constructor; assumption. Qed.

(** ** One step of the worker *)
Lemma step_code n s w t : CI n s w t -> tw_pc w = WRun -> busy (tw_w w) -> w_danger wl D (tw_w w) squeue_new = None ->
  wout s w t (let? '(w0, r) := w_code wl D (tw_w w) in
              match r with
              | Some (WFail _) => Some (broadcast s, tw_set_w w w0 WFailed, notify s)
              | _ => Some (s, tw_set_w w w0 WRun, false)
              end).
Proof.
  intros C PC B HD. pose proof (ci_w _ _ _ _ C) as CW. pose proof (cw_ok _ _ _ _ CW ltac:(rewrite PC; exact Logic.I)) as (SF & SE & K & TK & FB & WP). unfold wpc_ok in WP. rewrite PC in WP. destruct WP as (DN & LB & C0).
  pose proof (ci_q _ _ _ _ C) as Q. pose proof (qi_tok _ _ _ _ Q) as QT.
  assert (T1 : (toks (tw_w w) <= 1)%nat) by lia.
  assert (EN : ended w = false) by (unfold ended; rewrite PC; reflexivity).
  destruct (w_code_any wl D BIG (tw_w w) K DN T1 B HD) as (w' & r & -> & DN' & (ME & BO) & R). cbn [bind].
  destruct R as [(e & ->)|(R & K' & T' & LT)].
  - apply (wmove n).
    + apply (CI_worker n n s _ w _ t C); cbn [tw_set_w tw_w broadcast sh_q].
      * apply (qinv_slice _ _ _ _ _ Q), BO.
      * apply held_mem, ME.
      * auto.
      * constructor; cbn [tw_set_w tw_pc broadcast sh_failed sh_err sh_q]; [|intros []|intros []]. intros _. split; [reflexivity|]. split; [reflexivity|]. split; [|lia].
        rewrite (cw_eof _ _ _ _ CW) by (rewrite PC; exact Logic.I). rewrite PC. reflexivity.
    + reflexivity.
    + reflexivity.
    + rewrite (BW_eq w EN). pose proof (U_pos D (tw_w w) K DN T1). pose proof (zlen_nonneg (tw_buf w)). rewrite PC. rewrite BW_end by reflexivity. cbn [broadcast sh_q rankW]. lia.
    + intros _. right. reflexivity.
  - assert (GO : wout s w t (Some (s, tw_set_w w w' WRun, false))).
    { apply (wmove n).
      - apply (CI_worker n n s _ w _ t C); cbn [tw_set_w tw_w].
        + apply (qinv_slice _ _ _ _ _ Q). apply K'.
        + apply held_mem, ME.
        + auto.
        + apply (CIw_same _ _ _ _ _ CW); cbn [tw_set_w tw_w tw_pc tw_buf]; rewrite ?PC; try exact Logic.I; try discriminate; try assumption; [rewrite T'; reflexivity|]. unfold wpc_ok. cbn [tw_set_w tw_pc tw_w tw_buf]. auto.
      - reflexivity.
      - reflexivity.
      - rewrite (BW_eq w EN), BW_eq by reflexivity. cbn [tw_set_w tw_w tw_buf tw_pc]. rewrite PC. lia.
      - auto. }
    destruct r as [[]|]; try exact GO. contradiction R.
Qed.
(** a step that changes only the worker's own state *)
Lemma wown n s w t w' : CI n s w t -> wk_slice (tw_w w') = wk_slice (tw_w w) -> tw_st w' = Awake -> CIw n (mm (tm_pc t)) s w' -> BW w' < BW w -> wout s w t (Some (s, w', false)).
Proof.
  intros C SL A CW LT. apply (wmove n).
  - apply (CI_worker n n s _ w _ t C); auto; [rewrite SL; apply C|]. apply held_mem. rewrite SL. reflexivity.
  - exact A.
  - reflexivity.
  - lia.
  - auto.
Qed.
Lemma pop_worker c P cmd : wok D c P -> k_st c = TPop cmd -> wok D (kset c (k_bk c) TBegin) P.
Proof.
  intros [I B N T PW] ST. constructor; cbn [kset k_bk k_st k_pm wpm]; try assumption; [|exact Logic.I].
  destruct I as [I1 I2 I3 I4 I5]. constructor; cbn [wpm kset k_bk k_lbk k_mix k_pm k_rec k_st] in *; try assumption. exact Logic.I.
Qed.
Lemma map_worker c P p : wok D c P -> pm_ok D p -> wok D (kset_pm c p (k_st c)) p.
Proof.
  intros [I B N T PW] (PI & PN & PH). constructor; cbn [kset_pm k_bk k_st k_pm wpm]; try assumption; [|reflexivity].
  destruct I as [I1 I2 I3 I4 I5]. constructor; cbn [wpm kset_pm k_bk k_lbk k_mix k_pm k_rec k_st] in *; assumption.
Qed.
Lemma U_pop c d s e cmd : k_st c = TPop cmd -> U (WK (kset c (k_bk c) TBegin) d s e) + 5 <= U (WK c d s e).
Proof. intros ST. rewrite !U_eq. cbn [kset k_st k_pm]. rewrite ST. cbn [wrank rank]. lia. Qed.
Lemma step_pop n s w t cmd : CI n s w t -> tw_pc w = WRun -> k_st (wk_c (tw_w w)) = TPop cmd ->
  wout s w t (let? t0 := push_command w cmd in Some (s, t0, false)).
Proof.
  intros C PC KS. pose proof (ci_w _ _ _ _ C) as CW. pose proof (cw_ok _ _ _ _ CW ltac:(rewrite PC; exact Logic.I)) as (SF & SE & K & TK & FB & WP). unfold wpc_ok in WP. rewrite PC in WP. destruct WP as (DN & LB & C0).
  assert (EN : ended w = false) by (unfold ended; rewrite PC; reflexivity).
  destruct w as [[c d sl dn] buf mn pc st]. cbn [tw_w tw_buf tw_pc wk_c wk_dec wk_slice wk_done] in *. subst pc dn.
  unfold push_command. cbn [tw_w tw_buf tw_min wk_c]. unfold assert. destruct (Z.ltb_spec (zlen buf) NUM_BUFFERED) as [_|X]; [|lia]. cbn [bind].
  pose proof K as [(P & KC) KD KSL]. cbn [wk_c wk_dec wk_slice] in *.
  pose proof (wo_top _ _ _ KC) as TOP. rewrite KS in TOP. cbn [wtop top_sane] in TOP.
  assert (K' : wkok (wk_set_c (WK c d sl false) (kset c (k_bk c) TBegin))) by (constructor; cbn [wk_set_c wk_c wk_dec wk_slice]; [exists P; exact (pop_worker c P cmd KC KS)|assumption|assumption]).
  assert (OKC : okcmd (downcast cmd)) by (apply okdown; destruct cmd; cbn; auto).
  assert (F1 : Forall okcmd (buf ++ [downcast cmd])) by (apply Forall_app; split; [exact FB|apply Forall_cons; [exact OKC|apply Forall_nil]]).
  assert (L1 : zlen (buf ++ [downcast cmd]) = zlen buf + 1) by (rewrite zlen_app; reflexivity).
  pose proof (U_pop c d sl false cmd KS) as UP.
  assert (GO : forall mn' pc', (pc' = WRun \/ exists pm, pc' = WPush KRun pm) ->
    wpc_ok (TW (wk_set_c (WK c d sl false) (kset c (k_bk c) TBegin)) (buf ++ [downcast cmd]) mn' pc' Awake) ->
    wout s (TW (WK c d sl false) buf mn WRun st) t (Some (s, TW (wk_set_c (WK c d sl false) (kset c (k_bk c) TBegin)) (buf ++ [downcast cmd]) mn' pc' Awake, false))).
  { intros mn' pc' PC' WP'. apply (wown n); auto.
    - apply (CIw_same _ _ _ _ _ CW); cbn [tw_pc tw_w tw_buf]; try exact Logic.I; try discriminate; try assumption.
      + destruct PC' as [-> |(pm & ->)]; exact Logic.I.
      + destruct PC' as [-> |(pm & ->)]; discriminate.
      + unfold toks. cbn [wk_set_c wk_c kset k_pm k_st]. rewrite KS, cpm_app, C0. destruct cmd; cbn; lia.
    - rewrite !BW_eq; [|reflexivity|destruct PC' as [-> |(pm & ->)]; reflexivity]. cbn [tw_w tw_buf tw_pc]. change (wk_set_c (WK c d sl false) (kset c (k_bk c) TBegin)) with (WK (kset c (k_bk c) TBegin) d sl false). rewrite L1. assert (rankW pc' <= 5) by (destruct PC' as [-> |(pm & ->)]; cbn; lia). cbn [rankW]. lia. }
  assert (PLAIN : cpm [downcast cmd] = 0%nat ->
    wout s (TW (WK c d sl false) buf mn WRun st) t (Some (s, (if (zlen (buf ++ [downcast cmd]) =? NUM_BUFFERED) || (zlen (buf ++ [downcast cmd]) =? mn) then
       start_push (TW (wk_set_c (WK c d sl false) (kset c (k_bk c) TBegin)) (buf ++ [downcast cmd]) mn WRun Awake) KRun None
       else TW (wk_set_c (WK c d sl false) (kset c (k_bk c) TBegin)) (buf ++ [downcast cmd]) mn WRun Awake), false))).
  { intros CP. destruct (_ || _) eqn:FU.
    - unfold start_push. cbn [tw_w tw_buf tw_min]. apply GO; [right; eexists; reflexivity|]. unfold wpc_ok. cbn [tw_pc tw_w tw_buf]. rewrite L1, cpm_app, C0, CP. split; [reflexivity|]. split; [lia|]. split; [reflexivity|exact Logic.I].
    - apply GO; [left; reflexivity|]. unfold wpc_ok. cbn [tw_pc tw_w tw_buf]. rewrite L1, cpm_app, C0, CP in *. apply orb_false_elim in FU. destruct FU as (FU & _). apply Z.eqb_neq in FU. split; [reflexivity|]. split; [lia|reflexivity]. }
  destruct cmd; try (apply PLAIN; reflexivity).
  unfold start_push. cbn [tw_w tw_buf tw_min]. apply GO; [right; eexists; reflexivity|]. unfold wpc_ok. cbn [tw_pc tw_w tw_buf]. rewrite L1, cpm_app, C0. split; [reflexivity|]. split; [lia|]. split; [|exact Logic.I]. split; [reflexivity|]. split; [exact TOP|reflexivity].
Qed.
Lemma step_run n s w t : CI n s w t -> tw_pc w = WRun -> w_danger wl D (tw_w w) squeue_new = None -> wout s w t (wstep wl D s w).
Proof.
  intros C PC HD. pose proof (ci_w _ _ _ _ C) as CW. pose proof (cw_ok _ _ _ _ CW ltac:(rewrite PC; exact Logic.I)) as (SF & SE & K & TK & FB & WP). unfold wpc_ok in WP. rewrite PC in WP. destruct WP as (DN & LB & C0).
  assert (EN : ended w = false) by (unfold ended; rewrite PC; reflexivity).
  assert (GEN : match k_st (wk_c (tw_w w)) with TEnd | TPop _ => False | _ => True end -> wout s w t
    (if wants_map (wk_c (tw_w w)) then Some (s, tw_go w WMap, false)
          else if starving (tw_w w) then
            Some (s, if zlen (mem (wk_slice (tw_w w))) =? 0 then tw_go w WPull else start_push w KPull None, false)
          else
            let? '(w0, r) := w_code wl D (tw_w w) in
            match r with
            | Some (WFail _) => Some (broadcast s, tw_set_w w w0 WFailed, notify s)
            | _ => Some (s, tw_set_w w w0 WRun, false)
            end)).
  { intros NP. destruct (wants_map (wk_c (tw_w w))) eqn:WM.
    - apply (wown n); auto.
      + apply (CIw_same _ _ _ _ _ CW); cbn [tw_go tw_w tw_pc tw_buf]; rewrite ?PC; try exact Logic.I; try discriminate; try assumption; try reflexivity. unfold wpc_ok. cbn [tw_go tw_pc tw_w tw_buf]. auto.
      + rewrite (BW_eq w EN), BW_eq by reflexivity. rewrite PC. cbn [tw_go tw_w tw_buf tw_pc rankW]. lia.
    - destruct (starving (tw_w w)) eqn:ST.
      + destruct (Z.eqb_spec (zlen (mem (wk_slice (tw_w w)))) 0) as [M0|M0].
        * apply (wown n); auto.
          -- apply (CIw_same _ _ _ _ _ CW); cbn [tw_go tw_w tw_pc tw_buf]; rewrite ?PC; try exact Logic.I; try discriminate; try assumption; try reflexivity. unfold wpc_ok. cbn [tw_go tw_pc tw_w tw_buf]. auto.
          -- rewrite (BW_eq w EN), BW_eq by reflexivity. rewrite PC. cbn [tw_go tw_w tw_buf tw_pc rankW]. lia.
        * apply (wown n); auto.
          -- apply (CIw_same _ _ _ _ _ CW); cbn [start_push tw_w tw_pc tw_buf]; rewrite ?PC; try exact Logic.I; try discriminate; try assumption; try reflexivity. unfold wpc_ok. cbn [start_push tw_pc tw_w tw_buf]. split; [exact DN|]. split; [lia|]. auto.
          -- rewrite (BW_eq w EN), BW_eq by reflexivity. rewrite PC. cbn [start_push tw_w tw_buf tw_pc rankW]. lia.
      + apply (step_code n); auto. unfold busy. auto. }
  unfold wstep. rewrite PC. destruct (k_st (wk_c (tw_w w))) as [|s0|s0|s0|s0|s0|s0|u|cmd|] eqn:KS; try (apply GEN; exact Logic.I).
  - apply (step_pop n); assumption.
  - clear GEN. apply (wown n); auto.
    + apply (CIw_same _ _ _ _ _ CW); cbn [start_push tw_w tw_pc tw_buf]; rewrite ?PC; try exact Logic.I; try discriminate; try assumption; try reflexivity. unfold wpc_ok. cbn [start_push tw_pc tw_w tw_buf]. split; [exact DN|]. split; [lia|]. auto.
    + rewrite (BW_eq w EN), BW_eq by reflexivity. rewrite PC. cbn [start_push tw_w tw_buf tw_pc rankW]. lia.
Qed.
Lemma cbytes_cons b bs : cbytes (b :: bs) = zlen (mb_data b) + cbytes bs.
Proof. unfold cbytes. cbn [map concat]. apply zlen_app. Qed.
Lemma mem_full b : full b -> (zlen (mem b) =? 0) = false.
Proof. intros (B & N). pose proof (mem_data b B N). apply Z.eqb_neq. lia. Qed.
Lemma wait_blocked s t k : mblocked s t -> mblocked (sh_wait s k) t. Proof. exact (fun x => x). Qed.
(** falling asleep with nothing changed *)
Lemma wsleep n s w t : CI n s w t -> ended w = false -> wblocked s w -> wout s w t (Some (sh_wait s 1, tw_sleep w, false)).
Proof.
  intros C EN B. exists (sh_wait s 1), (tw_sleep w), false, n. split; [reflexivity|]. split.
  - destruct C as [C1 C2 C3 C4 C5 C6 C7 C8 C9 C10 [C11 C12 C13]]. constructor; try assumption. constructor; assumption.
  - split; [right; split; [reflexivity|]; split; [reflexivity|]; split; [exact B|]; split; [exact EN|]|split; [discriminate|auto]]. change (BW (tw_sleep w)) with (BW w). change (sh_q (sh_wait s 1)) with (sh_q s). lia.
Qed.
Lemma step_pull n s w t : CI n s w t -> tw_pc w = WPull -> wout s w t (wstep wl D s w).
Proof.
  intros C PC. pose proof (ci_w _ _ _ _ C) as CW. pose proof (cw_ok _ _ _ _ CW ltac:(rewrite PC; exact Logic.I)) as (SF & SE & K & TK & FB & WP). unfold wpc_ok in WP. rewrite PC in WP. destruct WP as (DN & LB & C0 & ST & M0).
  assert (EN : ended w = false) by (unfold ended; rewrite PC; reflexivity).
  unfold wstep. rewrite PC. destruct (q_data (sh_q s)) as [|b bs] eqn:QD; [apply (wsleep n); auto; unfold wblocked; rewrite PC; exact QD|]. rewrite SE.
  pose proof (ci_q _ _ _ _ C) as Q. pose proof (qi_data _ _ _ _ Q) as FD. rewrite QD in FD. apply Forall_cons_iff in FD. destruct FD as (FB0 & FD).
  destruct w as [[c d sl dn] buf mn pc st]. cbn [tw_w tw_buf tw_pc wk_c wk_dec wk_slice wk_done] in *. subst pc dn.
  assert (S0 : zlen (mb_data sl) = 0).
  { unfold starving in ST. cbn [wk_slice] in ST. apply andb_true_iff in ST. destruct ST as (_ & ST). apply Z.eqb_eq, ST. }
  apply (wmove n).
  - apply (CI_worker n n s _ _ _ t C); cbn [tw_set_w tw_w sh_set_q sh_q wk_slice].
    + destruct Q as [Q1 Q2 Q3 Q4 Q5 Q6 Q7 Q8 Q9 Q10 Q11]. rewrite QD, zlen_cons in Q3. constructor; cbn [q_set_data q_data q_rdata q_res q_cm q_rcm]; try assumption; [apply FB0|lia].
    + unfold held. cbn [wk_slice q_set_data q_data q_rdata]. rewrite QD, M0, zlen_cons, (mem_full b FB0). change (0 =? 0) with true. cbn iota. lia.
    + auto.
    + destruct CW as [CW1 CW2 CW3]. constructor; cbn [tw_set_w tw_pc sh_set_q sh_failed sh_err sh_q q_set_data q_eof tw_w tw_buf]; [discriminate| |exact CW3]. intros _. split; [exact SF|]. split; [exact SE|].
      split; [|split; [exact TK|split; [exact FB|unfold wpc_ok; cbn [tw_set_w tw_pc tw_w tw_buf]; auto]]]. destruct K as [K1 K2 K3]. constructor; cbn [wk_c wk_dec wk_slice] in *; try assumption. apply FB0.
  - reflexivity.
  - reflexivity.
  - rewrite !BW_eq by reflexivity. cbn [tw_set_w tw_w tw_buf tw_pc rankW sh_set_q sh_q]. unfold BQ. cbn [q_set_data q_data q_rdata q_res]. rewrite QD, zlen_cons, cbytes_cons, !U_eq, (mem_full b FB0), S0, M0. change (0 =? 0) with true. cbn iota. unfold pot, BB. pose proof (zlen_nonneg (mb_data b)). lia.
  - auto.
Qed.
Lemma step_map n s w t : CI n s w t -> tw_pc w = WMap -> wout s w t (wstep wl D s w).
Proof.
  intros C PC. pose proof (ci_w _ _ _ _ C) as CW. pose proof (cw_ok _ _ _ _ CW ltac:(rewrite PC; exact Logic.I)) as (SF & SE & K & TK & FB & WP). unfold wpc_ok in WP. rewrite PC in WP. destruct WP as (DN & LB & C0 & WM).
  assert (EN : ended w = false) by (unfold ended; rewrite PC; reflexivity).
  unfold wstep. rewrite PC. destruct (q_cm (sh_q s)) as [|p ps] eqn:QC; [apply (wsleep n); auto; unfold wblocked; rewrite PC; exact QC|]. rewrite SE.
  pose proof (ci_q _ _ _ _ C) as Q. pose proof (qi_tc _ _ _ _ Q) as FC. rewrite QC in FC. apply Forall_cons_iff in FC. destruct FC as (PO & FC). pose proof PO as (_ & _ & PH).
  destruct w as [[c d sl dn] buf mn pc st]. cbn [tw_w tw_buf tw_pc wk_c wk_dec wk_slice wk_done] in *. subst pc dn.
  assert (H0 : has_speeds (k_pm c) = false) by (unfold wants_map in WM; destruct (k_st c); try discriminate WM; apply negb_true_iff, WM).
  apply (wmove (S n)).
  - apply (CI_worker n (S n) s _ _ _ t C); cbn [tw_set_w tw_w sh_set_q sh_q wk_slice wk_set_c].
    + destruct Q as [Q1 Q2 Q3 Q4 Q5 Q6 Q7 Q8 Q9 Q10 Q11]. rewrite QC in Q6. cbn [length] in Q6. constructor; cbn [q_set_cm q_data q_rdata q_res q_cm q_rcm]; try assumption. lia.
    + reflexivity.
    + auto.
    + destruct CW as [CW1 CW2 CW3]. constructor; cbn [tw_set_w tw_pc sh_set_q sh_failed sh_err sh_q q_set_cm q_eof tw_w tw_buf]; [discriminate| |exact CW3]. intros _. split; [exact SF|]. split; [exact SE|].
      destruct K as [(P & K1) K2 K3]. split; [constructor; cbn [wk_set_c wk_c wk_dec wk_slice] in *; try assumption; exists p; exact (map_worker c P p K1 PO)|].
      split; [|split; [exact FB|unfold wpc_ok; cbn [tw_set_w tw_pc tw_w tw_buf]; auto]]. unfold toks, hs in *. cbn [wk_c wk_set_c kset_pm k_pm k_st] in *. rewrite PH. rewrite H0 in TK. lia.
  - reflexivity.
  - reflexivity.
  - rewrite !BW_eq by reflexivity. cbn [rankW sh_set_q sh_q tw_pc tw_buf tw_w tw_set_w]. change (BQ (q_set_cm (sh_q s) ps)) with (BQ (sh_q s)). change (wk_set_c (WK c d sl false) (kset_pm c p (k_st c))) with (WK (kset_pm c p (k_st c)) d sl false). rewrite !U_eq. cbn [wk_c wk_dec wk_slice wk_done kset_pm k_st k_pm]. unfold hs. rewrite PH, H0. lia.
  - auto.
Qed.
Lemma results_any n s w t k pm (sent : bool) s0 w0 : CI n s w t -> tw_pc w = WPush k pm -> (k = KPull -> zlen (mem (wk_slice (tw_w w))) = 0) -> sh_waiters s = sh_waiters s0 ->
  (if sent then BW w + BQ (sh_q s) < BW w0 + BQ (sh_q s0) else s = s0 /\ BW w = BW w0) ->
  wout s0 w0 t (push_results s w k pm sent).
Proof.
  intros C PC MK WT SN. pose proof (ci_w _ _ _ _ C) as CW. pose proof (cw_ok _ _ _ _ CW ltac:(rewrite PC; exact Logic.I)) as (SF & SE & K & TK & FB & WP). unfold wpc_ok in WP. rewrite PC in WP. destruct WP as (DN & LB & PMO & KO).
  assert (EN : ended w = false) by (unfold ended; rewrite PC; reflexivity).
  assert (QE : q_eof (sh_q s) = false) by (rewrite (cw_eof _ _ _ _ CW) by (rewrite PC; exact Logic.I); rewrite PC; reflexivity).
  pose proof (ci_q _ _ _ _ C) as Q. pose proof (qi_tok _ _ _ _ Q) as QT.
  assert (NT : notify s = notify s0) by (unfold notify; rewrite WT; reflexivity).
  assert (LEQ : BW w + BQ (sh_q s) <= BW w0 + BQ (sh_q s0)) by (destruct sent; [lia|destruct SN as (-> & ->); lia]).
  unfold push_results. cbn zeta. rewrite SF, SE, QE. cbn [negb orb].
  destruct (Z.leb_spec (zlen (tw_buf w)) (NUM_BUFFERED - zlen (q_res (sh_q s)))) as [FIT|FUL].
  2:{ exists (sh_wait s 1), (tw_sleep w), (sent && notify s), n. split; [reflexivity|]. split.
      - destruct C as [C1 C2 C3 C4 C5 C6 C7 C8 C9 C10 [C11 C12 C13]]. constructor; try assumption. constructor; assumption.
      - change (BW (tw_sleep w)) with (BW w). change (sh_q (sh_wait s 1)) with (sh_q s). split; [right; split; [reflexivity|]; split; [cbn [sh_wait sh_waiters]; rewrite WT; reflexivity|]; split; [unfold wblocked; cbn [tw_sleep tw_pc]; rewrite PC; right; exact FUL|]; split; [exact EN|exact LEQ]|].
        destruct sent; cbn [andb]; [split; [intros _; exact SN|intros _; right; exact NT]|]. split; [discriminate|]. destruct SN as (-> & _). auto. }
  assert (TS : has_speeds (snd (q_rcm (sh_q s))) = false) by apply Q. rewrite TS.
  assert (RC : exists rcm, match pm with Some p => if has_speeds (fst (q_rcm (sh_q s))) then (fst (q_rcm (sh_q s)), p) else (p, snd (q_rcm (sh_q s))) | None => q_rcm (sh_q s) end = rcm /\
     has_speeds (fst rcm) = Nat.eqb (cpm (q_res (sh_q s) ++ tw_buf w)) 1 /\ (has_speeds (fst rcm) = true -> pm_ok D (fst rcm)) /\ has_speeds (snd rcm) = false).
  { eexists. split; [reflexivity|]. rewrite cpm_app. destruct Q as [Q1 Q2 Q3 Q4 Q5 Q6 Q7 Q8 Q9 Q10 Q11]. destruct pm as [p|].
    - destruct PMO as (_ & PO & C1). assert (Z0 : cpm (q_res (sh_q s)) = 0%nat) by lia. rewrite Q7, Z0, C1. change (0 =? 1)%nat with false. cbn iota. cbn [fst snd]. split; [apply PO|]. split; [auto|exact TS].
    - rewrite PMO, Nat.add_0_r. auto. }
  destruct RC as (rcm & -> & R1 & R2 & R3).
  assert (AS : match pm with Some _ => negb false | None => true end = true) by (destruct pm; reflexivity). rewrite AS. unfold assert. cbn iota.
  set (ends := match k with KEof => true | _ => false end).
  set (pc' := match k with KRun => WRun | KEof => WDone | KPull => WPull end).
  set (mn := if zlen (q_res (sh_q s)) <=? 16 then Z.max (tw_min w / 2) 4 else tw_min w).
  rewrite andb_true_r.
  assert (LT : BW (TW (WK (wk_c (tw_w w)) (wk_dec (tw_w w)) (wk_slice (tw_w w)) ends) [] mn pc' Awake) + BQ (SQ (q_data (sh_q s)) (q_cm (sh_q s)) (q_res (sh_q s) ++ tw_buf w) (q_rdata (sh_q s)) rcm ends) < BW w + BQ (sh_q s)).
  { rewrite (BW_eq w EN), PC. unfold BQ. cbn [q_res q_rdata q_data]. rewrite zlen_app. pose proof (zlen_nonneg (tw_buf w)) as BN.
    destruct k; unfold pc'.
    - rewrite BW_eq by reflexivity. cbn [tw_w tw_buf tw_pc rankW]. change (U (WK (wk_c (tw_w w)) (wk_dec (tw_w w)) (wk_slice (tw_w w)) ends)) with (U (tw_w w)). change (zlen (@nil command)) with 0. lia.
    - rewrite BW_end by reflexivity. pose proof (U_pos D (tw_w w) K DN ltac:(lia)). cbn [rankW]. lia.
    - rewrite BW_eq by reflexivity. cbn [tw_w tw_buf tw_pc rankW]. change (U (WK (wk_c (tw_w w)) (wk_dec (tw_w w)) (wk_slice (tw_w w)) ends)) with (U (tw_w w)). change (zlen (@nil command)) with 0. lia. }
  exists (sh_set_q s (SQ (q_data (sh_q s)) (q_cm (sh_q s)) (q_res (sh_q s) ++ tw_buf w) (q_rdata (sh_q s)) rcm ends)), (TW (WK (wk_c (tw_w w)) (wk_dec (tw_w w)) (wk_slice (tw_w w)) ends) [] mn pc' Awake), (notify s), (n - cpm (tw_buf w))%nat.
  split; [reflexivity|]. split; [|split; [left; split; [reflexivity|]; split; [exact WT|]; cbn [sh_set_q sh_q]; lia|split; [intros _; cbn [sh_set_q sh_q]; lia|intros _; right; exact NT]]].
  apply (CI_worker n _ s _ w _ t C); cbn [tw_w sh_set_q sh_q wk_slice].
  - destruct Q as [Q1 Q2 Q3 Q4 Q5 Q6 Q7 Q8 Q9 Q10 Q11]. constructor; cbn [q_data q_rdata q_res q_cm q_rcm]; try assumption; [rewrite zlen_app; lia|rewrite cpm_app; lia|apply Forall_app; auto].
  - reflexivity.
  - cbn [q_eof]. rewrite QE. discriminate.
  - constructor; cbn [tw_pc sh_set_q sh_failed sh_err sh_q q_eof tw_w tw_buf].
    + unfold pc'. destruct k; discriminate.
    + intros _. split; [exact SF|]. split; [exact SE|]. split; [destruct K as [K1 K2 K3]; constructor; assumption|]. unfold toks in *. cbn [wk_c cpm]. split; [lia|]. split; [apply Forall_nil|].
      unfold wpc_ok, pc', ends. cbn [tw_pc tw_w tw_buf]. change (zlen (@nil command)) with 0. unfold NUM_BUFFERED. destruct k; cbn [wk_done cpm]; [|exact Logic.I|]; (split; [reflexivity|]); (split; [lia|]); [reflexivity|]. split; [reflexivity|]. split; [exact KO|]. cbn [wk_slice]. auto.
    + intros _. unfold pc', ends. destruct k; reflexivity.
Qed.
Lemma step_push n s w t k pm : CI n s w t -> tw_pc w = WPush k pm -> wout s w t (wstep wl D s w).
Proof.
  intros C PC. pose proof (ci_w _ _ _ _ C) as CW. pose proof (cw_ok _ _ _ _ CW ltac:(rewrite PC; exact Logic.I)) as (SF & SE & K & TK & FB & WP). unfold wpc_ok in WP. rewrite PC in WP. destruct WP as (DN & LB & PMO & KO).
  assert (EN : ended w = false) by (unfold ended; rewrite PC; reflexivity).
  unfold wstep. rewrite PC. unfold force_push, send_back. rewrite SE.
  assert (PLAIN : (k = KPull -> zlen (mem (wk_slice (tw_w w))) = 0) -> wout s w t (push_results s (TW (tw_w w) (tw_buf w) (tw_min w) (tw_pc w) (tw_st w)) k pm false)).
  { intros MK. apply (results_any n); auto; destruct w; auto. }
  destruct k; try (apply PLAIN; discriminate).
  destruct (Z.eqb_spec (zlen (mem (wk_slice (tw_w w)))) 0) as [M0|M0]; cbn [negb]; [apply PLAIN; auto|]. clear PLAIN.
  destruct (Z.ltb_spec (zlen (q_rdata (sh_q s))) 2) as [L2|L2].
  - assert (pm = None) as -> by (destruct pm as [p|]; [|reflexivity]; destruct PMO as (X & _); discriminate X).
    destruct w as [[c d sl dn] buf mn pc st]. cbn [tw_w tw_buf tw_pc tw_min tw_st wk_c wk_dec wk_slice wk_done] in *. subst pc dn.
    assert (S0 : zlen (mb_data sl) = 0).
    { unfold starving in KO. cbn [wk_slice] in KO. apply andb_true_iff in KO. destruct KO as (_ & ST). apply Z.eqb_eq, ST. }
    apply (results_any n).
    + apply (CI_worker n n s _ _ _ t C); cbn [tw_w sh_set_q sh_q wk_slice].
      * destruct (ci_q _ _ _ _ C) as [Q1 Q2 Q3 Q4 Q5 Q6 Q7 Q8 Q9 Q10 Q11]. constructor; cbn [q_set_rdata q_data q_rdata q_res q_cm q_rcm]; try assumption; [apply bok_empty|]. rewrite zlen_app. change (zlen [sl]) with 1. lia.
      * unfold held. cbn [wk_slice q_set_rdata q_data q_rdata]. rewrite zlen_app. change (zlen [sl]) with 1. change (zlen (mem mb_empty) =? 0) with true. destruct (Z.eqb_spec (zlen (mem sl)) 0); [contradiction|]. lia.
      * auto.
      * destruct CW as [CW1 CW2 CW3]. constructor; cbn [tw_pc sh_set_q sh_failed sh_err sh_q q_set_rdata q_eof tw_w tw_buf]; [discriminate| |exact CW3]. intros _. split; [exact SF|]. split; [exact SE|].
        split; [destruct K as [K1 K2 K3]; constructor; cbn [wk_c wk_dec wk_slice] in *; try assumption; apply bok_empty|]. split; [exact TK|]. split; [exact FB|]. unfold wpc_ok. cbn [tw_pc tw_w tw_buf wk_done]. split; [reflexivity|]. split; [exact LB|]. split; [exact PMO|].
        unfold starving in *. cbn [wk_slice wk_c wk_dec] in *. apply andb_true_iff in KO. destruct KO as (KO & _). rewrite KO. reflexivity.
    + reflexivity.
    + intros _. reflexivity.
    + reflexivity.
    + rewrite !BW_eq by reflexivity. cbn [tw_w tw_buf tw_pc sh_set_q sh_q]. unfold BQ. cbn [q_set_rdata q_data q_rdata q_res]. rewrite !U_eq, zlen_app, S0. change (zlen [sl]) with 1. change (zlen (mem mb_empty) =? 0) with true. change (zlen (mb_data mb_empty)) with 0. destruct (Z.eqb_spec (zlen (mem sl)) 0); [contradiction|]. cbn iota. lia.
  - assert (TE : TW (tw_w w) (tw_buf w) (tw_min w) (tw_pc w) (tw_st w) = w) by (destruct w; reflexivity). rewrite TE. apply (wsleep n); auto. unfold wblocked. rewrite PC. left. split; [reflexivity|]. pose proof (qi_rdata2 _ _ _ _ (ci_q _ _ _ _ C)). lia.
Qed.
Lemma wstep_any n s w t : CI n s w t -> ended w = false -> (tw_pc w = WRun -> w_danger wl D (tw_w w) squeue_new = None) -> wout s w t (wstep wl D s w).
Proof.
  intros C EN HD. destruct (tw_pc w) as [|k pm| | | |] eqn:PC.
  - apply (step_run n); auto.
  - apply (step_push n s w t k pm); auto.
  - apply (step_pull n); auto.
  - apply (step_map n); auto.
  - unfold ended in EN. rewrite PC in EN. discriminate.
  - unfold ended in EN. rewrite PC in EN. discriminate.
Qed.
End Inv.
