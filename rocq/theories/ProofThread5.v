(** Two threads: sessions under every schedule. *)
From Verif Require ProofRecode3.
From Verif Require Import Prelude ProofList ModelAns SpecAns ModelCdf SpecCdf ModelRecode SpecLz ProofRecode ProofRecode2 ProofAns ProofAnsRt ProofAnsDec ThmCdf ModelMux SpecMux ProofZlist ProofMux ProofMuxR ModelCmd ModelCrc SpecCrc ProofCrc ModelHeader SpecHeader ProofHeader ModelPriors ModelCodec ModelLit ModelPm ModelTop SpecCodec SpecReplay SpecFile ModelEnc ProofSim ModelDec SpecEnc SpecDec ProofDec1 ProofDec2 ProofDec3 ProofDec4 ProofDec5 ProofDec6 ProofDec7 ModelThread SpecThread ProofThread1 ProofThread2 ProofThread3 ProofThread4.

Definition mainable (s : tsess) : bool :=
  match ts_call s, ts_d s with
  | None, _ => match ts_calls s with [] => false | _ => true end
  | Some _, PDecode x => runm x
  | Some _, PHeader _ => false
  end.
Definition workable (s : tsess) : bool := match ts_d s with PDecode x => runw x | PHeader _ => false end.
Definition spur (e : event) : Z := match e with WakeMain | WakeWorker => 1 | _ => 0 end.
Lemma spurious_cons e l : spurious (e :: l) = spur e + spurious l.
Proof. unfold spurious. destruct e; cbn [filter spur]; rewrite ?zlen_cons; lia. Qed.

Section Sess.
Context (dict : dict_fn) (wl : word_len_fn) (D : dims) (skip : bool) (ws : Z) (WS : 10 <= ws <= 24).
Notation wlen := (2 ^ ws).
Context (W Tr out : list Z) (N : nat) (TRE : Tr = trailer (crc32c 0 (make_header ws ++ W))).
Notation hf := (window ws ++ out).
Notation TV := (tv dict wl D wlen skip Tr hf).
Context (START : starts dict wl D skip ws W Tr out N).
Notation T := (make_header ws ++ W ++ Tr).
Context (BTT : bytes T) (tail : list Z) (BT : bytes tail) (all : list (list Z * Z)) (future : list Z) (EI : offered all ++ future = T ++ tail) (RM : Forall (fun c => 0 <= snd c) all).
Definition N0 : Z := 40 * Z.of_nat N + 100.

Definition late (done : list (list Z * Z)) (o : list Z) : Prop :=
  forall c1 c2 x, done = c1 ++ c2 -> offered c1 = T ++ x -> Forall (fun c => 1 <= snd c) c2 -> zlen c2 <= zlen o.
Definition idle (m : mthread) : Prop := in_call m = false /\ tm_st m = Awake.
Record wtv (P : Z) (R e : list Z) (x : world) : Prop := {
  wt_v : exists n pw ci ces outsW pa pb les, TV n pw ci ces outsW pa pb les R e (wd_sh x) (wd_w x) (wd_m x) /\ meas n pw pa (wd_sh x) (wd_w x) (wd_m x) <= P }.
Definition tinv (s : tsess) (P : Z) : Prop :=
  ts_v s = Waiting /\ exists done c0 rest, all = done ++ ts_calls s /\ T = c0 ++ rest /\
  match ts_call s with
  | None => offered done = c0 ++ ts_rest s /\ late done (ts_out s) /\
      match ts_d s with
      | PHeader h => (exists seen x, hp_inv h seen /\ make_header ws = seen ++ x /\ rest = x ++ W ++ Tr) /\ ts_out s = [] /\ N0 + 10 * zlen (ts_calls s) <= P
      | PDecode x => exists R, rest = rem Tr R (tm_m (wd_m x)) /\ wtv (P - 10 * zlen (ts_calls s)) R (window ws ++ ts_out s) x /\ idle (wd_m x) /\ (tm_pc (wd_m x) = MRet DNeedIn -> rest <> []) /\ (rest <> [] -> ts_rest s = [])
      end
  | Some (input, room) =>
      match ts_d s with
      | PHeader _ => False
      | PDecode x =>
          let m := wd_m x in
          exists R pre, rest = rem Tr R (tm_m m) /\ wtv (P - 10 * zlen (ts_calls s)) R (window ws ++ ts_out s ++ tm_out m) x /\
            mi Tr hf (offered (ts_calls s) ++ future) tail R (window ws ++ ts_out s ++ tm_out m) m /\
            input = pre ++ tm_in m /\ tm_n m = zlen pre /\ room = tm_room m + zlen (tm_out m) /\ in_call m = true /\
            (exists dn p, done = dn ++ [(p, room)] /\ late dn (ts_out s)) /\ offered done = c0 ++ tm_in m
      end
  end.
Definition tfin (s : tsess) : Prop :=
  ts_v s = Finished /\ ts_out s = out /\ ts_call s = None /\ offered all = T ++ ts_rest s ++ offered (ts_calls s) /\
  match ts_d s with PHeader _ => False | PDecode x => ended (wd_w x) = true /\ in_call (wd_m x) = false end.

(** the state after success, from which another call may start *)
Definition tlast (s : tsess) (P : Z) : Prop :=
  match ts_d s with
  | PHeader _ => False
  | PDecode x => exists R, rem Tr R (tm_m (wd_m x)) = [] /\ wtv (P - 10 * zlen (ts_calls s)) R (window ws ++ ts_out s) x /\ idle (wd_m x) /\ tm_pc (wd_m x) = MRet DSuccess
  end.

Lemma offered_app a b : offered (a ++ b) = offered a ++ offered b.
Proof. unfold offered. rewrite map_app, concat_app. reflexivity. Qed.
Lemma P1 : 1024 <= wlen.
Proof. change 1024 with (2 ^ 10). apply Z.pow_le_mono_r; lia. Qed.
Lemma phi_nonneg n pw pa q w m : 0 <= phi n pw pa q w m.
Proof.
  unfold phi. pose proof (zlen_nonneg (mb_data (buf0 (m_mux (tm_m m))))). pose proof (zlen_nonneg pa). pose proof (zlen_nonneg (mb_data (wk_slice (tw_w w)))). pose proof (zlen_nonneg (qbytes q)). pose proof (zlen_nonneg (q_data q)).
  pose proof (zlen_nonneg (q_rdata q)). pose proof (zlen_nonneg (back m)). pose proof (zlen_nonneg (tw_buf w)). pose proof (zlen_nonneg (q_res q)). pose proof (zlen_nonneg (m_cmds (tm_m m))).
  assert (0 <= Z.of_nat (hs pw) <= 1) by (unfold hs; destruct (has_speeds pw); cbn; lia).
  assert (0 <= pcw w) by (unfold pcw; destruct (tw_pc w); lia). assert (0 <= pcm m) by (unfold pcm; destruct (tm_pc m); lia).
  clear - H H0 H1 H2 H3 H4 H5 H6 H7 H8 H9 H10 H11. destruct (_ =? 0), (m_eof (tm_m m)); lia.
Qed.
Lemma meas_nonneg n pw pa s w m : 0 <= meas n pw pa s w m.
Proof.
  pose proof (phi_nonneg n pw pa (sh_q s) w m) as H1. pose proof (awk_le (tw_st w)) as H2. pose proof (awk_le (tm_st m)) as H3. unfold meas.
  revert H1 H2 H3. clear. generalize (phi n pw pa (sh_q s) w m), (awk (tw_st w)), (awk (tm_st m)). lia.
Qed.
Lemma wtv_nonneg P R e x : wtv P R e x -> 0 <= P.
Proof.
  intros [(n & pw & ci & ces & outsW & pa & pb & les & _ & H)]. exact (Z.le_trans _ _ _ (meas_nonneg _ _ _ _ _ _) H).
Qed.
Lemma tinv_nonneg s P : tinv s P -> 0 <= P.
Proof.
  intros (_ & done & c0 & rest & _ & _ & H). pose proof (zlen_nonneg (ts_calls s)).
  destruct (ts_call s) as [[input room]|].
  - destruct (ts_d s); [contradiction H|]. destruct H as (R & pre & _ & X & _). apply wtv_nonneg in X. lia.
  - destruct H as (_ & _ & H2). destruct (ts_d s); [destruct H2 as (_ & _ & X); unfold N0 in X; lia|]. destruct H2 as (R & _ & X & _). apply wtv_nonneg in X. lia.
Qed.

(** a call starts *)
Lemma meas_begin n pw pa s w m rr i c o r i2 c2 o2 r2 : meas n pw pa s w (TM m MIn Awake i2 c2 o2 r2) = meas n pw pa s w (TM m (MRet rr) Awake i c o r) + 8.
Proof.
  unfold meas, phi, back, pcm. cbn [tm_m tm_pc tm_st]. change (zlen (@nil mbuf)) with 0. clear.
  match goal with |- 2 * (?a + 4) + ?b + ?c = _ => generalize a, b, c end. intros; lia.
Qed.
Lemma tv_begin P R e x input room n : wtv P R e x -> idle (wd_m x) ->
  wtv (P + 8) R e (WD (wd_sh x) (wd_w x) (TM (tm_m (wd_m x)) MIn Awake input n [] room)).
Proof.
  intros [(n1 & pw & ci & ces & outsW & pa & pb & les & V & ME)] (IC & AW). constructor. exists n1, pw, ci, ces, outsW, pa, pb, les. destruct x as [s w m]. cbn [wd_sh wd_w wd_m] in *.
  destruct m as [m pc st i c o r]. cbn [tm_st] in AW. subst st. destruct pc as [rr| | | | | |]; try discriminate IC. destruct V as [C M E WT S1 S2]. destruct C as [C1 C2 C3 C4 C5 C6]. split.
  - constructor; try assumption; try exact Logic.I; try discriminate. constructor; assumption.
  - rewrite (meas_begin _ _ _ _ _ _ rr i c o r). apply Z.add_le_mono_r. exact ME.
Qed.
(** the start, once the header is read *)
Lemma wtv_new pc input n room : (pc = MIn \/ exists r, pc = MRet r) -> wtv (N0 - 10) W (window ws ++ []) (world_new D skip (make_header ws) ws pc input n room).
Proof.
  intros PC. destruct START as (n1 & pw & ci & ces & outsW & pa & pb & les & PV & CO). constructor. exists n1, pw, ci, ces, outsW, pa, pb, les. rewrite app_nil_r. unfold world_new. cbn [wd_sh wd_w wd_m].
  pose proof PV as [SV _ _ _ _]. pose proof SV as [WV _ _ _ _ _ _].
  set (m0 := main_new (if skip then 0 else crc32c_update 0 (make_header ws)) ws) in *.
  assert (BK : back (TM m0 pc Awake input n [] room) = [] /\ amap (TM m0 pc Awake input n [] room) = []) by (destruct PC as [-> |(r & ->)]; split; reflexivity).
  destruct BK as (BK & AK). split.
  - constructor.
    + constructor; try reflexivity.
      * unfold aq. rewrite (am_same _ BK), AK. exact PV.
      * change (zlen (@nil command)) with 0. change (0 <= NUM_BUFFERED). unfold NUM_BUFFERED. lia.
      * split; [reflexivity|]. cbn [wthread_new tw_pc tw_buf]. change (zlen (@nil command)) with 0. unfold NUM_BUFFERED. lia.
    + unfold mpc_ok. cbn [tm_pc]. destruct PC as [-> |(r & ->)]; exact Logic.I.
    + split; reflexivity.
    + reflexivity.
    + discriminate.
    + discriminate.
  - unfold meas, phi. rewrite BK. cbn [tm_m wthread_new tw_w tw_buf tw_st tm_st awk]. change (q_data (sh_q shared_new)) with (@nil mbuf). change (q_rdata (sh_q shared_new)) with (@nil mbuf). change (q_res (sh_q shared_new)) with (@nil command). change (qbytes (sh_q shared_new)) with (@nil Z).
    change (m_cmds m0) with (@nil command). change (m_eof m0) with false. change (buf0 (m_mux m0)) with mb_empty. change (wk_slice (worker_new D)) with mb_empty. change (mb_data mb_empty) with (@nil Z). change (mem mb_empty) with (@nil Z).
    change (zlen (@nil Z)) with 0. change (zlen (@nil mbuf)) with 0. change (zlen (@nil command)) with 0. change (0 =? 0) with true.
    assert (pcm (TM m0 pc Awake input n [] room) <= 4) by (destruct PC as [-> |(r & ->)]; cbn; lia).
    unfold N0. unfold cost, tot in CO. change (buf0 (m_mux m0)) with mb_empty in CO. change (wk_slice (worker_new D)) with mb_empty in CO. change (mb_data mb_empty) with (@nil Z) in CO. change (qbytes squeue_new) with (@nil Z) in CO. cbn [length] in CO. unfold zlen. assert (0 <= Z.of_nat (hs pw)) by lia. change (pcw (wthread_new D)) with 3. cbn [app] in CO. clear - CO H H0. lia.
Qed.

Lemma late_snoc_in done c0 rest o : T = c0 ++ rest -> rest <> [] -> offered done = c0 -> late done o.
Proof.
  intros ET NR OD c1 c2 x E1 E2 _. exfalso. rewrite E1, offered_app, E2 in OD. rewrite <- OD, <- !app_assoc in ET. apply (f_equal (@length Z)) in ET. rewrite !app_length in ET. destruct rest; [contradiction NR; reflexivity|cbn [length] in ET; lia].
Qed.
Lemma late_snoc_out dn p room o o2 : late dn o -> zlen o2 = room -> late (dn ++ [(p, room)]) (o ++ o2).
Proof.
  intros L ZO c1 c2 x E1 E2 R1. rewrite zlen_app. pose proof (zlen_nonneg o). pose proof (zlen_nonneg o2). destruct c2 as [|y c2 _] using rev_ind; [change (zlen (@nil (list Z * Z))) with 0; lia|].
  rewrite app_assoc in E1. apply app_inj_tail in E1. destruct E1 as (E1 & <-). apply Forall_app in R1. destruct R1 as (R1 & R2). apply Forall_cons_iff in R2. destruct R2 as (R2 & _). cbn [snd] in R2.
  rewrite zlen_app. change (zlen [(p, room)]) with 1. pose proof (L c1 c2 x E1 E2 R1). lia.
Qed.
Lemma eq_rest done c0 rest cin calls : all = done ++ calls -> T = c0 ++ rest -> offered done = c0 ++ cin -> cin ++ offered calls ++ future = rest ++ tail /\ bytes cin /\ bytes rest.
Proof.
  intros EA ET ED. pose proof EI as X. rewrite EA, offered_app, ED, ET, <- !app_assoc in X. apply app_inv_head in X. split; [exact X|].
  assert (B2 : bytes rest) by (pose proof BTT as B; rewrite ET in B; apply Forall_app in B; apply B). split; [|exact B2].
  assert (B : bytes (cin ++ offered calls ++ future)) by (rewrite X; apply Forall_app; auto). apply Forall_app in B. apply B.
Qed.
Lemma rooms done calls p room : all = done ++ (p, room) :: calls -> 0 <= room.
Proof. intros E. pose proof RM as R. rewrite E in R. apply Forall_app in R. destruct R as (_ & R). apply Forall_cons_iff in R. apply R. Qed.

(** the next call begins *)
Lemma begin_good s P piece room calls : tinv s P -> ts_call s = None -> ts_calls s = (piece, room) :: calls ->
  exists s', tevent dict wl D skip ByMain s = Some s' /\ tinv s' (P - 1) /\ (workable s = true -> workable s' = true).
Proof.
  intros (VS & done & c0 & rest & EA & ET & H) CA EC. unfold tevent. rewrite VS, CA, EC. rewrite CA in H. destruct H as (ED & LT & HD). rewrite EC in *.
  pose proof (rooms _ _ _ _ EA) as R0. assert (EA2 : all = (done ++ [(piece, room)]) ++ calls) by (rewrite EA, <- app_assoc; reflexivity).
  assert (ED2 : offered (done ++ [(piece, room)]) = c0 ++ ts_rest s ++ piece) by (rewrite offered_app, ED; unfold offered at 1; cbn [map fst concat]; rewrite app_nil_r, <- app_assoc; reflexivity).
  set (input := ts_rest s ++ piece) in *. destruct (eq_rest _ _ _ _ _ EA2 ET ED2) as (EI2 & BI & BR). rewrite zlen_cons in HD.
  destruct (ts_d s) as [h|x] eqn:TD; cbn [begin_call].
  2:{ destruct HD as (R & -> & WT & ID & _). eexists. split; [reflexivity|]. split; [|unfold workable; rewrite TD; unfold runw; cbn [ts_d wd_w]; auto]. split; [reflexivity|]. exists (done ++ [(piece, room)]), c0, (rem Tr R (tm_m (wd_m x))). cbn [ts_calls ts_call ts_d ts_out wd_m tm_m tm_out tm_in tm_n tm_room in_call tm_pc]. split; [exact EA2|]. split; [exact ET|].
      exists R, []. split; [reflexivity|]. rewrite app_nil_r. split; [|split; [|split; [reflexivity|split; [reflexivity|split; [change (zlen (@nil Z)) with 0; lia|split; [reflexivity|split; [exists done, piece; auto|exact ED2]]]]]]].
      - pose proof (tv_begin _ _ _ _ input room 0 WT ID) as [X]. constructor. destruct X as (n & pw & ci & ces & outsW & pa & pb & les & V & ME). exists n, pw, ci, ces, outsW, pa, pb, les. split; [exact V|]. clear - ME. lia.
      - constructor; cbn [tm_in tm_pc tm_room tm_m]; auto. intros X. contradiction X. reflexivity. }
  destruct HD as ((seen & x & (L & OFF & LS & FS) & HE & ->) & O0 & NP). rewrite O0 in *.
  assert (LX : (length x = 16 - length seen)%nat) by (pose proof (make_header_length ws) as H; rewrite HE, app_length in H; lia).
  assert (TL : forall y, y ++ W ++ Tr <> []) by (intros y X; apply (f_equal (@length Z)) in X; rewrite !app_length, (Tr_len ws W Tr TRE) in X; cbn [length] in X; lia).
  unfold hp_decode. rewrite L, OFF. rewrite <- LX. rewrite <- app_assoc in EI2.
  assert (WK : workable s = false) by (unfold workable; rewrite TD; reflexivity).
  destruct (Nat.leb_spec (length x) (length input)) as [GE|LTT].
  - assert (FI : firstn (length x) input = x).
    { transitivity (firstn (length x) (input ++ offered calls ++ future)); [rewrite firstn_app; replace (length x - length input)%nat with 0%nat by lia; cbn [firstn]; rewrite app_nil_r; reflexivity|].
      rewrite EI2, firstn_app, firstn_all, Nat.sub_diag. apply app_nil_r. }
    assert (INX : input = x ++ skipn (length x) input) by (pose proof (firstn_skipn (length x) input) as Y; rewrite FI in Y; symmetry; exact Y). set (input2 := skipn (length x) input) in *.
    rewrite FI. destruct (overwrite_app (hp_header h) seen x L FS ltac:(lia)) as (L2 & F2).
    assert (OV : overwrite (hp_header h) (length seen) x = make_header ws).
    { rewrite HE, <- F2. symmetry. apply firstn_all2. rewrite app_length. lia. }
    rewrite OV. change (hp_header {| hp_header := make_header ws; hp_read_offset := length seen |}) with (make_header ws). rewrite (make_header_parse ws WS). change (hp_header {| hp_header := make_header ws; hp_read_offset := length seen |}) with (make_header ws).
    assert (EI3 : input2 ++ offered calls ++ future = (W ++ Tr) ++ tail) by (rewrite INX, <- !app_assoc in EI2; apply app_inv_head in EI2; rewrite <- app_assoc; exact EI2).
    assert (ZX : Z.of_nat (length x) = zlen x) by reflexivity. rewrite ZX. clearbody input2.
    assert (Z1 : zlen input = zlen x + zlen input2) by (rewrite INX, zlen_app; reflexivity). assert (Z2 : zskip (zlen x) input = input2) by (rewrite INX; apply zskip_pre). rewrite Z2.
    assert (B2 : bytes input2) by (rewrite INX in BI; apply Forall_app in BI; apply BI).
    assert (ET2 : T = (c0 ++ x) ++ W ++ Tr) by (rewrite ET, <- app_assoc; reflexivity).
    destruct (Z.ltb_spec (zlen x) (zlen input)) as [GT|LE].
    + eexists. split; [reflexivity|]. split; [|congruence]. split; [reflexivity|]. exists (done ++ [(piece, room)]), (c0 ++ x), (W ++ Tr). unfold world_new. cbn [ts_calls ts_call ts_d ts_out wd_m tm_m tm_out tm_in tm_n tm_room in_call tm_pc]. split; [exact EA2|]. split; [exact ET2|].
      exists W, x. split; [reflexivity|]. rewrite !app_nil_r. split; [|split; [|split; [exact INX|split; [reflexivity|split; [change (zlen (@nil Z)) with 0; lia|split; [reflexivity|split; [exists done, piece; auto|rewrite ED2, INX, <- app_assoc; reflexivity]]]]]]].
      * destruct (wtv_new MIn input2 (zlen x) room (or_introl eq_refl)) as [X]. constructor. rewrite app_nil_r in X. destruct X as (n & pw & ci & ces & outsW & pa & pb & les & V & ME). exists n, pw, ci, ces, outsW, pa, pb, les. split; [exact V|]. unfold world_new in ME. clear - ME NP. lia.
      * constructor; cbn [tm_in tm_pc tm_room tm_m]; auto. intros X. contradiction X. reflexivity.
    + assert (I0 : input2 = []) by (apply zlen_nil_inv; pose proof (zlen_nonneg input2); lia). unfold returned. rewrite Z2, I0. change (zlen (@nil Z)) with 0. replace (room <? 0) with false by (symmetry; apply Z.ltb_ge; lia). pose proof (zlen_nonneg x).
      replace (zlen x <? 0) with false by (symmetry; apply Z.ltb_ge; lia). rewrite I0 in Z1. change (zlen (@nil Z)) with 0 in Z1. replace (zlen input <? zlen x) with false by (symmetry; apply Z.ltb_ge; lia). cbn [orb]. replace (zlen x <? zlen input) with false by (symmetry; apply Z.ltb_ge; lia).
      eexists. split; [reflexivity|]. split; [|congruence]. split; [reflexivity|]. exists (done ++ [(piece, room)]), (c0 ++ x), (W ++ Tr). unfold world_new. cbn [ts_calls ts_call ts_d ts_out ts_rest wd_m tm_m tm_out tm_in tm_n tm_room in_call tm_pc]. split; [exact EA2|]. split; [exact ET2|].
      assert (OD : offered (done ++ [(piece, room)]) = c0 ++ x) by (rewrite ED2, INX, I0, app_nil_r; reflexivity).
      split; [rewrite app_nil_r; exact OD|]. split; [apply (late_snoc_in _ _ _ _ ET2); [exact (TL [])|exact OD]|]. exists W. split; [reflexivity|]. split; [|split; [split; reflexivity|split; [intros _; exact (TL [])|reflexivity]]].
      destruct (wtv_new (MRet DNeedIn) [] (zlen x) room (or_intror (ex_intro _ _ eq_refl))) as [X]. constructor. destruct X as (n & pw & ci & ces & outsW & pa & pb & les & V & ME). exists n, pw, ci, ces, outsW, pa, pb, les. split; [exact V|]. unfold world_new in ME. clear - ME NP. lia.
  - assert (FX : input = firstn (length input) x).
    { transitivity (firstn (length input) (input ++ offered calls ++ future)); [rewrite firstn_app, firstn_all, Nat.sub_diag; cbn [firstn]; rewrite app_nil_r; reflexivity|].
      rewrite EI2, firstn_app. replace (length input - length x)%nat with 0%nat by lia. cbn [firstn]. apply app_nil_r. }
    assert (XE : x = input ++ skipn (length input) x) by (pose proof (firstn_skipn (length input) x) as Y; rewrite <- FX in Y; symmetry; exact Y). set (x2 := skipn (length input) x) in *.
    destruct (overwrite_app (hp_header h) seen input L FS ltac:(lia)) as (L2 & F2).
    unfold returned. change (Z.of_nat (length input)) with (zlen input). change (zlen (@nil Z)) with 0. replace (room <? 0) with false by (symmetry; apply Z.ltb_ge; lia). pose proof (zlen_nonneg input).
    replace (zlen input <? 0) with false by (symmetry; apply Z.ltb_ge; lia). replace (zlen input <? zlen input) with false by (symmetry; apply Z.ltb_ge; lia). cbn [orb].
    assert (ZS : zskip (zlen input) input = []) by (pose proof (zskip_pre input (@nil Z)) as X; rewrite app_nil_r in X; exact X). rewrite ZS.
    eexists. split; [reflexivity|]. split; [|congruence]. split; [reflexivity|].
    assert (ET2 : T = (c0 ++ input) ++ x2 ++ W ++ Tr) by (rewrite ET, XE, <- !app_assoc; reflexivity).
    exists (done ++ [(piece, room)]), (c0 ++ input), (x2 ++ W ++ Tr). cbn [ts_calls ts_call ts_d ts_out ts_rest]. split; [exact EA2|]. split; [exact ET2|]. split; [rewrite app_nil_r; exact ED2|].
    split; [apply (late_snoc_in _ _ _ _ ET2); [apply TL|exact ED2]|]. split; [|split; [reflexivity|lia]].
    exists (seen ++ input), x2. split; [|split; [rewrite HE, XE, <- app_assoc; reflexivity|reflexivity]].
    split; [exact L2|]. split; [cbn [hp_read_offset]; rewrite app_length; reflexivity|]. split; [rewrite app_length; lia|exact F2].
Qed.

Lemma runm_st x x' st : wd_m x' = tm_set_st (wd_m x) st -> st = tm_st (wd_m x) \/ st = wake (tm_st (wd_m x)) -> runm x = true -> runm x' = true.
Proof. clear. unfold runm. intros -> [-> | ->]; cbn [tm_set_st tm_st]; change (in_call (tm_set_st (wd_m x) (tm_st (wd_m x)))) with (in_call (wd_m x)); change (in_call (tm_set_st (wd_m x) (wake (tm_st (wd_m x))))) with (in_call (wd_m x)); destruct (tm_st (wd_m x)); auto; discriminate. Qed.
Lemma runw_st x x' st : wd_w x' = tw_set_st (wd_w x) st -> st = tw_st (wd_w x) \/ st = wake (tw_st (wd_w x)) -> runw x = true -> runw x' = true.
Proof. clear. unfold runw. intros -> [-> | ->]; cbn [tw_set_st tw_st]; change (ended (tw_set_st (wd_w x) (tw_st (wd_w x)))) with (ended (wd_w x)); change (ended (tw_set_st (wd_w x) (wake (tw_st (wd_w x))))) with (ended (wd_w x)); destruct (tw_st (wd_w x)); auto; discriminate. Qed.
Definition eff (e : event) (s : tsess) : Z := match e with ByMain => if mainable s then 1 else 0 | ByWorker => if workable s then 1 else 0 | _ => 0 end.
Definition goes (e : event) (s : tsess) (P : Z) (s' : tsess) : Prop :=
  (tfin s' /\ e = ByMain /\ exists P', tlast s' P' /\ P' + 1 <= P) \/ exists P', tinv s' P' /\ P' + eff e s <= P + spur e /\ (e <> ByMain -> mainable s = true -> mainable s' = true) /\ (e <> ByWorker -> workable s = true -> workable s' = true).
(** events other than a step of the main thread *)
Lemma other_step e x P R ee : e <> ByMain -> wtv P R ee x -> exists x', step dict wl D skip e x = Some x' /\ wtv (P + spur e - match e with ByWorker => if runw x then 1 else 0 | _ => 0 end) R ee x' /\
  (exists st, wd_m x' = tm_set_st (wd_m x) st /\ (st = tm_st (wd_m x) \/ st = wake (tm_st (wd_m x)))) /\ (e <> ByWorker -> runw x = true -> runw x' = true).
Proof.
  intros NE [(n & pw & ci & ces & outsW & pa & pb & les & V & ME)].
  destruct (match e with ByWorker => true | _ => false end) eqn:EW.
  - destruct e; try discriminate EW. destruct (step_worker dict wl D wlen skip Tr hf _ _ _ _ _ _ _ _ _ _ x V) as (x' & n' & pw' & ci' & ces' & outs' & E & V' & M & ME').
    exists x'. split; [exact E|]. split; [|split; [exact M|intros X; contradiction X; reflexivity]]. constructor. exists n', pw', ci', ces', outs', pa, pb, les. split; [exact V'|]. cbn [spur]. clear - ME ME'.
    revert ME ME'. generalize (meas n pw pa (wd_sh x) (wd_w x) (wd_m x)), (meas n' pw' pa (wd_sh x') (wd_w x') (wd_m x')). intros; lia.
  - destruct (step_spurious dict wl D wlen skip Tr hf _ _ _ _ _ _ _ _ _ _ x e V) as (x' & E & V' & M & (st & MW1 & MW2) & ME'); [destruct e; auto; [contradiction NE; reflexivity|discriminate EW]|].
    exists x'. split; [exact E|]. split; [|split; [exact M|intros _; exact (runw_st _ _ st MW1 MW2)]]. constructor. exists n, pw, ci, ces, outsW, pa, pb, les. split; [exact V'|].
    assert (SP : spur e = 1) by (destruct e; try reflexivity; [contradiction NE; reflexivity|discriminate EW]). rewrite SP. assert (ZZ : match e with ByWorker => if runw x then 1 else 0 | _ => 0 end = 0) by (destruct e; try reflexivity; discriminate EW). rewrite ZZ. clear - ME ME'.
    revert ME ME'. generalize (meas n pw pa (wd_sh x) (wd_w x) (wd_m x)), (meas n pw pa (wd_sh x') (wd_w x') (wd_m x')). intros; lia.
Qed.
Lemma wtv_weak P P' R e x : wtv P R e x -> P <= P' -> wtv P' R e x.
Proof. intros [(n & pw & ci & ces & outsW & pa & pb & les & V & ME)] L. constructor. exists n, pw, ci, ces, outsW, pa, pb, les. split; [exact V|]. exact (Z.le_trans _ _ _ ME L). Qed.
Lemma idle_st m st : idle m -> st = tm_st m \/ st = wake (tm_st m) -> idle (tm_set_st m st).
Proof. clear. intros (IC & AW) [-> | ->]; (split; [exact IC|]); cbn [tm_set_st tm_st]; rewrite AW; reflexivity. Qed.
Lemma other_good e s P : tinv s P -> e <> ByMain -> exists s', tevent dict wl D skip e s = Some s' /\ goes e s P s'.
Proof.
  intros TI NE. pose proof TI as (VS & done & c0 & rest & EA & ET & H).
  assert (TE : tevent dict wl D skip e s = match ts_d s with
     | PHeader _ => Some s
     | PDecode x => let? x := step dict wl D skip e x in
         match ts_call s, tm_pc (wd_m x) with
         | Some (input, room), MRet r => Some (returned (PDecode x) input room (ts_calls s) (ts_out s) (tm_n (wd_m x)) (tm_out (wd_m x)) r)
         | c, _ => Some (TS (PDecode x) c (ts_rest s) (ts_calls s) (ts_out s) Waiting)
         end end) by (unfold tevent; rewrite VS; destruct e; [contradiction NE; reflexivity| | |]; reflexivity).
  rewrite TE. clear TE.
  destruct (ts_d s) as [h|x] eqn:TD.
  { exists s. split; [reflexivity|]. right. exists P. split; [exact TI|]. split; [|auto]. assert (eff e s = 0) by (unfold eff, workable; rewrite TD; destruct e; try reflexivity; contradiction NE; reflexivity). destruct e; cbn [spur]; lia. }
  assert (EF : eff e s = match e with ByWorker => if runw x then 1 else 0 | _ => 0 end) by (unfold eff, workable; rewrite TD; destruct e; try reflexivity; contradiction NE; reflexivity).
  destruct (ts_call s) as [[input room]|] eqn:CA.
  - destruct H as (R & pre & RE & WT & MI & IN & TN & RO & IC & DN & OD).
    destruct (other_step e x _ _ _ NE WT) as (x' & -> & WT' & (st & MS & MS2) & RW). cbn [bind].
    assert (PC : tm_pc (wd_m x') = tm_pc (wd_m x)) by (rewrite MS; reflexivity). rewrite PC.
    assert (GO : goes e s P (TS (PDecode x') (Some (input, room)) (ts_rest s) (ts_calls s) (ts_out s) Waiting)).
    { right. exists (P + spur e - eff e s). split; [|split; [lia|split; [|intros NW; unfold workable; rewrite TD; cbn [ts_d]; auto]]].
      - split; [reflexivity|]. exists done, c0, rest. cbn [ts_calls ts_call ts_d ts_out]. split; [exact EA|]. split; [exact ET|]. rewrite MS. cbn [tm_set_st tm_m tm_out tm_in tm_n tm_room]. exists R, pre. split; [exact RE|]. split.
        + rewrite EF. eapply wtv_weak; [exact WT'|]. clear. lia.
        + split; [destruct MI as [A1 A2 A3 A4 A5]; constructor; assumption|]. split; [exact IN|]. split; [exact TN|]. split; [exact RO|]. split; [exact IC|]. split; [exact DN|exact OD].
      - intros _. unfold mainable. rewrite CA, TD. cbn [ts_call ts_d]. exact (runm_st _ _ st MS MS2). }
    unfold in_call in IC. destruct (tm_pc (wd_m x)); [discriminate IC| | | | | |]; eexists; (split; [reflexivity|exact GO]).
  - destruct H as (ED & LT & R & RE & WT & ID & NR).
    destruct (other_step e x _ _ _ NE WT) as (x' & -> & WT' & (st & MS & MS2) & RW). cbn [bind].
    eexists. split; [reflexivity|]. right. exists (P + spur e - eff e s). split; [|split; [lia|split; [|intros NW; unfold workable; rewrite TD; cbn [ts_d]; auto]]].
    + split; [reflexivity|]. exists done, c0, rest. cbn [ts_calls ts_call ts_d ts_out ts_rest]. split; [exact EA|]. split; [exact ET|]. split; [exact ED|]. split; [exact LT|]. rewrite MS. cbn [tm_set_st tm_m]. exists R. split; [exact RE|]. split; [|split; [exact (idle_st _ _ ID MS2)|cbn [tm_pc]; exact NR]].
      rewrite EF. eapply wtv_weak; [exact WT'|]. clear. lia.
    + intros _. unfold mainable. rewrite CA. cbn [ts_call ts_calls]. auto.
Qed.
Lemma main_good s P : tinv s P -> exists s', tevent dict wl D skip ByMain s = Some s' /\ goes ByMain s P s'.
Proof.
  intros TI. pose proof TI as (VS & done & c0 & rest & EA & ET & H). destruct (ts_call s) as [[input room]|] eqn:CA.
  2:{ destruct (ts_calls s) as [|[piece room] calls] eqn:EC.
      - exists s. unfold tevent. rewrite VS, CA, EC. split; [reflexivity|]. right. exists P. split; [exact TI|]. split; [|auto]. unfold eff, mainable. rewrite CA, EC. cbn [spur]. lia.
      - destruct (begin_good s P piece room calls TI CA EC) as (s' & E & TI' & WK). exists s'. split; [exact E|]. right. exists (P - 1). split; [exact TI'|]. split; [|split; [intros X; contradiction X; reflexivity|auto]].
        unfold eff, mainable. rewrite CA, EC. cbn [spur]. lia. }
  destruct (ts_d s) as [h|x] eqn:TD; [contradiction H|].
  destruct H as (R & pre & RE & WT & MI & IN & TN & RO & IC & (dn & p & DN & LT) & OD).
  unfold tevent. rewrite VS, CA, TD. pose proof P1 as PP1. destruct WT as [(n & pw & ci & ces & outsW & pa & pb & les & V & ME)].
  destruct (step_main dict wl D wlen ws ltac:(lia) eq_refl ltac:(lia) skip Tr hf _ _ _ _ _ _ _ _ _ _ _ _ x V MI) as (x' & pa' & pb' & les' & R' & e' & SE & V' & MI' & ((pre2 & G1 & G2 & G3) & (o2 & O1 & O2 & O3)) & (st & MW1 & MW2) & PA & _ & ME'). rewrite SE. cbn [bind].
  assert (EF : eff ByMain s = if runm x then 1 else 0) by (unfold eff, mainable; rewrite CA, TD; reflexivity).
  assert (EE : e' = window ws ++ ts_out s ++ tm_out (wd_m x')) by (rewrite O3, O1, <- !app_assoc; reflexivity). clear O3. subst e'.
  assert (IN' : input = (pre ++ pre2) ++ tm_in (wd_m x')) by (rewrite IN, G1, <- app_assoc; reflexivity).
  assert (TN' : tm_n (wd_m x') = zlen (pre ++ pre2)) by (rewrite G2, TN, zlen_app; reflexivity).
  assert (RO' : room = tm_room (wd_m x') + zlen (tm_out (wd_m x'))) by (rewrite O2, O1, zlen_app, RO; lia).
  set (rest' := rem Tr R' (tm_m (wd_m x'))) in *.
  assert (ET' : T = (c0 ++ pre2) ++ rest') by (rewrite ET, RE, G3, <- app_assoc; reflexivity).
  assert (OD' : offered done = (c0 ++ pre2) ++ tm_in (wd_m x')) by (rewrite OD, G1, <- app_assoc; reflexivity).
  assert (WT' : wtv (P - 10 * zlen (ts_calls s) - eff ByMain s) R' (window ws ++ ts_out s ++ tm_out (wd_m x')) x').
  { constructor. exists n, pw, ci, ces, outsW, pa', pb', les'. split; [exact V'|]. rewrite EF. revert ME ME'. clear. generalize (meas n pw pa (wd_sh x) (wd_w x) (wd_m x)), (meas n pw pa' (wd_sh x') (wd_w x') (wd_m x')). intros; lia. }
  assert (WK : ts_d s = ts_d s -> workable s = true -> runw x' = true) by (intros _; unfold workable; rewrite TD; exact (runw_st _ _ st MW1 MW2)).
  destruct (in_call (wd_m x')) eqn:IC'.
  - assert (GO : goes ByMain s P (TS (PDecode x') (Some (input, room)) (ts_rest s) (ts_calls s) (ts_out s) Waiting)).
    { right. exists (P - eff ByMain s). split; [|split; [cbn [spur]; lia|split; [intros X; contradiction X; reflexivity|intros _; exact (WK eq_refl)]]].
      split; [reflexivity|]. exists done, (c0 ++ pre2), rest'. cbn [ts_calls ts_call ts_d ts_out]. split; [exact EA|]. split; [exact ET'|]. exists R', (pre ++ pre2). split; [reflexivity|]. split; [eapply wtv_weak; [exact WT'|clear; lia]|]. split; [exact MI'|]. split; [exact IN'|]. split; [exact TN'|]. split; [exact RO'|]. split; [exact IC'|]. split; [exists dn, p; auto|exact OD']. }
    unfold in_call in IC'. destruct (tm_pc (wd_m x')); [discriminate IC'| | | | | |]; eexists; (split; [reflexivity|exact GO]).
  - assert (ID : idle (wd_m x')).
    { split; [exact IC'|]. destruct PA as [PA|PA]; [|exact PA]. unfold in_call in IC, IC'. rewrite PA in IC'. rewrite IC' in IC. discriminate IC. }
    destruct (tm_pc (wd_m x')) as [r| | | | | |] eqn:PC; unfold in_call in IC'; rewrite PC in IC'; try discriminate IC'. clear IC'. eexists. split; [reflexivity|].
    destruct MI' as [B' Q' R0 ST' RT]. rewrite PC in ST', RT. specialize (ST' ltac:(discriminate)).
    unfold returned. rewrite TN'. assert (ZS : zskip (zlen (pre ++ pre2)) input = tm_in (wd_m x')) by (rewrite IN'; apply zskip_pre). rewrite ZS.
    assert (ZI : zlen input = zlen (pre ++ pre2) + zlen (tm_in (wd_m x'))) by (rewrite IN' at 1; rewrite zlen_app; reflexivity). pose proof (zlen_nonneg (pre ++ pre2)) as NP. pose proof (zlen_nonneg (tm_in (wd_m x'))) as NS.
    assert (G0 : (room <? zlen (tm_out (wd_m x'))) || (zlen (pre ++ pre2) <? 0) || (zlen input <? zlen (pre ++ pre2)) = false).
    { clear - RO' R0 NP NS ZI. destruct (Z.ltb_spec room (zlen (tm_out (wd_m x')))); [lia|]. destruct (Z.ltb_spec (zlen (pre ++ pre2)) 0); [lia|]. destruct (Z.ltb_spec (zlen input) (zlen (pre ++ pre2))); [lia|]. reflexivity. }
    rewrite G0.
    assert (GO : late done (ts_out s ++ tm_out (wd_m x')) -> (tm_pc (wd_m x') = MRet DNeedIn -> rest' <> []) -> goes ByMain s P (TS (PDecode x') None (tm_in (wd_m x')) (ts_calls s) (ts_out s ++ tm_out (wd_m x')) Waiting)).
    { intros LT' NR. right. exists (P - eff ByMain s). split; [|split; [cbn [spur]; lia|split; [intros X; contradiction X; reflexivity|intros _; exact (WK eq_refl)]]].
      split; [reflexivity|]. exists done, (c0 ++ pre2), rest'. cbn [ts_calls ts_call ts_d ts_out ts_rest]. split; [exact EA|]. split; [exact ET'|]. split; [exact OD'|]. split; [exact LT'|]. exists R'. split; [reflexivity|]. split; [|split; [exact ID|split; [exact NR|exact ST']]]. eapply wtv_weak; [exact WT'|clear; lia]. }
    destruct r.
    + assert (RN : runm x = true).
      { unfold runm. destruct (tm_st (wd_m x)) eqn:TS; try exact IC. exfalso. unfold step in SE. rewrite TS in SE. assert (x' = x) as -> by congruence. unfold in_call in IC. rewrite PC in IC. discriminate IC. }
      left. destruct RT as (R1 & R2 & R3). fold rest' in R2. split; [|split; [reflexivity|]].
      2: { exists (P - eff ByMain s). split; [|rewrite EF, RN; lia]. unfold tlast. cbn [ts_d ts_calls ts_out]. exists R'. split; [exact R2|]. split; [eapply wtv_weak; [exact WT'|clear; lia]|]. split; [exact ID|exact PC]. }
      split; [reflexivity|]. cbn [ts_out ts_call ts_rest ts_calls ts_d]. apply app_inv_head in R1. split; [exact R1|]. split; [reflexivity|]. split.
      * rewrite R2, app_nil_r in ET'. rewrite EA, offered_app, OD', <- ET'. symmetry. apply app_assoc.
      * destruct V' as [C _ _ _ _ _]. destruct C as [PV _ _ _ _ (WD & _)]. destruct PV as [SV _ _ _ _]. destruct SV as [_ _ _ EO _ _ _].
        assert (BK : back (wd_m x') = []) by (unfold back; rewrite PC; reflexivity). rewrite (am_same _ BK) in EO. destruct (EO R3) as (EO1 & _). split; [|unfold in_call; rewrite PC; reflexivity]. unfold ended. destruct (tw_pc (wd_w x')); first [reflexivity|congruence].
    + fold rest' in RT. specialize (ST' RT). assert (G1' : (zlen (pre ++ pre2) <? zlen input) = false) by (rewrite ST' in ZI; change (zlen (@nil Z)) with 0 in ZI; apply Z.ltb_ge; lia). rewrite G1'. apply GO; [|intros _; exact RT].
      apply (late_snoc_in _ _ _ _ ET' RT). rewrite OD', ST', app_nil_r. reflexivity.
    + assert (G1' : (zlen (tm_out (wd_m x')) <? room) = false) by (apply Z.ltb_ge; lia). rewrite G1'. apply GO; [|rewrite PC; discriminate]. rewrite DN. apply late_snoc_out; [exact LT|lia].
    + contradiction RT.
Qed.
Lemma event_good e s P : tinv s P -> exists s', tevent dict wl D skip e s = Some s' /\ goes e s P s'.
Proof. intros TI. destruct (match e with ByMain => true | _ => false end) eqn:E; [destruct e; try discriminate E; apply main_good, TI|apply other_good; [exact TI|]; intros ->; discriminate E]. Qed.

Lemma fin_run l s : tfin s -> trun dict wl D skip l s = Some s.
Proof. intros (V & _). induction l as [|e l IH]; [reflexivity|]. cbn [trun]. unfold tevent. rewrite V. exact IH. Qed.
Lemma run_good l : forall s P, tinv s P -> exists s', trun dict wl D skip l s = Some s' /\ (tfin s' \/ exists P', tinv s' P' /\ P' <= P + spurious l).
Proof.
  induction l as [|e l IH]; intros s P TI; cbn [trun].
  - exists s. split; [reflexivity|]. right. exists P. split; [exact TI|]. change (spurious []) with 0. lia.
  - destruct (event_good e s P TI) as (s1 & -> & G). cbn [bind]. destruct G as [(F & _)|(P1' & TI1 & L & _)]; [exists s1; split; [apply fin_run, F|auto]|].
    destruct (IH s1 P1' TI1) as (s2 & E & G). exists s2. split; [exact E|]. destruct G as [F|(P2 & TI2 & L2)]; [auto|]. right. exists P2. split; [exact TI2|]. rewrite spurious_cons.
    assert (0 <= eff e s) by (unfold eff; destruct e, (mainable s), (workable s); lia). lia.
Qed.
Lemma main_turn l : forall s P, tinv s P -> mainable s = true -> In ByMain l -> exists s', trun dict wl D skip l s = Some s' /\ (tfin s' \/ exists P', tinv s' P' /\ P' + 1 <= P + spurious l).
Proof.
  induction l as [|e l IH]; intros s P TI M I; [contradiction I|]. cbn [trun].
  destruct (event_good e s P TI) as (s1 & -> & G). cbn [bind]. destruct G as [(F & _)|(P1' & TI1 & L & K1 & _)]; [exists s1; split; [apply fin_run, F|auto]|]. rewrite spurious_cons.
  assert (C : e = ByMain \/ e <> ByMain) by (destruct e; auto; right; discriminate). destruct C as [-> |NE].
  - destruct (run_good l s1 P1' TI1) as (s2 & E & G). exists s2. split; [exact E|]. destruct G as [F|(P2 & TI2 & L2)]; [auto|]. right. exists P2. split; [exact TI2|]. unfold eff in L. rewrite M in L. lia.
  - destruct I as [I|I]; [contradiction NE|]. destruct (IH s1 P1' TI1 (K1 NE M) I) as (s2 & E & G). exists s2. split; [exact E|]. destruct G as [F|(P2 & TI2 & L2)]; [auto|]. right. exists P2. split; [exact TI2|].
    assert (0 <= eff e s) by (unfold eff; destruct e, (mainable s), (workable s); lia). lia.
Qed.
Lemma worker_turn l : forall s P, tinv s P -> workable s = true -> In ByWorker l -> exists s', trun dict wl D skip l s = Some s' /\ (tfin s' \/ exists P', tinv s' P' /\ P' + 1 <= P + spurious l).
Proof.
  induction l as [|e l IH]; intros s P TI M I; [contradiction I|]. cbn [trun].
  destruct (event_good e s P TI) as (s1 & -> & G). cbn [bind]. destruct G as [(F & _)|(P1' & TI1 & L & _ & K1)]; [exists s1; split; [apply fin_run, F|auto]|]. rewrite spurious_cons.
  assert (C : e = ByWorker \/ e <> ByWorker) by (destruct e; auto; right; discriminate). destruct C as [-> |NE].
  - destruct (run_good l s1 P1' TI1) as (s2 & E & G). exists s2. split; [exact E|]. destruct G as [F|(P2 & TI2 & L2)]; [auto|]. right. exists P2. split; [exact TI2|]. unfold eff in L. rewrite M in L. lia.
  - destruct I as [I|I]; [contradiction NE|]. destruct (IH s1 P1' TI1 (K1 NE M) I) as (s2 & E & G). exists s2. split; [exact E|]. destruct G as [F|(P2 & TI2 & L2)]; [auto|]. right. exists P2. split; [exact TI2|].
    assert (0 <= eff e s) by (unfold eff; destruct e, (mainable s), (workable s); lia). lia.
Qed.
(** somebody can move *)
Lemma tinv_moves s P : tinv s P -> over s \/ mainable s = true \/ workable s = true.
Proof.
  intros (VS & done & c0 & rest & EA & ET & H). unfold mainable, workable, over. destruct (ts_call s) as [[input room]|].
  - destruct (ts_d s) as [h|x]; [contradiction H|]. destruct H as (R & pre & _ & [(n & pw & ci & ces & outsW & pa & pb & les & V & _)] & _ & _ & _ & _ & IC & _).
    right. exact (no_deadlock dict wl D wlen ws skip Tr hf _ _ _ _ _ _ _ _ _ _ x V IC).
  - destruct (ts_calls s); auto.
Qed.
Lemma over_event e s s' : tevent dict wl D skip e s = Some s' -> over s -> over s'.
Proof.
  clear. intros E O. unfold over in *. unfold tevent in E. destruct (ts_v s) eqn:VS; try (injection E as <-; rewrite VS; left; discriminate).
  destruct O as [O|(O1 & O2)]; [contradiction O; reflexivity|]. rewrite O1 in E.
  assert (G : match ts_d s with PHeader _ => Some s | PDecode x => let? x := step dict wl D skip e x in Some (TS (PDecode x) None (ts_rest s) (ts_calls s) (ts_out s) Waiting) end = Some s' -> ts_v s' <> Waiting \/ ts_call s' = None /\ ts_calls s' = []).
  { destruct (ts_d s) as [h|x]; [intros [= <-]; auto|]. destruct (step dict wl D skip e x) as [y|]; cbn [bind]; [intros [= <-]; auto|discriminate]. }
  destruct e; [rewrite O2 in E; injection E as <-; auto| | |]; apply G; exact E.
Qed.
Lemma over_run l : forall s s', trun dict wl D skip l s = Some s' -> over s -> over s'.
Proof.
  induction l as [|e l IH]; intros s s' E O; cbn [trun] in E; [injection E as <-; exact O|].
  destruct (tevent dict wl D skip e s) as [s1|] eqn:E1; [|discriminate E]. cbn [bind] in E. exact (IH s1 s' E (over_event _ _ _ E1 O)).
Qed.
Lemma rounds_good rs : forall s P, tinv s P -> Forall fair_round rs -> P + spurious (concat rs) < zlen rs -> exists s', trun dict wl D skip (concat rs) s = Some s' /\ over s'.
Proof.
  assert (APP : forall a b s, trun dict wl D skip (a ++ b) s = (let? s := trun dict wl D skip a s in trun dict wl D skip b s)).
  { clear. intros a. induction a as [|e a IH]; intros b s; [reflexivity|]. cbn [app trun]. destruct (tevent _ _ _ _ e s); [|reflexivity]. cbn [bind]. apply IH. }
  assert (SPA : forall a b, spurious (a ++ b) = spurious a + spurious b).
  { clear. intros a b. unfold spurious. rewrite filter_app, zlen_app. reflexivity. }
  induction rs as [|r rs IH]; intros s P TI FR L; cbn [concat] in *.
  - change (zlen (@nil (list event))) with 0 in L. change (spurious []) with 0 in L. pose proof (tinv_nonneg s P TI). lia.
  - apply Forall_cons_iff in FR. destruct FR as ((FM & FW) & FR). rewrite SPA, zlen_cons in L. rewrite APP.
    assert (TURN : over s \/ exists s1, trun dict wl D skip r s = Some s1 /\ (tfin s1 \/ exists P', tinv s1 P' /\ P' + 1 <= P + spurious r)).
    { destruct (tinv_moves s P TI) as [O|[M|M]]; [auto|right; exact (main_turn r s P TI M FM)|right; exact (worker_turn r s P TI M FW)]. }
    destruct TURN as [O|(s1 & -> & [F|(P2 & TI2 & L2)])].
    + destruct (run_good (r ++ concat rs) s P TI) as (s2 & E & _). rewrite APP in E. exists s2. split; [exact E|]. apply (over_run (r ++ concat rs) s s2); [rewrite APP; exact E|exact O].
    + cbn [bind]. exists s1. split; [apply fin_run, F|]. left. destruct F as (-> & _). discriminate.
    + cbn [bind]. apply (IH s1 P2 TI2 FR). lia.
Qed.
Lemma tinv_start : tinv (tsess_new all) (N0 + 10 * zlen all).
Proof.
  split; [reflexivity|]. exists [], [], T. cbn [tsess_new ts_calls ts_call ts_d ts_rest ts_out pdec_new]. split; [reflexivity|]. split; [reflexivity|]. split; [reflexivity|]. split.
  - intros c1 c2 x E _ _. symmetry in E. apply app_eq_nil in E. destruct E as (_ & ->). change (zlen (@nil (list Z * Z))) with 0. change (zlen (@nil Z)) with 0. lia.
  - split; [|split; [reflexivity|lia]]. exists [], (make_header ws). split; [exact hp_new_inv|]. auto.
Qed.
(** what the user sees *)
Lemma tinv_prefix s P : tinv s P -> exists y, out = ts_out s ++ y.
Proof.
  intros (VS & done & c0 & rest & EA & ET & H).
  assert (X : forall R e x P, wtv P R (window ws ++ e) x -> exists y, out = e ++ y).
  { intros R e x Q [(n & pw & ci & ces & outsW & pa & pb & les & V & _)]. destruct V as [C _ _ _ _ _]. destruct C as [PV _ _ _ _ _]. destruct (mph_prefix _ _ _ _ _ _ _ _ (pv_ph _ _ _ _ _ _ _ _ _ _ _ _ _ _ _ _ _ _ _ _ PV)) as (y & Y). rewrite <- app_assoc in Y. apply app_inv_head in Y. eauto. }
  destruct (ts_call s) as [[input room]|].
  - destruct (ts_d s) as [h|x]; [contradiction H|]. destruct H as (R & pre & _ & WT & _). apply X in WT. destruct WT as (y & ->). exists (tm_out (wd_m x) ++ y). rewrite <- app_assoc. reflexivity.
  - destruct H as (_ & _ & H). destruct (ts_d s) as [h|x]; [destruct H as (_ & -> & _); exists out; reflexivity|]. destruct H as (R & _ & WT & _). exact (X _ _ _ _ WT).
Qed.
Lemma tinv_not_stuck s P : tinv s P -> ~ stuck s.
Proof.
  intros TI (VS & CA & ST). destruct (tinv_moves s P TI) as [[O|(O & _)]|M]; [contradiction|contradiction|]. unfold mainable, workable in M. destruct (ts_call s); [|contradiction CA; reflexivity].
  destruct (ts_d s) as [h|x]; [destruct M as [M|M]; discriminate M|]. destruct ST as (S1 & S2). unfold runm, runw in M. rewrite S1 in M. destruct M as [M|M]; [discriminate M|]. destruct S2 as [S2|S2]; rewrite S2 in M; [discriminate M|]. destruct (tw_st (wd_w x)); discriminate M.
Qed.
Lemma tinv_over s P c1 c2 x : tinv s P -> over s -> all = c1 ++ c2 -> offered c1 = T ++ x -> Forall (fun c => 1 <= snd c) c2 -> zlen c2 <= zlen out.
Proof.
  intros TI O E1 E2 E3. destruct (tinv_prefix s P TI) as (y & Y). destruct TI as (VS & done & c0 & rest & EA & ET & H). destruct O as [O|(O1 & O2)]; [contradiction|]. rewrite O1 in H. destruct H as (_ & LT & _).
  rewrite O2, app_nil_r in EA. rewrite <- EA in LT. pose proof (LT c1 c2 x E1 E2 E3). rewrite Y, zlen_app. pose proof (zlen_nonneg y). lia.
Qed.
End Sess.
