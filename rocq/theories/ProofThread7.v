(** Two threads: what is handed over, whatever the input. *)
From Verif Require Import Prelude ProofList ModelAns ModelCdf ModelRecode SpecLz ModelMux SpecMux ProofZlist ModelCmd ModelCrc ModelHeader ModelPriors ModelCodec ModelLit ModelPm ModelTop SpecCodec ModelEnc ModelDec SpecEnc SpecDec ModelThread SpecThread SpecHand ProofThread2 ProofThread3 ProofThread4.

Section Hand.
Context (dict : dict_fn) (wl : word_len_fn) (D : dims) (skip : bool).

(** ** What the main thread's own work leaves alone *)
Definition same (m m' : main) : Prop := m_cmds m' = m_cmds m /\ m_out m' = m_out m.
Lemma same_refl m : same m m. Proof. split; reflexivity. Qed.
Lemma same_trans a b c : same a b -> same b c -> same a c. Proof. intros (A & B) (C & E). split; congruence. Qed.
Lemma lit_fill_same m m' ok : lit_fill m = Some (m', ok) -> same m m'.
Proof. unfold lit_fill. destruct (fill_from _ _) as [((d & b) & k)|]; cbn [bind]; [|discriminate]. intros [= <- _]. split; reflexivity. Qed.
Lemma lit_nibble_same m m' : lit_nibble m = Some m' -> same m m'.
Proof.
  unfold lit_nibble. destruct (m_lit m) as [[? ?]|]; [|discriminate]. destruct (lit_node _ _ _ _) as [st cdf k| |]; try discriminate. destruct st; try discriminate.
  destruct (get_sym _ _) as [(v & d)|]; cbn [bind]; [|discriminate]. destruct (k v) as [((? & ?) & ?)| |]; try discriminate. intros [= <-]. split; reflexivity.
Qed.
Lemma content_same fuel : forall m m' ok, content fuel m = Some (m', ok) -> same m m'.
Proof.
  induction fuel as [|fuel IH]; intros m m' ok; cbn [content]; [discriminate|].
  destruct (lit_fill m) as [(m1 & ok1)|] eqn:F1; cbn [bind]; [|discriminate]. apply lit_fill_same in F1. destruct ok1; cbn [negb]; [|intros [= <- _]; exact F1].
  destruct (m_lit m1) as [[[|] ?]|]; [| |discriminate].
  - destruct (lit_nibble m1) as [m2|] eqn:N1; cbn [bind]; [|discriminate]. apply lit_nibble_same in N1.
    destruct (lit_fill m2) as [(m3 & ok3)|] eqn:F3; cbn [bind]; [|discriminate]. apply lit_fill_same in F3. destruct ok3; cbn [assert]; [|discriminate].
    destruct (lit_nibble m3) as [m4|] eqn:N4; cbn [bind]; [|discriminate]. apply lit_nibble_same in N4.
    pose proof (same_trans _ _ _ (same_trans _ _ _ F1 N1) (same_trans _ _ _ F3 N4)) as S4.
    destruct (_ <? 16).
    + destruct (lit_done m4); [intros [= <- _]; exact S4|]. intros E. apply IH in E. exact (same_trans _ _ _ S4 E).
    + destruct (lit_fill m4) as [(m5 & ok5)|] eqn:F5; cbn [bind]; [|discriminate]. apply lit_fill_same in F5. destruct ok5; cbn [assert]; [|discriminate]. pose proof (same_trans _ _ _ S4 F5) as S5.
      destruct (lit_done m5); [intros [= <- _]; exact S5|]. intros E. apply IH in E. exact (same_trans _ _ _ S5 E).
  - destruct (lit_nibble m1) as [m2|] eqn:N1; cbn [bind]; [|discriminate]. apply lit_nibble_same in N1. pose proof (same_trans _ _ _ F1 N1) as S2. cbn zeta.
    match goal with |- (if ?c then _ else _) = _ -> _ => destruct c end; [intros E; apply IH in E; exact (same_trans _ _ _ S2 E)|].
    destruct (lit_fill m2) as [(m3 & ok3)|] eqn:F3; cbn [bind]; [|discriminate]. apply lit_fill_same in F3. pose proof (same_trans _ _ _ S2 F3) as S3.
    destruct (lit_done m3); [intros [= <- _]; exact S3|]. destruct ok3; [intros E; apply IH in E; exact (same_trans _ _ _ S3 E)|intros [= <- _]; exact S3].
Qed.
Lemma output_front_same m room o m' r : output_front dict m room = Some (o, m', r) -> same m m'.
Proof.
  unfold output_front.
  match goal with |- bind ?e _ = _ -> _ => assert (K : forall m1 ok, e = Some (m1, ok) -> same m m1); [|destruct e as [(m1 & ok)|]; cbn [bind]; [specialize (K _ _ eq_refl)|discriminate]] end.
  { intros m1 ok. destruct (m_lit m); [|intros [= <- _]; apply same_refl]. destruct (content _ m) as [(m2 & ok2)|] eqn:C; cbn [bind]; [|discriminate]. apply content_same in C. destruct ok2; [|intros [= <- _]; exact C].
    destruct (m_lit m2) as [[? ?]|]; [|discriminate]. intros [= <- _]. exact C. }
  destruct ok; cbn [negb]; [|intros [= _ <- _]; exact K]. destruct (m_pop m1); [|intros [= _ <- _]; exact K].
  destruct (encode_cmd _ _ _ _ _) as [((? & ?) & ?)|]; cbn [bind]; [|discriminate]. intros [= _ <- _]. exact K.
Qed.
Lemma finish_same m room o m' r : finish skip m room = Some (o, m', r) -> same m m'.
Proof.
  unfold finish. destruct (rflush _ _) as [((res & o1) & r1)|]; cbn [bind]; [|discriminate]. destruct res; intros [= _ <- _]; split; reflexivity.
Qed.
Lemma q_push_some q b q' : q_push q b = Some q' -> q' = q_set_data q (q_data q ++ [b]) /\ zlen (mem b) <> 0.
Proof.
  unfold q_push. destruct (2 <=? _); cbn [orb]; [discriminate|]. destruct (Z.eqb_spec (zlen (mb_data b)) 0) as [|NZ]; [discriminate|]. intros [= <-]. split; [reflexivity|]. intros M0. apply NZ. apply zlen_0_nil in M0. unfold mb_data. rewrite M0. unfold zskip, zfirst. rewrite skipn_nil, firstn_nil. reflexivity.
Qed.
Lemma process_input_hand q m input n q' m' ok : process_input skip q m input = Some (n, q', m', ok) ->
  exists bs, q' = q_set_data q (q_data q ++ bs) /\ m_cmds m' = m_cmds m /\ m_out m' = m_out m + zlen bs /\ Forall (fun b => zlen (mem b) <> 0) bs.
Proof.
  unfold process_input. destruct (deserialize _ _) as [(n1 & x)|]; cbn [bind]; [|discriminate]. destruct (if is_done (eof x) then _ else _) as [tr amt].
  assert (Q0 : q = q_set_data q (q_data q ++ [])) by (rewrite app_nil_r; destruct q; reflexivity).
  destruct (negb _).
  - destruct (q_push q (buf0 x)) as [q1|] eqn:QP.
    + intros [= _ <- <- _]. apply q_push_some in QP. destruct QP as (-> & M). exists [buf0 x]. split; [reflexivity|]. split; [reflexivity|]. split; [reflexivity|]. constructor; [exact M|constructor].
    + intros [= _ <- <- _]. exists []. split; [exact Q0|]. split; [reflexivity|]. split; [change (zlen (@nil mbuf)) with 0; cbn [m_set_in m_out]; lia|constructor].
  - intros [= _ <- <- _]. exists []. split; [exact Q0|]. split; [reflexivity|]. split; [change (zlen (@nil mbuf)) with 0; cbn [m_set_in m_out]; lia|constructor].
Qed.

(** ** The invariant *)
Record hand (x : world) (l : tlog) : Prop := {
  hd_a : accounted x l;
  hd_mem : Forall (fun b => zlen (mem b) <> 0) (q_data (sh_q (wd_sh x)));
  hd_pull : tw_pc (wd_w x) = WPull -> zlen (mem (wk_slice (tw_w (wd_w x)))) = 0 \/ sh_err (wd_sh x) = true;
  hd_mpull : tm_pc (wd_m x) = MPull -> m_cmds (tm_m (wd_m x)) = [] }.
Lemma skipn_pre {A} (a b : list A) : skipn (length a) (a ++ b) = b.
Proof. rewrite skipn_app, skipn_all, Nat.sub_diag. reflexivity. Qed.
Lemma neqb_S (c : command) cs : Nat.eqb (length (c :: cs)) (length cs) = false.
Proof. apply Nat.eqb_neq. cbn [length]. lia. Qed.
(** a step of the main thread, seen as its effect *)
Definition main_effect (s : shared) (m : mthread) (s' : shared) (m' : mthread) : Prop :=
  sh_err s' = sh_err s /\
  exists bs tk, q_data (sh_q s') = q_data (sh_q s) ++ bs /\ Forall (fun b => zlen (mem b) <> 0) bs /\
    (m_cmds (tm_m m) ++ q_res (sh_q s) = tk ++ m_cmds (tm_m m') ++ q_res (sh_q s')) /\
    (match m_cmds (tm_m m) with c :: cs => if Nat.eqb (length (m_cmds (tm_m m'))) (length cs) then [c] else [] | [] => [] end) = tk /\
    m_out (tm_m m') - zlen (q_rdata (sh_q s')) - zlen (back m') = m_out (tm_m m) + zlen bs - zlen (q_rdata (sh_q s)) - zlen (back m) /\
    (tm_pc m' = MPull -> m_cmds (tm_m m') = []).
Lemma mstep_effect s m s' m' note : (tm_pc m = MPull -> m_cmds (tm_m m) = []) -> mstep dict skip s m = Some (s', m', note) -> main_effect s m s' m'.
Proof.
  intros MP. unfold mstep. destruct m as [x pc st inp n out room]. cbn [tm_m tm_pc tm_in tm_n tm_out tm_room] in *. destruct s as [q fl er wt]. cbn [sh_q sh_failed sh_err sh_waiters] in *.
  (* nothing changes that matters *)
  assert (NOP : forall x2 pc2 q2 ws2 i2 n2 o2 r2 st2, same x x2 -> q_data q2 = q_data q -> q_res q2 = q_res q -> q_rdata q2 = q_rdata q -> zlen (back (TM x2 pc2 st2 i2 n2 o2 r2)) = zlen (back (TM x pc st inp n out room)) -> (pc2 = MPull -> m_cmds x2 = []) ->
     main_effect (SH q fl er wt) (TM x pc st inp n out room) (SH q2 fl er ws2) (TM x2 pc2 st2 i2 n2 o2 r2)).
  { intros x2 pc2 q2 ws2 i2 n2 o2 r2 st2 (SC & SO) QD QR QB BK PL. unfold main_effect. cbn [sh_q sh_err tm_m tm_pc]. split; [reflexivity|]. exists [], []. rewrite app_nil_r, SC, SO, QR, QB, BK. split; [exact QD|]. split; [constructor|]. split; [reflexivity|]. split; [destruct (m_cmds x) as [|c cs]; [reflexivity|rewrite neqb_S; reflexivity]|]. split; [change (zlen (@nil mbuf)) with 0; lia|]. rewrite <- SC. exact PL. }
  destruct pc as [r| | | | |[|dat bufs] nd bad|p].
  - intros [= <- <- _]. cbn [sh_set_q sh_wait tm_go tm_put tm_sleep sh_q sh_err sh_failed sh_waiters tm_m tm_pc tm_st tm_in tm_n tm_out tm_room]. apply (NOP _ _ _ wt); try reflexivity; try discriminate; apply same_refl.
  - destruct (process_input skip q x inp) as [(((n1 & q1) & x1) & ok)|] eqn:PI; cbn [bind]; [|discriminate]. intros [= <- <- _]. unfold main_effect. cbn [sh_set_q sh_wait tm_go tm_put tm_sleep sh_q sh_err sh_failed sh_waiters tm_m tm_pc tm_st tm_in tm_n tm_out tm_room]. apply process_input_hand in PI. destruct PI as (bs & -> & C1 & O1 & MB1).
    split; [reflexivity|]. exists bs, []. cbn [q_set_data q_data q_res q_rdata]. split; [reflexivity|]. split; [exact MB1|]. rewrite C1. split; [reflexivity|]. split; [destruct (m_cmds x) as [|c cs]; [reflexivity|rewrite neqb_S; reflexivity]|]. split.
    + rewrite O1. destruct ok; cbn [negb]; [destruct (receiving x1)|]; cbn [back tm_pc]; lia.
    + destruct ok; cbn [negb]; [destruct (receiving x1)|]; discriminate.
  - destruct (output_front dict x room) as [((o & x1) & r)|] eqn:OF; cbn [bind]; [|discriminate]. intros [= <- <- _]. cbn [sh_set_q sh_wait tm_go tm_put tm_sleep sh_q sh_err sh_failed sh_waiters tm_m tm_pc tm_st tm_in tm_n tm_out tm_room]. apply output_front_same in OF. apply (NOP _ _ _ wt); try reflexivity; try assumption; [destruct r; reflexivity|destruct r; discriminate].
  - destruct (m_cmds x) as [|c cs] eqn:CE.
    + destruct (m_eof x).
      * destruct (finish skip x room) as [((o & x1) & r)|] eqn:FI; cbn [bind]; [|discriminate]. intros [= <- <- _]. cbn [sh_set_q sh_wait tm_go tm_put tm_sleep sh_q sh_err sh_failed sh_waiters tm_m tm_pc tm_st tm_in tm_n tm_out tm_room]. apply finish_same in FI. apply (NOP _ _ _ wt); try reflexivity; try assumption. discriminate.
      * intros [= <- <- _]. cbn [sh_set_q sh_wait tm_go tm_put tm_sleep sh_q sh_err sh_failed sh_waiters tm_m tm_pc tm_st tm_in tm_n tm_out tm_room]. apply (NOP _ _ _ wt); try reflexivity; try apply same_refl. intros _. exact CE.
    + assert (TK : forall x2 pc2 q2 ws2 i2 n2 o2 r2 st2, m_cmds x2 = cs -> m_out x2 = m_out x -> q2 = q -> (pc2 = MOut \/ (exists p, pc2 = MMap p) \/ pc2 = MRet DFail) ->
         sh_err (SH q2 fl er ws2) = er /\ exists bs tk, q_data q2 = q_data q ++ bs /\ Forall (fun b => zlen (mem b) <> 0) bs /\ (c :: cs) ++ q_res q = tk ++ m_cmds x2 ++ q_res q2 /\ (if Nat.eqb (length (m_cmds x2)) (length cs) then [c] else []) = tk /\
           m_out x2 - zlen (q_rdata q2) - zlen (back (TM x2 pc2 st2 i2 n2 o2 r2)) = m_out x + zlen bs - zlen (q_rdata q) - zlen (back (TM x MNext st inp n out room)) /\ (pc2 = MPull -> m_cmds x2 = [])).
      { intros x2 pc2 q2 ws2 i2 n2 o2 r2 st2 C2 O2 -> PC2. split; [reflexivity|]. exists [], [c]. rewrite app_nil_r, C2, Nat.eqb_refl, O2. split; [reflexivity|]. split; [constructor|]. split; [reflexivity|]. split; [reflexivity|]. change (zlen (@nil mbuf)) with 0. destruct PC2 as [-> |[(p & ->)| ->]]; (split; [cbn [back tm_pc]; lia|discriminate]). }
      assert (GEN : (forall p, c <> PredictionMode p) -> forall q1 x1 r, take_command c q (m_set_cmds x cs) = Some (q1, x1, r) -> main_effect (SH q fl er wt) (TM x MNext st inp n out room) (sh_set_q (SH q fl er wt) q1) (tm_go (TM x MNext st inp n out room) x1 MOut)).
      { intros NP q1 x1 r TC. destruct (take_command_keeps _ _ _ _ _ _ TC) as (_ & A2 & _ & A4 & _ & A6). destruct (A6 NP) as (-> & _). unfold main_effect. cbn [sh_set_q tm_go sh_q sh_err tm_m tm_pc sh_failed sh_waiters tm_in tm_n tm_out tm_room]. rewrite CE. apply (TK x1 MOut q wt); auto. }
      destruct c; try (match goal with |- bind ?e _ = _ -> _ => case_eq e; [intros ((q1 & x1) & r) TC|intros _] end; cbn [bind]; [|discriminate]; intros [= <- <- _]; exact (GEN ltac:(discriminate) _ _ _ TC)).
      destruct (obs_prediction_mode _ _) as [l|ee|]; [intros [= <- <- _]|intros [= <- <- _]|discriminate]; unfold main_effect; cbn [sh_set_q sh_wait tm_go tm_put tm_sleep sh_q sh_err sh_failed sh_waiters tm_m tm_pc tm_st tm_in tm_n tm_out tm_room]; rewrite CE.
      * apply (TK _ (MMap (fst (m_pred x))) q wt); try reflexivity. right. left. eauto.
      * apply (TK _ (MRet DFail) q wt); try reflexivity. auto.
  - specialize (MP eq_refl). unfold assert. destruct (_ && _); [|discriminate]. destruct (result_ready _).
    + match goal with |- (if ?c then _ else _) = _ -> _ => destruct c end; [|discriminate]. intros [= <- <- _]. unfold main_effect. cbn [sh_set_q sh_wait tm_go tm_put tm_sleep sh_q sh_err sh_failed sh_waiters tm_m tm_pc tm_st tm_in tm_n tm_out tm_room]. split; [reflexivity|]. exists [], []. cbn [q_data q_res q_rdata m_cmds m_out]. rewrite MP, app_nil_r. split; [reflexivity|]. split; [constructor|]. split; [cbn [app]; rewrite app_nil_r; reflexivity|]. split; [reflexivity|]. split; [|discriminate].
      unfold back. cbn [tm_go tm_pc]. rewrite !zlen_nil. lia.
    + destruct er; intros [= <- <- _].
      * cbn [sh_set_q sh_wait tm_go tm_put tm_sleep sh_q sh_err sh_failed sh_waiters tm_m tm_pc tm_st tm_in tm_n tm_out tm_room]. apply (NOP _ _ _ wt); try reflexivity; try apply same_refl. discriminate.
      * cbn [sh_set_q sh_wait tm_go tm_put tm_sleep sh_q sh_err sh_failed sh_waiters tm_m tm_pc tm_st tm_in tm_n tm_out tm_room]. apply (NOP _ _ _ wt); try reflexivity; try apply same_refl. auto.
  - intros [= <- <- _]. cbn [sh_set_q sh_wait tm_go tm_put tm_sleep sh_q sh_err sh_failed sh_waiters tm_m tm_pc tm_st tm_in tm_n tm_out tm_room]. apply (NOP _ _ _ wt); try reflexivity; try apply same_refl.
    + destruct bad; [reflexivity|]. destruct nd; [reflexivity|]. destruct (m_cmds x); [destruct (m_eof x)|]; reflexivity.
    + destruct bad; [discriminate|]. destruct nd; [discriminate|]. destruct (m_cmds x); [destruct (m_eof x)|]; discriminate.
  - unfold assert. destruct (1 <=? m_out x); [|discriminate]. destruct (q_push q (buf0 (m_mux x))) as [q1|] eqn:QP; intros [= <- <- _]; unfold main_effect; cbn [sh_set_q sh_wait tm_go tm_put tm_sleep sh_q sh_err sh_failed sh_waiters tm_m tm_pc tm_st tm_in tm_n tm_out tm_room m_set_buf m_set_in m_cmds m_out back]; split; try reflexivity.
    + apply q_push_some in QP. destruct QP as (-> & M). exists [buf0 (m_mux x)], []. cbn [q_set_data q_data q_res q_rdata]. split; [reflexivity|]. split; [constructor; [exact M|constructor]|]. split; [reflexivity|]. split; [destruct (m_cmds x) as [|c cs]; [reflexivity|rewrite neqb_S; reflexivity]|]. split; [|discriminate].
      unfold back. cbn [tm_go tm_pc]. rewrite !zlen_cons, !zlen_nil. lia.
    + exists [], []. rewrite app_nil_r. split; [reflexivity|]. split; [constructor|]. split; [reflexivity|]. split; [destruct (m_cmds x) as [|c cs]; [reflexivity|rewrite neqb_S; reflexivity]|]. split; [|discriminate]. unfold back. cbn [tm_go tm_pc]. rewrite !zlen_cons, !zlen_nil. lia.
  - destruct (_ <? 2); intros [= <- <- _].
    + cbn [sh_set_q sh_wait tm_go tm_put tm_sleep sh_q sh_err sh_failed sh_waiters tm_m tm_pc tm_st tm_in tm_n tm_out tm_room]. apply (NOP _ _ _ wt); try reflexivity; try apply same_refl. discriminate.
    + cbn [sh_set_q sh_wait tm_go tm_put tm_sleep sh_q sh_err sh_failed sh_waiters tm_m tm_pc tm_st tm_in tm_n tm_out tm_room]. apply (NOP _ _ _ wt); try reflexivity; try apply same_refl. discriminate.
Qed.
(** ** A step of the worker *)
Lemma fill_from_mem d b d' b' ok : fill_from d b = Some (d', b', ok) -> mem b' = mem b.
Proof. unfold fill_from. destruct (_ =? 0); [intros [= _ <- _]; reflexivity|]. destruct (ModelAns.push_data _ _) as [(? & ?)|]; cbn [bind]; [|discriminate]. intros [= _ <- _]. reflexivity. Qed.
Lemma w_code_mem w w' r : w_code wl D w = Some (w', r) -> mem (wk_slice w') = mem (wk_slice w).
Proof.
  unfold w_code. cbn zeta.
  match goal with |- bind ?e _ = _ -> _ => assert (K : forall d s ok, e = Some (d, s, ok) -> mem s = mem (wk_slice w)); [|destruct e as [((d & s) & ok)|]; cbn [bind]; [specialize (K _ _ _ eq_refl)|discriminate]] end.
  { intros d s ok. destruct (w_fills _); [apply fill_from_mem|intros [= _ <- _]; reflexivity]. }
  destruct ok; cbn [negb]; [|intros [= <- _]; exact K].
  destruct (w_node _ _ _) as [st cdf k|[c|e|]|c b|]; try discriminate; try (intros [= <- _]; exact K).
  destruct (get_sym _ _) as [(v & d2)|]; cbn [bind]; [|discriminate]. destruct (k v); try discriminate; intros [= <- _]; exact K.
Qed.
Definition one (b : mbuf) : Z := if zlen (mem b) =? 0 then 0 else 1.
Definition worker_effect (s : shared) (w : wthread) (s' : shared) (w' : wthread) : Prop :=
  (sh_err s = true -> sh_err s' = true) /\
  exists gt mk, q_data (sh_q s) = gt ++ q_data (sh_q s') /\
    (if (length (q_data (sh_q s')) <? length (q_data (sh_q s)))%nat then [wk_slice (tw_w w')] else []) = gt /\
    q_res (sh_q s') ++ tw_buf w' = q_res (sh_q s) ++ tw_buf w ++ mk /\
    match k_st (wk_c (tw_w w)), k_st (wk_c (tw_w w')) with TPop cmd, TBegin => [downcast cmd] | _, _ => [] end = mk /\
    zlen (q_data (sh_q s')) + zlen (q_rdata (sh_q s')) + one (wk_slice (tw_w w')) = zlen (q_data (sh_q s)) + zlen (q_rdata (sh_q s)) + one (wk_slice (tw_w w)) /\
    (tw_pc w' = WPull -> zlen (mem (wk_slice (tw_w w'))) = 0 \/ sh_err s' = true).
Lemma same_st (a b : top) : a = b -> match a, b with TPop cmd, TBegin => [downcast cmd] | _, _ => [] end = @nil command.
Proof. intros ->. destruct b; reflexivity. Qed.
Lemma wstep_effect s w s' w' note : Forall (fun b => zlen (mem b) <> 0) (q_data (sh_q s)) -> (tw_pc w = WPull -> zlen (mem (wk_slice (tw_w w))) = 0 \/ sh_err s = true) ->
  wstep wl D s w = Some (s', w', note) -> worker_effect s w s' w'.
Proof.
  intros FM WP. destruct s as [q fl er wt]. destruct w as [x buf mn pc st]. cbn [sh_q sh_err tw_pc tw_w] in *.
  assert (NOP : forall x2 pc2 q2 fl2 er2 ws2 mn2 st2, mem (wk_slice x2) = mem (wk_slice x) -> (match k_st (wk_c x), k_st (wk_c x2) with TPop cmd, TBegin => [downcast cmd] | _, _ => [] end = @nil command) -> q_data q2 = q_data q -> q_res q2 = q_res q -> q_rdata q2 = q_rdata q -> (er = true -> er2 = true) ->
     (pc2 = WPull -> zlen (mem (wk_slice x)) = 0 \/ er2 = true) -> worker_effect (SH q fl er wt) (TW x buf mn pc st) (SH q2 fl2 er2 ws2) (TW x2 buf mn2 pc2 st2)).
  { intros x2 pc2 q2 fl2 er2 ws2 mn2 st2 SL KS QD QR QB ER PL. unfold worker_effect, one. cbn [sh_q sh_err tw_w tw_pc tw_buf]. split; [exact ER|]. exists [], []. rewrite QD, QR, QB, SL, KS, Nat.ltb_irrefl, app_nil_r. do 5 (split; [reflexivity|]). exact PL. }
  unfold wstep. cbn [tw_pc tw_w sh_q sh_err].
  destruct pc as [|k pm| | | |].
  - assert (CODE : forall c0 : bool, (if c0 then Some (SH q fl er wt, tw_go (TW x buf mn WRun st) WMap, false)
          else if starving x then Some (SH q fl er wt, if zlen (mem (wk_slice x)) =? 0 then tw_go (TW x buf mn WRun st) WPull else start_push (TW x buf mn WRun st) KPull None, false)
          else let? '(w0, r) := w_code wl D x in match r with Some (WFail _) => Some (broadcast (SH q fl er wt), tw_set_w (TW x buf mn WRun st) w0 WFailed, notify (SH q fl er wt)) | _ => Some (SH q fl er wt, tw_set_w (TW x buf mn WRun st) w0 WRun, false) end) = Some (s', w', note) ->
        (forall cmd, k_st (wk_c x) <> TPop cmd) -> worker_effect (SH q fl er wt) (TW x buf mn WRun st) s' w').
    { intros c0 E NP. assert (KS : forall b, match k_st (wk_c x), b with TPop cmd, TBegin => [downcast cmd] | _, _ => [] end = @nil command) by (intros b; destruct (k_st (wk_c x)); try reflexivity; exfalso; eapply NP; reflexivity).
      revert E. destruct c0; [intros [= <- <- _]|destruct (starving x); [intros [= <- <- _]|]].
      - unfold tw_go. cbn [tw_w tw_buf tw_min]. apply (NOP _ _ _ _ _ wt); try reflexivity; auto. discriminate.
      - destruct (Z.eqb_spec (zlen (mem (wk_slice x))) 0) as [Z0|NZ]; [unfold tw_go|unfold start_push]; cbn [tw_w tw_buf tw_min]; apply (NOP _ _ _ _ _ wt); try reflexivity; auto; discriminate.
      - destruct (w_code wl D x) as [(w2 & r)|] eqn:WC; cbn [bind]; [|discriminate]. apply w_code_mem in WC. destruct r as [[]|]; intros [= <- <- _]; unfold tw_set_w, broadcast; cbn [tw_w tw_buf tw_min sh_q sh_waiters]; apply (NOP _ _ _ _ _ wt); try reflexivity; auto; discriminate. }
    destruct (k_st (wk_c x)) eqn:KE; try (intros E; refine (CODE _ E _); discriminate).
    + (* a finished command *)
      unfold push_command. cbn [tw_buf tw_w tw_min]. unfold assert. destruct (_ <? _); cbn [bind]; [|discriminate]. cbn zeta.
      assert (MADE : forall mn2 pc2 st2, pc2 <> WPull -> worker_effect (SH q fl er wt) (TW x buf mn WRun st) (SH q fl er wt) (TW (wk_set_c x (kset (wk_c x) (k_bk (wk_c x)) TBegin)) (buf ++ [downcast c]) mn2 pc2 st2)).
      { intros mn2 pc2 st2 NP. unfold worker_effect. cbn [sh_q sh_err tw_w tw_pc tw_buf wk_set_c wk_c wk_slice kset k_st]. split; [auto|]. exists [], [downcast c]. rewrite KE, Nat.ltb_irrefl. do 5 (split; [reflexivity|]). intros PE. contradiction. }
      destruct c; try (destruct (_ || _)); unfold start_push; cbn [tw_w tw_buf tw_min]; intros [= <- <- _]; apply MADE; discriminate.
    + intros [= <- <- _]. unfold start_push. cbn [tw_w tw_buf tw_min]. apply (NOP _ _ _ _ _ wt); try reflexivity; auto; try (rewrite KE; reflexivity); discriminate.
  - unfold force_push, send_back. cbn [tw_w tw_buf tw_min tw_pc tw_st sh_q sh_err sh_waiters].
    assert (PR : forall x1 sent q1 fl1 er1 wt1, wk_c x1 = wk_c x -> q_data q1 = q_data q -> q_res q1 = q_res q -> zlen (q_rdata q1) + one (wk_slice x1) = zlen (q_rdata q) + one (wk_slice x) -> (er = true -> er1 = true) -> (k = KPull -> zlen (mem (wk_slice x1)) = 0 \/ er1 = true) ->
       push_results (SH q1 fl1 er1 wt1) (TW x1 buf mn (WPush k pm) st) k pm sent = Some (s', w', note) -> worker_effect (SH q fl er wt) (TW x buf mn (WPush k pm) st) s' w').
    { intros x1 sent q1 fl1 er1 wt1 EC QD QR QB ER KP. unfold push_results. cbn [sh_q sh_err tw_w tw_buf tw_min].
      assert (SAME : forall pc2 wt2 fl2 er2 st2 mn2, (er1 = true -> er2 = true) -> pc2 <> WPull -> worker_effect (SH q fl er wt) (TW x buf mn (WPush k pm) st) (SH q1 fl2 er2 wt2) (TW x1 buf mn2 pc2 st2)).
      { intros pc2 wt2 fl2 er2 st2 mn2 E2 NP. unfold worker_effect. cbn [sh_q sh_err tw_w tw_pc tw_buf]. split; [auto|]. exists [], []. rewrite EC, QD, QR, Nat.ltb_irrefl, app_nil_r. split; [reflexivity|]. split; [reflexivity|]. split; [reflexivity|]. split; [apply same_st; reflexivity|]. split; [lia|]. intros PE. contradiction. }
      destruct (_ <=? NUM_BUFFERED - _).
      - unfold assert. match goal with |- (if ?c then _ else _) = _ -> _ => destruct c end; [|discriminate]. intros [= <- <- _]. unfold worker_effect, sh_set_q. cbn [sh_q sh_err tw_w tw_pc tw_buf wk_c wk_slice q_data q_res q_rdata]. split; [exact ER|]. exists [], []. rewrite EC, QD, QR, Nat.ltb_irrefl, !app_nil_r. split; [reflexivity|]. split; [reflexivity|]. split; [reflexivity|]. split; [apply same_st; reflexivity|]. split; [lia|].
        destruct k; try discriminate. intros _. apply KP. reflexivity.
      - destruct er1.
        + destruct k; intros [= <- <- _]; unfold tw_go, broadcast; cbn [tw_w tw_buf tw_min sh_q sh_waiters]; apply SAME; auto; discriminate.
        + intros [= <- <- _]. unfold sh_wait, tw_sleep. cbn [sh_q sh_failed sh_err sh_waiters tw_w tw_buf tw_min tw_pc]. apply SAME; auto; discriminate. }
    assert (ND : (k = KPull -> zlen (mem (wk_slice x)) = 0) -> push_results (SH q fl er wt) (TW x buf mn (WPush k pm) st) k pm false = Some (s', w', note) -> worker_effect (SH q fl er wt) (TW x buf mn (WPush k pm) st) s' w').
    { intros K0. apply PR; auto. }
    assert (KPUSH : k = KPull -> zlen (mem (wk_slice x)) <> 0 ->
      (let '(s0, w0, sent, full) := if er then (SH q true true wt, x, true, false)
        else if zlen (q_rdata q) <? 2 then (sh_set_q (SH q fl er wt) (q_set_rdata q (q_rdata q ++ [wk_slice x])), WK (wk_c x) (wk_dec x) mb_empty (wk_done x), true, false)
        else (SH q fl er wt, x, false, true) in
       if full then Some (sh_wait s0 1, tw_sleep (TW w0 buf mn (WPush k pm) st), false) else push_results s0 (TW w0 buf mn (WPush k pm) st) k pm sent) = Some (s', w', note) -> worker_effect (SH q fl er wt) (TW x buf mn (WPush k pm) st) s' w').
    { intros KE NZ. destruct er eqn:ERE.
      - apply PR; auto.
      - destruct (zlen (q_rdata q) <? 2).
        + unfold sh_set_q. cbn [sh_failed sh_err sh_waiters]. apply PR; auto. cbn [q_set_rdata q_rdata wk_slice]. rewrite zlen_app, zlen_cons, zlen_nil. unfold one. cbn [mb_empty mem]. change (zlen (@nil Z)) with 0. change (0 =? 0) with true. cbn iota. destruct (Z.eqb_spec (zlen (mem (wk_slice x))) 0); [contradiction|lia].
        + intros [= <- <- _]. unfold sh_wait, tw_sleep. cbn [sh_q sh_failed sh_err sh_waiters tw_w tw_buf tw_min tw_pc]. apply (NOP _ _ _ _ _ (wt + 1)); auto; try (apply same_st; reflexivity); discriminate. }
    destruct k; cbn iota; try (apply ND; discriminate). destruct (Z.eqb_spec (zlen (mem (wk_slice x))) 0) as [Z0|NZ]; cbn [negb].
    + apply ND. auto.
    + apply KPUSH; auto.
  - specialize (WP eq_refl). destruct (q_data q) as [|b bs] eqn:QE; [intros [= <- <- _]|destruct er eqn:ERE; intros [= <- <- _]].
    + unfold sh_wait, tw_sleep. cbn [sh_q sh_failed sh_err sh_waiters tw_w tw_buf tw_min tw_pc]. apply (NOP _ _ _ _ _ (wt + 1)); auto. apply same_st; reflexivity.
    + unfold tw_go. cbn [tw_w tw_buf tw_min]. apply (NOP _ _ _ _ _ wt); auto; try (apply same_st; reflexivity); discriminate.
    + destruct WP as [W0|]; [|discriminate]. unfold worker_effect, sh_set_q, tw_set_w. cbn [sh_q sh_err sh_failed sh_waiters tw_w tw_pc tw_buf tw_min wk_c wk_slice q_set_data q_data q_res q_rdata]. split; [auto|]. exists [b], []. rewrite QE. cbn [length]. replace (_ <? _)%nat with true by (symmetry; apply Nat.ltb_lt; lia). rewrite !app_nil_r. split; [reflexivity|]. split; [reflexivity|]. split; [reflexivity|]. split; [apply same_st; reflexivity|]. split; [|discriminate].
      inversion FM as [|? ? B0 ?]; subst. unfold one. rewrite W0, zlen_cons. change (0 =? 0) with true. cbn iota. destruct (Z.eqb_spec (zlen (mem b)) 0); [contradiction|lia].
  - destruct (q_cm q) as [|p ps]; [intros [= <- <- _]|destruct er eqn:ERE; intros [= <- <- _]].
    + unfold sh_wait, tw_sleep. cbn [sh_q sh_failed sh_err sh_waiters tw_w tw_buf tw_min tw_pc]. apply (NOP _ _ _ _ _ (wt + 1)); auto; try (apply same_st; reflexivity); discriminate.
    + unfold tw_go. cbn [tw_w tw_buf tw_min]. apply (NOP _ _ _ _ _ wt); auto; try (apply same_st; reflexivity); discriminate.
    + unfold sh_set_q, tw_set_w. cbn [sh_q sh_failed sh_err sh_waiters tw_w tw_buf tw_min tw_pc]. apply (NOP _ _ _ _ _ wt); auto; try (apply same_st; reflexivity); discriminate.
  - intros [= <- <- _]. apply (NOP _ _ _ _ _ wt); auto; try (apply same_st; reflexivity); discriminate.
  - intros [= <- <- _]. apply (NOP _ _ _ _ _ wt); auto; try (apply same_st; reflexivity); discriminate.
Qed.

(** ** A step of either, a call, a run *)
Lemma step_hand e x x' l : hand x l -> step dict wl D skip e x = Some x' -> hand x' (observe e x x' l).
Proof.
  destruct x as [s w m]. intros [(HS & HM & HO) FM WP MP]. cbn [wd_sh wd_w wd_m] in *.
  assert (IDLE : forall st1 st2 e0, e0 = e -> hand (WD s (tw_set_st w st1) (tm_set_st m st2)) (observe e0 (WD s w m) (WD s (tw_set_st w st1) (tm_set_st m st2)) l)).
  { intros st1 st2 e0 _. destruct l as [ls lg lm lt]. cbn [lg_sent lg_got lg_made lg_taken] in *.
    replace (observe e0 _ _ _) with (LG ls lg lm lt); [split; [split; [|split]|..]; assumption|]. destruct e0; cbn [observe wd_sh wd_w wd_m tm_set_st tm_m tw_set_st tw_w lg_sent lg_got lg_made lg_taken]; try reflexivity.
    - rewrite skipn_all, app_nil_r. destruct (m_cmds (tm_m m)) as [|c cs]; [rewrite app_nil_r; reflexivity|]. rewrite neqb_S, app_nil_r. reflexivity.
    - rewrite Nat.ltb_irrefl, app_nil_r, (same_st _ _ eq_refl), app_nil_r. reflexivity. }
  assert (WS : forall w0, tw_set_st w0 (tw_st w0) = w0) by (intros []; reflexivity). assert (MS : forall m0, tm_set_st m0 (tm_st m0) = m0) by (intros []; reflexivity).
  assert (STAY : hand (WD s w m) (observe e (WD s w m) (WD s w m) l)).
  { specialize (IDLE (tw_st w) (tm_st m) e eq_refl). rewrite WS, MS in IDLE. exact IDLE. }
  unfold step. cbn [wd_sh wd_w wd_m]. destruct e.
  - assert (GO : forall s0, (s0 = s \/ exists z, s0 = sh_wait s z) -> (let? '(s1, m1, note) := mstep dict skip s0 (tm_set_st m Awake) in Some (WD s1 (if note then tw_set_st w (wake (tw_st w)) else w) m1)) = Some x' -> hand x' (observe ByMain (WD s w m) x' l)).
    { intros s0 S0. destruct (mstep dict skip s0 (tm_set_st m Awake)) as [((s1 & m1) & note)|] eqn:E; cbn [bind]; [|discriminate]. intros [= <-].
      apply mstep_effect in E; [|exact MP]. destruct E as (ER & bs & tk & QD & FB & CQ & TK & OU & PL).
      assert (Q0 : sh_q s0 = sh_q s /\ sh_err s0 = sh_err s) by (destruct S0 as [-> |(z & ->)]; split; reflexivity). destruct Q0 as (Q0 & E0). rewrite Q0 in *. rewrite E0 in ER. cbn [tm_set_st tm_m tm_pc] in *.
      destruct (if note then _ else w) as [w2 b2 mn2 pc2 st2] eqn:WE.
      assert (W2 : w2 = tw_w w /\ b2 = tw_buf w /\ pc2 = tw_pc w) by (destruct note; destruct w as [a1 a2 a3 a4 a5]; cbn [tw_set_st tw_w tw_buf tw_min tw_pc tw_st] in *; injection WE as -> -> _ -> _; auto). destruct W2 as (-> & -> & ->).
      split; cbn [wd_sh wd_w wd_m observe accounted lg_sent lg_got lg_made lg_taken].
      - unfold accounted. cbn [wd_sh wd_w wd_m observe lg_sent lg_got lg_made lg_taken tw_w tw_buf]. rewrite QD, skipn_pre, TK. split; [rewrite HS, !app_assoc; reflexivity|]. split.
        + rewrite HM, <- !app_assoc. f_equal. rewrite app_assoc, CQ, <- !app_assoc. reflexivity.
        + fold (back m1). fold (back m) in HO. change (back (tm_set_st m Awake)) with (back m) in OU. rewrite zlen_app. lia.
      - rewrite QD. apply Forall_app. split; assumption.
      - cbn [tw_pc tw_w]. intros E. rewrite ER. apply WP, E.
      - exact PL. }
    destruct (tm_st m) eqn:ST; [|intros [= <-]; exact STAY|]; (destruct (in_call m); [apply GO|intros [= <-]; exact STAY]); [left; reflexivity|right; eexists; reflexivity].
  - assert (GO : forall s0, (s0 = s \/ exists z, s0 = sh_wait s z) -> (let? '(s1, w1, note) := wstep wl D s0 (tw_set_st w Awake) in Some (WD s1 w1 (if note then tm_set_st m (wake (tm_st m)) else m))) = Some x' -> hand x' (observe ByWorker (WD s w m) x' l)).
    { intros s0 S0. destruct (wstep wl D s0 (tw_set_st w Awake)) as [((s1 & w1) & note)|] eqn:E; cbn [bind]; [|discriminate]. intros [= <-].
      assert (Q0 : sh_q s0 = sh_q s /\ sh_err s0 = sh_err s) by (destruct S0 as [-> |(z & ->)]; split; reflexivity). destruct Q0 as (Q0 & E0).
      apply wstep_effect in E; [|rewrite Q0; exact FM|rewrite E0; exact WP]. destruct E as (ER & gt & mk & QD & GT & RB & MK & CN & PL). rewrite Q0 in *. rewrite E0 in ER. cbn [tw_set_st tw_w tw_buf] in *.
      set (m2 := if note then _ else m). assert (M2 : tm_m m2 = tm_m m /\ tm_pc m2 = tm_pc m) by (unfold m2; destruct note; split; reflexivity). destruct M2 as (M2 & P2).
      split; cbn [wd_sh wd_w wd_m observe lg_sent lg_got lg_made lg_taken].
      - unfold accounted. cbn [wd_sh wd_w wd_m observe lg_sent lg_got lg_made lg_taken]. rewrite M2, P2, GT, MK. split; [rewrite HS, QD, !app_assoc; reflexivity|]. split.
        + rewrite HM, RB, <- !app_assoc. reflexivity.
        + rewrite HO. unfold one in CN. lia.
      - rewrite QD in FM. apply Forall_app in FM. apply FM.
      - exact PL.
      - rewrite P2, M2. exact MP. }
    destruct (tw_st w) eqn:ST; [|intros [= <-]; exact STAY|]; (destruct (ended w); [intros [= <-]; exact STAY|apply GO]); [left; reflexivity|right; eexists; reflexivity].
  - intros [= <-]. specialize (IDLE (tw_st w) (wake (tm_st m)) WakeMain eq_refl). rewrite WS in IDLE. exact IDLE.
  - intros [= <-]. specialize (IDLE (wake (tw_st w)) (tm_st m) WakeWorker eq_refl). rewrite MS in IDLE. exact IDLE.
Qed.
Definition sess_hand (s : tsess) (l : tlog) : Prop :=
  match ts_d s with
  | PHeader _ => l = LG [] [] [] []
  | PDecode x => hand x l /\ (ts_call s = None -> in_call (wd_m x) = false)
  end.
Lemma new_hand header ws pc input n room : back (TM (main_new header ws) pc Awake input n [] room) = [] -> hand (WD shared_new (wthread_new D) (TM (main_new header ws) pc Awake input n [] room)) (LG [] [] [] []).
Proof.
  intros B. split; [split; [reflexivity|split; [reflexivity|]]|constructor|discriminate|reflexivity].
  cbn [wd_sh wd_w wd_m tm_m].
  change (match tm_pc _ with MBack bufs _ _ => bufs | _ => [] end) with (back (TM (main_new header ws) pc Awake input n [] room)). rewrite B. reflexivity.
Qed.
Lemma observe_same e s w m m' l : m_cmds (tm_m m') = m_cmds (tm_m m) -> observe e (WD s w m) (WD s w m') l = l.
Proof.
  intros CE. destruct l as [a b c d], e; cbn [observe wd_sh wd_w wd_m lg_sent lg_got lg_made lg_taken]; try reflexivity.
  - rewrite skipn_all, app_nil_r, CE. destruct (m_cmds (tm_m m)) as [|x xs]; [rewrite app_nil_r; reflexivity|]. rewrite neqb_S, app_nil_r. reflexivity.
  - rewrite Nat.ltb_irrefl, app_nil_r, (same_st _ _ eq_refl), app_nil_r. reflexivity.
Qed.
Lemma observe_self e x l : observe e x x l = l.
Proof. destruct x as [s w m]. apply observe_same. reflexivity. Qed.
Lemma step_back_out e x x' : step dict wl D skip e x = Some x' -> in_call (wd_m x) = false -> in_call (wd_m x') = false.
Proof.
  destruct x as [s w m]. unfold step. cbn [wd_sh wd_w wd_m]. intros E IC.
  revert E. destruct e.
  - rewrite IC. destruct (tm_st m); intros [= <-]; exact IC.
  - destruct (tw_st w); [| |]; try (intros [= <-]; exact IC); (destruct (ended w); [intros [= <-]; exact IC|]); (destruct (wstep _ _ _ _) as [((? & ?) & note)|]; cbn [bind]; [|discriminate]); intros [= <-]; cbn [wd_m]; destruct note; exact IC.
  - intros [= <-]. exact IC.
  - intros [= <-]. exact IC.
Qed.
Lemma event_hand e s s' l : sess_hand s l -> tevent dict wl D skip e s = Some s' ->
  sess_hand s' (match ts_d s, ts_d s' with PDecode x, PDecode x' => observe e x x' l | _, _ => l end).
Proof.
  intros H.
  assert (STAY : sess_hand s (match ts_d s, ts_d s with PDecode x, PDecode x' => observe e x x' l | _, _ => l end)).
  { unfold sess_hand in *. destruct (ts_d s) as [h|x]; [exact H|]. rewrite observe_self. exact H. }
  unfold tevent. destruct (ts_v s); [intros [= <-]; exact STAY| |intros [= <-]; exact STAY].
  assert (STEP :
    match ts_d s with
    | PHeader _ => Some s
    | PDecode x => let? x := step dict wl D skip e x in match ts_call s, tm_pc (wd_m x) with
        | Some (input, room), MRet r => Some (returned (PDecode x) input room (ts_calls s) (ts_out s) (tm_n (wd_m x)) (tm_out (wd_m x)) r)
        | c, _ => Some (TS (PDecode x) c (ts_rest s) (ts_calls s) (ts_out s) Waiting) end
    end = Some s' -> sess_hand s' (match ts_d s, ts_d s' with PDecode x, PDecode x' => observe e x x' l | _, _ => l end)).
  { destruct s as [d c rest calls out v]. cbn [ts_d ts_call ts_rest ts_calls ts_out] in *. destruct d as [h|x]; [intros [= <-]; exact STAY|].
    destruct (step dict wl D skip e x) as [x1|] eqn:SE; cbn [bind]; [|discriminate]. unfold sess_hand in H. cbn [ts_d ts_call] in H. destruct H as (HH & HB).
    pose proof (step_hand _ _ _ _ HH SE) as H1.
    destruct c as [(input & room)|].
    - destruct (tm_pc (wd_m x1)) eqn:PC; intros [= <-]; unfold sess_hand, returned; cbn [ts_d ts_call]; (split; [exact H1|]); try discriminate. intros _. unfold in_call. rewrite PC. reflexivity.
    - intros [= <-]. unfold sess_hand. cbn [ts_d ts_call]. split; [exact H1|]. intros _. apply (step_back_out _ _ _ SE). apply HB; reflexivity. }
  destruct e; try exact STEP. destruct (ts_call s) as [ir|] eqn:CE; [exact STEP|]. clear STEP.
  destruct (ts_calls s) as [|(piece & room) calls]; [intros [= <-]; exact STAY|]. cbn zeta. unfold sess_hand in H |- *. destruct (ts_d s) as [h|x] eqn:DE; cbn [begin_call].
  - subst l. destruct (hp_decode h (ts_rest s ++ piece)) as [[h1 n1] r1]. destruct r1 as [|ws|er]; try (intros [= <-]; reflexivity).
    destruct (_ <? _); intros [= <-]; unfold returned; cbn [ts_d ts_call]; (split; [apply new_hand; reflexivity|]); [discriminate|reflexivity].
  - intros [= <-]. cbn [ts_d ts_call]. split; [|discriminate]. destruct x as [sh w m]. cbn [wd_sh wd_w wd_m]. rewrite observe_same by reflexivity. destruct H as ([(A & B & C) FM WP MP] & IC). specialize (IC CE). cbn [wd_sh wd_w wd_m] in *.
    split; [split; [exact A|split; [exact B|]]|exact FM|exact WP|discriminate]. cbn [wd_sh wd_w wd_m tm_m tm_pc]. rewrite C. unfold in_call in IC. destruct (tm_pc m); try discriminate. reflexivity.
Qed.
Lemma traced_hand sched : forall s l s' l', sess_hand s l -> traced dict wl D skip sched s l = Some (s', l') -> sess_hand s' l'.
Proof.
  induction sched as [|e sched IH]; intros s l s' l' H; cbn [traced]; [intros [= <- <-]; exact H|].
  destruct (tevent dict wl D skip e s) as [s1|] eqn:E; cbn [bind]; [|discriminate]. apply IH. exact (event_hand _ _ _ _ H E).
Qed.
Lemma traced_run sched : forall s l, match traced dict wl D skip sched s l with Some (s', _) => Some s' | None => None end = trun dict wl D skip sched s.
Proof.
  induction sched as [|e sched IH]; intros s l; cbn [traced trun]; [reflexivity|].
  destruct (tevent dict wl D skip e s) as [s1|]; cbn [bind]; [apply IH|reflexivity].
Qed.
End Hand.
