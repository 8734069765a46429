(** Two threads: freeing; a stream that lacks its commands. *)
From Verif Require Import Prelude ProofList ModelAns ModelCdf ModelRecode SpecLz ModelMux SpecMux ProofZlist ModelCmd ModelCrc ModelHeader ProofHeader ModelPriors ModelCodec ModelLit ModelPm ModelTop SpecCodec ModelEnc ModelDec SpecEnc SpecDec ProofDec7 ModelThread SpecThread ProofThread2 ProofThread4.

Section Hungry.
Context (dict : dict_fn) (wl : word_len_fn) (D : dims) (skip : bool).
Lemma wanting_step s t : sh_err s = true -> wanting t -> exists s' t' note, wstep wl D s t = Some (s', t', note) /\ sh_err s' = true /\ wanting t' /\ ended t' = false.
Proof.
  intros SE (ST & WM & PC). destruct t as [w buf mn pc st]. cbn [tw_w tw_pc] in *. unfold wstep. cbn [tw_pc tw_w]. destruct PC as [-> |[-> | ->]].
  - assert (K : exists t', (if zlen (mem (wk_slice w)) =? 0 then tw_go (TW w buf mn WRun st) WPull else start_push (TW w buf mn WRun st) KPull None) = t' /\ wanting t' /\ ended t' = false).
    { eexists. split; [reflexivity|]. destruct (_ =? 0); (split; [split; [exact ST|split; [exact WM|auto]]|reflexivity]). }
    destruct K as (t' & K & W' & E'). exists s, t', false. split; [|auto]. pose proof ST as ST0. unfold starving in ST.
    destruct (k_st (wk_c w)) eqn:KS; try discriminate ST; rewrite WM, ST0, K; reflexivity.
  - destruct (q_data (sh_q s)) as [|b bs].
    + exists (sh_wait s 1), (tw_sleep (TW w buf mn WPull st)), false. split; [reflexivity|]. split; [exact SE|]. split; [split; [exact ST|split; [exact WM|auto]]|reflexivity].
    + rewrite SE. exists s, (tw_go (TW w buf mn WPull st) WRun), false. split; [reflexivity|]. split; [exact SE|]. split; [split; [exact ST|split; [exact WM|auto]]|reflexivity].
  - unfold force_push. cbn [tw_w tw_buf tw_min tw_pc tw_st]. unfold send_back. rewrite SE.
    assert (K : forall s0 sent, sh_err s0 = true -> exists s' t' note, push_results s0 (TW w buf mn (WPush KPull None) st) KPull None sent = Some (s', t', note) /\ sh_err s' = true /\ wanting t' /\ ended t' = false).
    { intros s0 sent SE0. unfold push_results. cbn [tw_buf tw_w tw_min assert]. destruct (_ <=? _).
      - eexists _, _, _. split; [reflexivity|]. split; [exact SE0|]. split; [split; [exact ST|split; [exact WM|auto]]|reflexivity].
      - rewrite SE0. eexists _, _, _. split; [reflexivity|]. split; [exact SE0|]. split; [split; [exact ST|split; [exact WM|auto]]|reflexivity]. }
    destruct (negb (zlen (mem (wk_slice w)) =? 0)); apply K; [reflexivity|exact SE].
Qed.
Lemma wanting_st t x : wanting t -> wanting (tw_set_st t x). Proof. intros H. exact H. Qed.
Definition hangs (x : world) : Prop := sh_err (wd_sh x) = true /\ wanting (wd_w x) /\ in_call (wd_m x) = false.
Lemma wanting_ended t : wanting t -> ended t = false.
Proof. intros (_ & _ & PC). unfold ended. destruct PC as [-> |[-> | ->]]; reflexivity. Qed.
Lemma hangs_step e x : hangs x -> exists x', step dict wl D skip e x = Some x' /\ hangs x'.
Proof.
  intros (SE & W & IC). destruct x as [s w m]. cbn [wd_sh wd_w wd_m] in *. unfold step. cbn [wd_sh wd_w wd_m]. destruct e.
  - rewrite IC. exists (WD s w m). split; [destruct (tm_st m); reflexivity|split; [exact SE|split; [exact W|exact IC]]].
  - rewrite (wanting_ended _ W).
    assert (L : forall y, sh_err (leave_wait y s) = true) by (intros []; exact SE).
    assert (GO : exists x', (let? '(s0, w0, note) := wstep wl D (leave_wait (tw_st w) s) (tw_set_st w Awake) in Some (WD s0 w0 (if note then tm_set_st m (wake (tm_st m)) else m))) = Some x' /\ hangs x').
    { destruct (wanting_step (leave_wait (tw_st w) s) (tw_set_st w Awake) (L _) (wanting_st _ _ W)) as (s' & t' & note & -> & SE' & W' & _). cbn [bind]. eexists. split; [reflexivity|]. split; [exact SE'|]. split; [exact W'|]. destruct note; exact IC. }
    destruct (tw_st w); [exact GO| |exact GO]. exists (WD s w m). split; [reflexivity|]. split; [exact SE|]. split; [exact W|exact IC].
  - eexists. split; [reflexivity|]. split; [exact SE|]. split; [exact W|exact IC].
  - eexists. split; [reflexivity|]. split; [exact SE|]. split; [exact W|exact IC].
Qed.
Lemma hangs_run l : forall x, hangs x -> exists x', wrun dict wl D skip l x = Some x' /\ hangs x'.
Proof. induction l as [|e l IH]; intros x H; [exists x; auto|]. cbn [wrun]. destruct (hangs_step e x H) as (x1 & -> & H1). cbn [bind]. apply IH, H1. Qed.
Lemma hangs_free x : wanting (wd_w x) -> in_call (wd_m x) = false -> hangs (begin_free x).
Proof. intros W IC. destruct x as [s w m]. split; [reflexivity|]. split; [|exact IC]. unfold begin_free. cbn [wd_w wd_sh]. destruct (notify s); exact W. Qed.
Lemma freed_hangs x l : wanting (wd_w x) -> in_call (wd_m x) = false -> freed dict wl D skip l (PDecode x) = false.
Proof.
  intros W IC. unfold freed. destruct (hangs_run l _ (hangs_free x W IC)) as (y & -> & _ & W' & _). exact (wanting_ended _ W').
Qed.
Lemma freed_ended l : forall x, ended (wd_w x) = true -> in_call (wd_m x) = false -> freed dict wl D skip l (PDecode x) = true.
Proof.
  intros x EN IC. unfold freed. assert (K : ended (wd_w (begin_free x)) = true /\ in_call (wd_m (begin_free x)) = false).
  { destruct x as [s w m]. unfold begin_free. cbn [wd_w wd_sh wd_m] in *. destruct (notify s); split; assumption. }
  destruct K as (K & K2). revert K K2. generalize (begin_free x). clear x EN IC. induction l as [|e l IH]; intros x K K2; cbn [wrun]; [exact K|].
  destruct x as [s w m]. cbn [wd_w wd_m] in *. unfold step at 1. cbn [wd_w wd_sh wd_m]. rewrite K2, K. destruct e.
  - destruct (tm_st m); cbn [bind]; apply IH; assumption.
  - destruct (tw_st w); cbn [bind]; apply IH; assumption.
  - cbn [bind]. apply IH; assumption.
  - cbn [bind]. apply IH; assumption.
Qed.
(** a new worker wants bytes *)
Lemma new_wanting : wanting (wthread_new D).
Proof. split; [reflexivity|]. split; [reflexivity|]. left. reflexivity. Qed.

(** without an error, a wanting worker with nothing to pull goes on wanting *)
Definition waits (s : shared) (t : wthread) : Prop := sh_q s = squeue_new /\ sh_failed s = false /\ sh_err s = false /\
  starving (tw_w t) = true /\ wants_map (wk_c (tw_w t)) = false /\ zlen (mem (wk_slice (tw_w t))) = 0 /\ tw_buf t = [] /\ (tw_pc t = WRun \/ tw_pc t = WPull).
Lemma waits_step s t : waits s t -> exists s' t', wstep wl D s t = Some (s', t', false) /\ waits s' t'.
Proof.
  intros (Q & SF & SE & ST & WM & M0 & B0 & PC). destruct t as [w buf mn pc st]. cbn [tw_w tw_pc tw_buf] in *. unfold wstep. cbn [tw_pc tw_w]. destruct PC as [-> | ->].
  - exists s, (tw_go (TW w buf mn WRun st) WPull). split; [|do 6 (split; [assumption|]); split; [exact B0|right; reflexivity]]. pose proof ST as ST0. unfold starving in ST. pose proof WM as WM0. unfold wants_map in WM.
    rewrite M0. change (0 =? 0) with true. destruct (k_st (wk_c w)) eqn:KS; try discriminate ST; rewrite WM0, ST0; reflexivity.
  - rewrite Q. change (q_data squeue_new) with (@nil mbuf). exists (sh_wait s 1), (tw_sleep (TW w buf mn WPull st)). split; [reflexivity|]. do 6 (split; [assumption|]). split; [exact B0|right; reflexivity].
Qed.
(** the main thread on a stream that ends at once *)
Definition no_commands (t : mthread) : Prop :=
  let m := tm_m t in
  m_cmds m = [] /\ m_eof m = false /\ m_lit m = None /\ m_pop m = None /\ m_pred m = (pm_nop, pm_nop) /\
  (tm_pc t = MOut \/ tm_pc t = MNext \/ tm_pc t = MPull).
Lemma no_commands_step s t : sh_q s = squeue_new -> sh_failed s = false -> sh_err s = false -> no_commands t ->
  exists s' t', mstep dict skip s t = Some (s', t', false) /\ no_commands t' /\ sh_q s' = squeue_new /\ sh_failed s' = false /\ sh_err s' = false.
Proof.
  intros Q SF SE (C & E & L & PP & PR & PC). destruct t as [m pc st i n o r]. cbn [tm_m tm_pc] in *. unfold mstep. cbn [tm_m tm_pc tm_room]. destruct PC as [-> |[-> | ->]].
  - unfold output_front. rewrite L. cbn [bind negb]. rewrite PP. cbn [bind]. exists s. eexists. split; [reflexivity|]. split; [|auto]. do 5 (split; [assumption|]). right. left. reflexivity.
  - rewrite C, E. exists s. eexists. split; [reflexivity|]. split; [|auto]. do 5 (split; [assumption|]). right. right. reflexivity.
  - rewrite PR. change (negb (has_speeds (fst (pm_nop, pm_nop))) && negb (has_speeds (snd (pm_nop, pm_nop)))) with true. cbn [assert]. unfold result_ready. rewrite Q, SF. change (q_eof squeue_new) with false. change (negb (zlen (q_res squeue_new) =? 0)) with false. change (negb (zlen (q_rdata squeue_new) =? 0)) with false. cbn [orb]. rewrite SE.
    exists (sh_wait s 1). eexists. split; [reflexivity|]. split; [|auto]. do 5 (split; [assumption|]). right. right. reflexivity.
Qed.
Definition dead (x : world) : Prop := waits (wd_sh x) (wd_w x) /\ no_commands (wd_m x).
Lemma waits_q s t s' : waits s t -> sh_q s' = squeue_new -> sh_failed s' = false -> sh_err s' = false -> waits s' t.
Proof. intros (Q & SF & SE & R) Q' SF' SE'. split; [exact Q'|]. split; [exact SF'|]. split; [exact SE'|exact R]. Qed.
Lemma waits_ended s t : waits s t -> ended t = false.
Proof. intros (_ & _ & _ & _ & _ & _ & _ & PC). unfold ended. destruct PC as [-> | ->]; reflexivity. Qed.
Lemma no_commands_call t : no_commands t -> in_call t = true.
Proof. intros (_ & _ & _ & _ & _ & PC). unfold in_call. destruct PC as [-> |[-> | ->]]; reflexivity. Qed.
Lemma leave_q y s : sh_q (leave_wait y s) = sh_q s /\ sh_failed (leave_wait y s) = sh_failed s /\ sh_err (leave_wait y s) = sh_err s.
Proof. destruct y; auto. Qed.
Lemma dead_step e x : dead x -> exists x', step dict wl D skip e x = Some x' /\ dead x'.
Proof.
  intros (W & M). destruct x as [s w m]. cbn [wd_sh wd_w wd_m] in *. unfold step. cbn [wd_sh wd_w wd_m]. destruct e.
  - rewrite (no_commands_call _ M).
    assert (GO : exists x', (let? '(s0, m0, note) := mstep dict skip (leave_wait (tm_st m) s) (tm_set_st m Awake) in Some (WD s0 (if note then tw_set_st w (wake (tw_st w)) else w) m0)) = Some x' /\ dead x').
    { destruct (leave_q (tm_st m) s) as (L1 & L2 & L3). pose proof W as (Q & SF & SE & _).
      destruct (no_commands_step (leave_wait (tm_st m) s) (tm_set_st m Awake)) as (s' & t' & -> & M' & Q' & SF' & SE'); [congruence|congruence|congruence|exact M|]. cbn [bind]. eexists. split; [reflexivity|]. split; [|exact M']. apply (waits_q s); assumption. }
    destruct (tm_st m); [exact GO| |exact GO]. exists (WD s w m). split; [reflexivity|split; assumption].
  - rewrite (waits_ended _ _ W).
    assert (GO : exists x', (let? '(s0, w0, note) := wstep wl D (leave_wait (tw_st w) s) (tw_set_st w Awake) in Some (WD s0 w0 (if note then tm_set_st m (wake (tm_st m)) else m))) = Some x' /\ dead x').
    { destruct (leave_q (tw_st w) s) as (L1 & L2 & L3). pose proof W as (Q & SF & SE & _).
      destruct (waits_step (leave_wait (tw_st w) s) (tw_set_st w Awake)) as (s' & t' & -> & W'); [apply (waits_q s); [exact W|congruence|congruence|congruence]|]. cbn [bind]. eexists. split; [reflexivity|]. split; [exact W'|exact M]. }
    destruct (tw_st w); [exact GO| |exact GO]. exists (WD s w m). split; [reflexivity|split; assumption].
  - eexists. split; [reflexivity|]. split; [exact W|exact M].
  - eexists. split; [reflexivity|]. split; [exact W|exact M].
Qed.

Definition empty_mux : list Z := [255; 254; 255].
Lemma empty_input q crc ws tr : q = squeue_new -> length tr = 8%nat -> exists crc' x,
  process_input skip q (main_new crc ws) (empty_mux ++ tr) = Some (11, squeue_new, m_set_in (main_new crc ws) x crc' tr 0, true) /\ is_done (eof x) = true /\ wr (buf0 x) - rd (buf0 x) = 0.
Proof.
  intros -> L. do 8 (destruct tr as [|? tr]; [discriminate L|]). destruct tr; [|discriminate L]. unfold process_input. cbn [main_new m_mux m_crc m_trailer m_out].
  match goal with |- context [deserialize mux_new ?l] => assert (DS : exists x, deserialize mux_new l = Some (3, x) /\ is_done (eof x) = true /\ wr (buf0 x) - rd (buf0 x) = 0 /\ zlen l = 11) end.
  { eexists. split; [vm_compute; reflexivity|]. split; [vm_compute; reflexivity|]. split; vm_compute; reflexivity. }
  destruct DS as (x & -> & DN & WR & _). cbn [bind]. rewrite DN, WR. change (0 =? 0) with true. cbn [negb orb].
  eexists _, x. split; [|split; [exact DN|exact WR]]. reflexivity.
Qed.
Definition fresh (ws : Z) (tr : list Z) (room : Z) (x : world) : Prop :=
  waits (wd_sh x) (wd_w x) /\ exists crc, wd_m x = TM (main_new crc ws) MIn Awake (empty_mux ++ tr) 16 [] room.
Lemma fresh_step ws tr room e x : length tr = 8%nat -> fresh ws tr room x -> exists x', step dict wl D skip e x = Some x' /\ (dead x' \/ fresh ws tr room x').
Proof.
  intros L (W & crc & M). destruct x as [s w m]. cbn [wd_sh wd_w wd_m] in *. unfold step. cbn [wd_sh wd_w wd_m]. subst m. destruct e; cbn [tm_st wake tm_set_st].
  - unfold mstep. cbn [tm_set_st in_call tm_pc leave_wait tm_m tm_in tm_n tm_out tm_room].
    pose proof W as (Q & SF & SE & _). destruct (empty_input (sh_q s) crc ws tr Q L) as (crc' & x & -> & DN & WR). cbn [bind negb]. eexists. split; [reflexivity|]. left. split.
    + rewrite Q. change (zlen (q_data squeue_new) <? zlen (q_data squeue_new)) with false. cbn [andb wd_sh wd_w]. apply (waits_q s); [exact W|reflexivity|exact SF|exact SE].
    + cbn [wd_m]. unfold no_commands. cbn [tm_m tm_pc m_set_in main_new m_cmds m_eof m_lit m_pop m_pred]. do 5 (split; [reflexivity|]). left.
      unfold receiving, ready. cbn [m_set_in m_out m_mux]. change (getb x 0) with (buf0 x). rewrite DN, WR. reflexivity.
  - rewrite (waits_ended _ _ W).
    assert (GO : exists x', (let? '(s0, w0, note) := wstep wl D (leave_wait (tw_st w) s) (tw_set_st w Awake) in Some (WD s0 w0 (if note then (TM (main_new crc ws) MIn Awake (empty_mux ++ tr) 16 [] room) else (TM (main_new crc ws) MIn Awake (empty_mux ++ tr) 16 [] room)))) = Some x' /\ (dead x' \/ fresh ws tr room x')).
    { destruct (leave_q (tw_st w) s) as (L1 & L2 & L3). pose proof W as (Q & SF & SE & _).
      destruct (waits_step (leave_wait (tw_st w) s) (tw_set_st w Awake)) as (s' & t' & -> & W'); [apply (waits_q s); [exact W|congruence|congruence|congruence]|]. cbn [bind]. eexists. split; [reflexivity|]. right. split; [exact W'|]. exists crc. reflexivity. }
    destruct (tw_st w); [exact GO| |exact GO]. eexists. split; [reflexivity|]. right. split; [exact W|exists crc; reflexivity].
  - eexists. split; [reflexivity|]. right. split; [exact W|exists crc; reflexivity].
  - eexists. split; [reflexivity|]. right. split; [exact W|exists crc; reflexivity].
Qed.
Lemma new_waits header ws pc input n room : waits (wd_sh (world_new D skip header ws pc input n room)) (wd_w (world_new D skip header ws pc input n room)).
Proof. split; [reflexivity|]. split; [reflexivity|]. split; [reflexivity|]. split; [reflexivity|]. split; [reflexivity|]. split; [reflexivity|]. split; [reflexivity|]. left. reflexivity. Qed.
Lemma header_call ws (WS : 10 <= ws <= 24) l room : begin_call D skip pdec_new (make_header ws ++ l) room =
  (if 16 <? zlen (make_header ws ++ l) then (PDecode (world_new D skip (make_header ws) ws MIn l 16 room), None) else (PDecode (world_new D skip (make_header ws) ws (MRet DNeedIn) [] 16 room), Some (16, DNeedIn))).
Proof.
  unfold pdec_new, begin_call, hp_decode. change (length (hp_header hp_new)) with 16%nat. change (hp_read_offset hp_new) with 0%nat. cbn [Nat.sub].
  rewrite app_length, make_header_length. change (16 <=? 16 + length l)%nat with true. cbn iota.
  assert (F : firstn 16 (make_header ws ++ l) = make_header ws) by (rewrite <- (make_header_length ws) at 1; rewrite firstn_app, firstn_all, Nat.sub_diag; apply app_nil_r). rewrite F.
  assert (OV : overwrite (hp_header hp_new) 0 (make_header ws) = make_header ws).
  { destruct (overwrite_app (hp_header hp_new) [] (make_header ws) eq_refl eq_refl ltac:(rewrite make_header_length; cbn; lia)) as (L2 & F2). cbn [length app] in *. rewrite firstn_all2 in F2; [exact F2|]. rewrite make_header_length. lia. }
  rewrite OV. cbn [hp_header]. rewrite (make_header_parse ws WS). cbn iota. change (Z.of_nat 16) with 16.
  assert (ZH : zlen (make_header ws) = 16) by (unfold zlen; rewrite make_header_length; reflexivity).
  assert (ZS : zskip 16 (make_header ws ++ l) = l) by (rewrite <- ZH; apply zskip_pre). rewrite ZS. reflexivity.
Qed.
End Hungry.
