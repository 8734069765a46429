(** Decompressor: one run of decode_process_output. *)
From Verif Require ProofRecode3.
From Verif Require Import Prelude ProofList ModelAns SpecAns ModelCdf SpecCdf ModelRecode SpecLz ProofRecode ProofRecode2 ProofAns ProofAnsRt ProofAnsDec ThmCdf ModelMux ProofZlist ProofMux ProofMuxR ModelCmd ModelCrc SpecCrc ModelHeader SpecHeader ProofHeader ModelPriors ModelCodec ModelLit ModelPm ModelTop SpecCodec SpecReplay SpecFile ModelEnc ProofSim ModelDec ProofDec1 ProofDec2 ProofDec3 ProofDec4.

Section Out.
Context (dict : dict_fn) (wl : word_len_fn) (D : dims) (wlen k : Z) (K8 : 3 <= k) (WL : wlen = 2 ^ k).
Notation MTR := (mtr dict wlen).

(** all commands not yet taken by the main thread, as the worker saw them *)
Definition pending (q : squeue) (m : main) (outsW : list command) : list command :=
  expand (fst (m_pred m)) (m_cmds m) ++ expand (fst (q_rcm q)) (q_res q) ++ outsW.
Record sinv (n : nat) (pw : predmode) (ci : codec unit) (ces : list ev) (outsW : list command) (pa : list Z) (w : worker) (q : squeue) (m : main) : Prop := {
  sv_w : winv wl D n pw ci ces outsW (cpm (m_cmds m)) (mb_data (buf0 (m_mux m)) ++ pa) w q;
  sv_mux : rinv (m_mux m);
  sv_out : m_out m = held w q;
  sv_eof : m_eof m = true -> wk_done w = true /\ q_res q = [];
  sv_pq : has_speeds (fst (m_pred m)) = Nat.eqb (cpm (m_cmds m)) 1;
  sv_pq2 : cpm (m_cmds m) = 1%nat -> fst (m_pred m) = k_pm ci;
  sv_ps : has_speeds (snd (m_pred m)) = false }.

Lemma rinv_buf0 x b : rinv x -> bok b -> rinv (setb x 0 b).
Proof. clear K8 WL. intros (A & B & C) H. split; [exact H|]. split; [exact B|exact C]. Qed.
Lemma rinv_buf1 x b : rinv x -> bok b -> rinv (setb x 1 b).
Proof. clear K8 WL. intros (A & B & C) H. split; [exact A|]. split; [exact H|exact C]. Qed.
Lemma bok_empty : bok mb_empty.
Proof. clear K8 WL. unfold bok, mb_empty. cbn [rd wr mem]. change (zlen (@nil Z)) with 0. lia. Qed.
Lemma zlen_nil_inv {A} (l : list A) : zlen l = 0 -> l = [].
Proof. clear K8 WL. destruct l as [|x l]; [reflexivity|]. rewrite zlen_cons. pose proof (zlen_nonneg l). lia. Qed.
Lemma bok_donate b (x : list Z) : bok b -> zlen (mem b) = 0 -> bok (MB x (rd b) (wr b)) /\ mb_data (MB x (rd b) (wr b)) = mb_data b.
Proof. clear K8 WL.
  intros (A & B & C) E. assert (R : rd b = 0 /\ wr b = 0) by lia. destruct R as (R1 & R2). unfold bok, mb_data. cbn [rd wr mem]. rewrite R1, R2. split; [pose proof (zlen_nonneg x); lia|]. reflexivity.
Qed.

(** what the loop over returned buffers does *)
Lemma take_back_spec n pw ci ces outsW cM pa w : forall bufs q m, winv wl D n pw ci ces outsW cM (mb_data (buf0 (m_mux m)) ++ pa) w q -> rinv (m_mux m) ->
  q_rdata q = [] -> m_out m = held w q + zlen bufs ->
  exists b' qd o need, take_back bufs q m = Some (q_set_data q qd, m_set_buf m b' o, need) /\
    winv wl D n pw ci ces outsW cM (mb_data b' ++ pa) w (q_set_data q qd) /\ bok b' /\ o = held w (q_set_data q qd) /\
    mb_data (wk_slice w) ++ concat (map mb_data qd) ++ mb_data b' = mb_data (wk_slice w) ++ qbytes q ++ mb_data (buf0 (m_mux m)) /\
    (need = true -> is_done (eof (m_mux m)) = false) /\
    (bufs <> [] -> q_data q = [] -> zlen (mem (wk_slice w)) = 0 -> mb_data (buf0 (m_mux m)) = [] -> is_done (eof (m_mux m)) = false -> need = true).
Proof.
  induction bufs as [|dat bufs IH]; intros q m V RI RD OUT.
  { exists (buf0 (m_mux m)), (q_data q), (m_out m), false. cbn [take_back]. split; [destruct q, m as [[]]; reflexivity|].
    assert (Q : q_set_data q (q_data q) = q) by (destruct q; reflexivity). rewrite Q. split; [exact V|]. split; [apply RI|]. change (zlen (@nil mbuf)) with 0 in OUT. split; [lia|]. split; [reflexivity|]. split; [discriminate|]. intros X. contradiction X. reflexivity. }
  cbn [take_back]. rewrite zlen_cons in OUT. pose proof (zlen_nonneg bufs) as LB.
  assert (HN : 0 <= held w q) by (unfold held; pose proof (zlen_nonneg (q_data q)); pose proof (zlen_nonneg (q_rdata q)); destruct (_ =? 0); lia).
  unfold assert. destruct (Z.leb_spec 1 (m_out m)) as [_|X]; [|lia].
  pose proof RI as (B0 & B1 & TD). pose proof (mb_data_len _ B0) as L0.
  unfold q_push. destruct ((2 <=? zlen (q_data q)) || (zlen (mb_data (buf0 (m_mux m))) =? 0)) eqn:PU.
  - (* nothing pushed *)
    set (cmd := buf0 (m_mux m)) in *.
    set (cmd' := if zlen (mem cmd) =? 0 then MB (mem dat) (rd cmd) (wr cmd) else cmd).
    assert (C' : bok cmd' /\ mb_data cmd' = mb_data cmd) by (unfold cmd'; destruct (Z.eqb_spec (zlen (mem cmd)) 0); [apply bok_donate; assumption|auto]). destruct C' as (BC & DC).
    destruct (IH q (m_set_buf m cmd' (m_out m - 1))) as (b' & qd & o & need & E & V' & B' & O' & DT & N1 & N2).
    + change (buf0 (m_mux (m_set_buf m cmd' (m_out m - 1)))) with cmd'. rewrite DC. exact V.
    + apply rinv_buf0; assumption.
    + exact RD.
    + change (m_out (m_set_buf m cmd' (m_out m - 1))) with (m_out m - 1). lia.
    + rewrite E. cbn [bind]. exists b', qd, o. eexists. split; [reflexivity|]. split; [exact V'|]. split; [exact B'|]. split; [exact O'|].
      change (buf0 (m_mux (m_set_buf m cmd' (m_out m - 1)))) with cmd' in *. change (eof (m_mux (m_set_buf m cmd' (m_out m - 1)))) with (eof (m_mux m)) in *. rewrite DC in *. split; [exact DT|]. split.
      * intros X. apply orb_prop in X. destruct X as [X|X]; [|apply N1; exact X]. apply andb_prop in X. destruct X as (X1 & X2). apply Z.eqb_eq in X1.
        assert (QD : zlen (q_data q) = 0) by (unfold held in OUT; rewrite RD in OUT; change (zlen (@nil mbuf)) with 0 in OUT; pose proof (zlen_nonneg (q_data q)); destruct (_ =? 0) in OUT; lia).
        rewrite QD in PU. cbn [orb] in PU. change (2 <=? 0) with false in PU. cbn [orb] in PU. apply Z.eqb_eq in PU. rewrite <- L0, PU in X2. change (0 =? 0) with true in X2. cbn [negb orb] in X2. destruct (is_done _); [discriminate X2|reflexivity].
      * intros _ QD MS DE ID. destruct bufs as [|x bufs]; [|rewrite (N2 ltac:(discriminate) QD MS DE ID); apply orb_true_r].
        unfold held in OUT. rewrite RD, QD, MS in OUT. change (zlen (@nil mbuf)) with 0 in OUT. change (0 =? 0) with true in OUT. cbv iota in OUT. assert (O0 : m_out m - 1 = 0) by lia. rewrite O0, ID. change (0 =? 0) with true. cbn [negb andb]. rewrite orb_true_r. reflexivity.
  - apply orb_false_elim in PU. destruct PU as (P1 & P2). apply Z.leb_gt in P1. apply Z.eqb_neq in P2. cbn [mem mb_empty rd wr]. change (zlen (@nil Z) =? 0) with true. cbv iota.
    assert (NE : mb_data (buf0 (m_mux m)) <> []) by (intros X; rewrite X in P2; apply P2; reflexivity).
    destruct (IH (q_set_data q (q_data q ++ [buf0 (m_mux m)])) (m_set_buf m (MB (mem dat) 0 0) (m_out m - 1 + 1))) as (b' & qd & o & need & E & V' & B' & O' & DT & N1 & N2).
    + change (buf0 (m_mux (m_set_buf m (MB (mem dat) 0 0) (m_out m - 1 + 1)))) with (MB (mem dat) 0 0). change (mb_data (MB (mem dat) 0 0)) with (@nil Z). cbn [app].
      destruct V as [TR FW WC AR BS FD D2 R2 EO DN TK TW TP TQ TQ2 TS TC]. constructor; try assumption.
      * unfold qbytes in *. cbn [q_data q_set_data]. rewrite map_app, concat_app. cbn [map concat]. rewrite app_nil_r, <- app_assoc. exact AR.
      * cbn [q_data q_set_data]. apply Forall_app. split; [exact FD|]. apply Forall_cons; [|constructor]. split; [exact B0|exact NE].
      * cbn [q_data q_set_data]. rewrite zlen_app. change (zlen [buf0 (m_mux m)]) with 1. lia.
    + apply rinv_buf0; [exact RI|]. unfold bok. cbn [rd wr mem]. pose proof (zlen_nonneg (mem dat)). lia.
    + exact RD.
    + change (m_out (m_set_buf m (MB (mem dat) 0 0) (m_out m - 1 + 1))) with (m_out m - 1 + 1). unfold held in *. cbn [q_data q_rdata q_set_data]. rewrite zlen_app. change (zlen [buf0 (m_mux m)]) with 1. lia.
    + rewrite E. cbn [bind]. exists b', qd, o. eexists. split; [reflexivity|]. split; [exact V'|]. split; [exact B'|]. split; [exact O'|].
      split. { rewrite DT. unfold qbytes. cbn [q_data q_set_data]. change (mb_data (buf0 (m_mux (m_set_buf m (MB (mem dat) 0 0) (m_out m - 1 + 1))))) with (@nil Z). rewrite map_app, concat_app. cbn [map concat]. rewrite !app_nil_r. reflexivity. }
      split; [exact N1|]. intros _ _ _ X. contradiction.
Qed.

Definition keep_io (m m' : main) : Prop :=
  eof (m_mux m') = eof (m_mux m) /\ to_deser (m_mux m') = to_deser (m_mux m) /\ m_crc m' = m_crc m /\ m_trailer m' = m_trailer m.
Lemma keep_io_in m m' : keep_in m m' -> keep_io m m'.
Proof. intros ((b & A1) & A2 & A3 & _). unfold keep_io. rewrite A1. auto. Qed.
Lemma keep_io_trans a b c : keep_io a b -> keep_io b c -> keep_io a c.
Proof. unfold keep_io. intuition congruence. Qed.
Definition tot (w : worker) (q : squeue) (m : main) (pa : list Z) : nat := length (mb_data (wk_slice w) ++ qbytes q ++ mb_data (buf0 (m_mux m)) ++ pa).
Definition idling (w : worker) (q : squeue) (m : main) : Prop :=
  q_rdata q <> [] /\ q_data q = [] /\ zlen (mem (wk_slice w)) = 0 /\ mb_data (buf0 (m_mux m)) = [] /\ is_done (eof (m_mux m)) = false.

Lemma pull_spec n pw ci ces outsW pa w q m e les hf pb : sinv n pw ci ces outsW pa w q m -> midle dict wlen m e (pending q m outsW) les hf pb ->
  exists q' m' need, pull_commands q m = Some (q', m', need) /\ sinv n pw ci ces outsW pa w q' m' /\ midle dict wlen m' e (pending q' m' outsW) les hf pb /\
    pending q' m' outsW = pending q m outsW /\ keep_io m m' /\ tot w q' m' pa = tot w q m pa /\ (need = true -> is_done (eof (m_mux m)) = false) /\
    (m_cmds m' = [] -> m_eof m' = false -> m_cmds m = [] /\ q_res q = [] /\ q_eof q = false /\ q_rdata q' = [] /\ (need = false -> ~ idling w q m)).
Proof.
  intros SV MI. pose proof SV as [W RI OUT EO PQ PQ2 PS]. unfold pull_commands. destruct (m_cmds m) as [|c cs] eqn:MC.
  2:{ exists q, m, false. split; [reflexivity|]. split; [exact SV|]. split; [exact MI|]. split; [reflexivity|]. split; [unfold keep_io; auto|]. split; [reflexivity|]. split; [discriminate|]. rewrite MC. discriminate. }
  destruct (m_eof m) eqn:ME.
  { exists q, m, false. split; [reflexivity|]. split; [exact SV|]. split; [exact MI|]. split; [reflexivity|]. split; [unfold keep_io; auto|]. split; [reflexivity|]. split; [discriminate|]. rewrite ME. discriminate. }
  cbn [cpm Nat.eqb] in *. rewrite PQ, PS. cbn [negb andb assert].
  assert (A2 : match q_res q with [] => negb (has_speeds (fst (q_rcm q))) && negb (has_speeds (snd (q_rcm q))) | _ => true end = true).
  { destruct (q_res q) eqn:QR; [|reflexivity]. pose proof (wv_tq _ _ _ _ _ _ _ _ _ _ _ W) as TQ. pose proof (wv_ts _ _ _ _ _ _ _ _ _ _ _ W) as TS. rewrite QR in TQ. cbn in TQ. rewrite TQ, TS. reflexivity. }
  rewrite A2. cbn [assert].
  set (q1 := SQ (q_data q) (q_cm q) [] [] (m_pred m) (q_eof q)).
  set (m1 := MN (m_mux m) (m_crc m) (m_trailer m) (m_out m) (m_lbk m) (m_mix m) (m_dec m) (m_rec m) (m_lit m) (m_pop m) (q_res q) (false || q_eof q) (q_rcm q)).
  assert (V1 : winv wl D n pw ci ces outsW (cpm (q_res q)) (mb_data (buf0 (m_mux m1)) ++ pa) w q1).
  { destruct W as [TR FW WC AR BS FD D2 R2 EO2 DN TK TW TP TQ TQ2 TS TC]. constructor; try assumption.
    - change (zlen (@nil mbuf) <= 2); change (zlen (@nil mbuf)) with 0; lia.
    - cbn [q_res q1 cpm q_cm]. lia. }
  assert (HL : m_out m1 = held w q1 + zlen (q_rdata q)) by (change (m_out m1) with (m_out m); rewrite OUT; unfold held; cbn [q1 q_data q_rdata]; change (zlen (@nil mbuf)) with 0; lia).
  destruct (take_back_spec n pw ci ces outsW (cpm (q_res q)) pa w (q_rdata q) q1 m1 V1 RI eq_refl HL) as (b' & qd & o & need & E & V' & B' & O' & DT & N1 & N2).
  rewrite E. exists (q_set_data q1 qd), (m_set_buf m1 b' o), need. split; [reflexivity|].
  assert (PE : pending (q_set_data q1 qd) (m_set_buf m1 b' o) outsW = pending q m outsW).
  { unfold pending. cbn [m_pred m_set_buf m_set_in m1 m_cmds q_set_data q1 q_rcm q_res]. rewrite MC. reflexivity. }
  split; [|split; [rewrite PE; exact MI|split; [exact PE|split; [|split; [|split; [exact N1|]]]]]].
  - constructor.
    + exact V'.
    + apply (rinv_buf0 (m_mux m)); assumption.
    + exact O'.
    + change (m_eof (m_set_buf m1 b' o)) with (q_eof q). intros X. split; [|reflexivity]. rewrite <- (wv_eof _ _ _ _ _ _ _ _ _ _ _ W). exact X.
    + exact (wv_tq _ _ _ _ _ _ _ _ _ _ _ W).
    + exact (wv_tq2 _ _ _ _ _ _ _ _ _ _ _ W).
    + exact (wv_ts _ _ _ _ _ _ _ _ _ _ _ W).
  - unfold keep_io. auto.
  - unfold tot. change (buf0 (m_mux (m_set_buf m1 b' o))) with b'. unfold qbytes at 1. cbn [q_data q_set_data]. change (qbytes q1) with (qbytes q) in DT. change (buf0 (m_mux m1)) with (buf0 (m_mux m)) in DT. apply (f_equal (@length Z)) in DT. rewrite !app_length in *. lia.
  - intros MC' ME'. change (m_cmds (m_set_buf m1 b' o)) with (q_res q) in MC'. change (m_eof (m_set_buf m1 b' o)) with (q_eof q) in ME'. split; [reflexivity|]. split; [exact MC'|]. split; [exact ME'|]. split; [reflexivity|].
    intros NF (I1 & I2 & I3 & I4 & I5). rewrite (N2 I1 I2 I3 I4 I5) in NF. discriminate NF.
Qed.

(** what a taken command leads to *)
Lemma mtr_pre l mix h outs les hf : MTR l mix h outs les hf -> exists y, hf = h ++ y.
Proof.
  induction 1 as [l mix h|l mix h c outs les hf _ _ _ (y & ->)|l mix h n he outs les1 l1 s1 les2 hf _ _ (y & ->)|l mix h t s outs les hf _ (y & ->)|l mix h p l' outs les hf _ _ (y & ->)].
  - exists []. rewrite app_nil_r. reflexivity.
  - rewrite <- app_assoc. eauto. - rewrite <- app_assoc. eauto. - eauto. - eauto.
Qed.
Lemma expand_cons p c cs : expand p (c :: cs) = match c with PredictionMode _ => PredictionMode p | c => c end :: expand p cs.
Proof. reflexivity. Qed.
Lemma take_spec n pw ci ces outsW pa w q m e les hf pb c cs : sinv n pw ci ces outsW pa w q m -> midle dict wlen m e (pending q m outsW) les hf pb -> m_cmds m = c :: cs ->
  exists q' m' r, take_command c q (m_set_cmds m cs) = Some (q', m', r) /\ sinv n pw ci ces outsW pa w q' m' /\ (exists les', mph dict wlen m' e (pending q' m' outsW) les' hf pb) /\
    S (length (pending q' m' outsW)) = length (pending q m outsW) /\ keep_io m m' /\ tot w q' m' pa = tot w q m pa /\ q_rdata q' = q_rdata q /\
    (r = None \/ r = Some Yield).
Proof.
  intros SV (ML & MP & LR & LO & h & ID & TR) MC. pose proof SV as [W RI OUT EO PQ PQ2 PS]. unfold pending in TR |- *. rewrite MC in *. rewrite expand_cons in *. cbn [app length] in *.
  assert (KI : forall m', m_mux m' = m_mux m -> m_crc m' = m_crc m -> m_trailer m' = m_trailer m -> keep_io m m') by (intros m' A1 A2 A3; unfold keep_io; rewrite A1, A2, A3; auto).
  assert (SKEEP : forall m', m_mux m' = m_mux m -> m_out m' = m_out m -> m_eof m' = m_eof m -> m_pred m' = m_pred m -> cpm (m_cmds m') = cpm (c :: cs) -> sinv n pw ci ces outsW pa w q m').
  { intros m' E1 E2 E3 E4 E5. constructor; rewrite ?E1, ?E2, ?E3, ?E4, ?E5; assumption. }
  pose proof (conj LR WL) as HID. clear LR WL.
  destruct c as [d ln|ws wid tr fs|data he|x|t|t|t st]; cbn [take_command].
  - inversion TR as [|? ? ? ? ? ? ? IM RB MT| | |]; subst. do 3 eexists. split; [reflexivity|]. split; [apply SKEEP; reflexivity|].
    split; [|split; [reflexivity|split; [apply KI; reflexivity|split; [reflexivity|split; [reflexivity|left; reflexivity]]]]].
    exists les. right. left. exists (Copy d ln), h, h. split; [exact ML|]. split; [reflexivity|]. split; [exact (proj1 HID)|]. split; [exact LO|]. split; [apply replayable_b, RB|]. split; [apply idle_mid, ID|exact MT].
  - inversion TR as [|? ? ? ? ? ? ? IM RB MT| | |]; subst. do 3 eexists. split; [reflexivity|]. split; [apply SKEEP; reflexivity|].
    split; [|split; [reflexivity|split; [apply KI; reflexivity|split; [reflexivity|split; [reflexivity|left; reflexivity]]]]].
    exists les. right. left. exists (Dict ws wid tr fs), h, h. split; [exact ML|]. split; [reflexivity|]. split; [exact (proj1 HID)|]. split; [exact LO|]. split; [apply replayable_b, RB|]. split; [apply idle_mid, ID|exact MT].
  - inversion TR as [|? ? ? ? ? ? ? IM RB MT|? ? ? nn he0 ? les1 l1 s1 les2 ? LT MT| |]; subst; [contradiction IM|].
    pose proof (ltr_len _ _ _ _ _ _ LT) as LL. unfold togo in LL. cbn [l_sub l_len] in LL.
    assert (NZ : zlen (repeat 0 (Z.to_nat nn)) = nn) by (unfold zlen; rewrite repeat_length; lia). rewrite NZ.
    assert (P8 : pack8 (m_rec m) = rlast8 (lz_replayer dict wlen) h) by (symmetry; apply (hrel_pack k dict wlen h (m_rec m) K8 (proj2 HID)); split; [exact (proj1 HID)|exists e; exact ID]).
    rewrite <- P8 in LT. do 3 eexists. split; [reflexivity|]. split; [apply SKEEP; reflexivity|]. split; [|split; [reflexivity|split; [apply KI; reflexivity|split; [reflexivity|split; [reflexivity|right; reflexivity]]]]].
    exists (les1 ++ les2). right. right. exists (16 <=? ready m 1), (LS [] nn false (LNibble 0)), les1, l1, s1, les2, h.
    split; [reflexivity|]. split; [exact MP|]. split; [exact (proj1 HID)|]. split; [reflexivity|]. split; [|split; [exact ID|exact MT]].
    destruct LO as (BO & AR & PA). constructor; try assumption.
    + unfold pos_ok. cbn [l_sub]. lia.
    + intros X. split; [reflexivity|left]. apply Z.leb_le in X. exact X.
  - inversion TR as [|? ? ? ? ? ? ? IM RB MT| | |? ? ? ? l' ? ? ? OB MT]; subst; [contradiction IM|].
    pose proof (wv_tok _ _ _ _ _ _ _ _ _ _ _ W) as TK. cbn [cpm] in *. assert (C0 : cpm cs = 0%nat) by lia. assert (Q0 : q_cm q = []) by (destruct (q_cm q); [reflexivity|cbn [length] in TK; lia]).
    cbn [m_pred m_set_cmds m_lbk m_set_pred]. rewrite OB, Q0. change (zlen (@nil predmode) <? 2) with true. cbn [assert].
    do 3 eexists. split; [reflexivity|]. rewrite C0 in *. cbn [Nat.eqb] in PQ. specialize (PQ2 eq_refl).
    split.
    { destruct W as [TR0 FW WC AR BS FD D2 R2 EO2 DN TK0 TW TP TQ TQ2 TS TC]. constructor.
      - cbn [m_cmds m_set_lbk m_set_pred m_set_cmds m_mux]. rewrite C0. constructor; try assumption.
        + cbn [q_res q_set_cm q_cm length]. rewrite Q0 in TK0. cbn [length] in TK0. lia.
        + cbn [q_cm q_set_cm]. intros p [<-|[]]. exact PQ2.
      - exact RI.
      - exact OUT.
      - exact EO.
      - cbn [m_cmds m_set_lbk m_set_pred m_set_cmds m_pred fst]. rewrite C0. exact PS.
      - cbn [m_cmds m_set_lbk m_set_pred m_set_cmds m_pred fst]. rewrite C0. discriminate.
      - reflexivity. }
    cbn [m_cmds m_set_lbk m_set_pred m_set_cmds m_pred fst q_rcm q_res q_set_cm]. rewrite (expand_none (snd (m_pred m)) (fst (m_pred m)) cs C0).
    split; [|split; [reflexivity|split; [apply KI; reflexivity|split; [reflexivity|split; [reflexivity|left; reflexivity]]]]].
    exists les. left. split; [exact ML|]. split; [exact MP|]. split; [exact (proj1 HID)|]. split; [exact LO|]. exists h. split; [exact ID|exact MT].
  - inversion TR as [|? ? ? ? ? ? ? IM RB MT| | |]; subst. contradiction IM.
  - inversion TR as [|? ? ? ? ? ? ? IM RB MT| | |]; subst. contradiction IM.
  - inversion TR as [|? ? ? ? ? ? ? IM RB MT| |? ? ? ? ? ? ? ? MT|]; subst; [contradiction IM|]. do 3 eexists. split; [reflexivity|]. split; [apply SKEEP; reflexivity|].
    split; [|split; [reflexivity|split; [apply KI; reflexivity|split; [reflexivity|split; [reflexivity|left; reflexivity]]]]].
    exists les. left. split; [exact ML|]. split; [exact MP|]. split; [exact (proj1 HID)|]. split; [exact LO|]. exists h. split; [exact ID|exact MT].
Qed.

Lemma mph_bok m e outs les hf pb : mph dict wlen m e outs les hf pb -> bok (buf1 (m_mux m)).
Proof.
  intros [(_ & _ & _ & (B & _) & _)|[(c & h0 & h & _ & _ & _ & (B & _) & _)|(safe & s & les1 & l1 & s1 & les2 & h & _ & _ & _ & _ & CI & _)]]; [exact B|exact B|apply CI].
Qed.
Lemma sinv_keep n pw ci ces outsW pa w q m m' : sinv n pw ci ces outsW pa w q m -> keep_in m m' -> bok (buf1 (m_mux m')) -> sinv n pw ci ces outsW pa w q m'.
Proof.
  intros [W RI OUT EO PQ PQ2 PS] ((b & A1) & A2 & A3 & A4 & A5 & A6 & A7) B. constructor; rewrite ?A4, ?A5, ?A6, ?A7; try assumption.
  - rewrite A1. exact W.
  - rewrite A1 in B |- *. apply rinv_buf1; assumption.
Qed.
Lemma pending_keep q m m' outsW : keep_in m m' -> pending q m' outsW = pending q m outsW.
Proof. intros (_ & _ & _ & _ & A5 & _ & A7). unfold pending. rewrite A5, A7. reflexivity. Qed.
Lemma tot_keep w q m m' pa : keep_in m m' -> tot w q m' pa = tot w q m pa.
Proof. intros ((b & A1) & _). unfold tot. rewrite A1. reflexivity. Qed.

(** the checksum and the trailer: [Tr] is the trailer of the file, [R] the unread part before it *)
Definition tinv (skip : bool) (Tr R : list Z) (m : main) : Prop :=
  length Tr = 8%nat /\ skipn 4 Tr = [97; 110; 115; 126] /\ (exists t, m_trailer m ++ t = Tr) /\ (R <> [] -> m_trailer m = []) /\
  (R = [] -> skip = false -> trailer (m_crc m) = Tr).
Lemma tinv_keep skip Tr R m m' : keep_io m m' -> tinv skip Tr R m -> tinv skip Tr R m'.
Proof. intros (_ & _ & A & B) (T1 & T2 & T3 & T4 & T5). unfold tinv. rewrite A, B. auto. Qed.
Lemma finish_spec skip Tr R m e les hf pb room : tinv skip Tr R m -> midle dict wlen m e [] les hf pb -> 0 <= room ->
  exists o m' r, finish skip m room = Some (o, m', r) /\ zlen o <= room /\ keep_in m m' /\ midle dict wlen m' (e ++ o) [] les hf pb /\
    match r with
    | DSuccess => e ++ o = hf /\ R = [] /\ length (m_trailer m) = 8%nat
    | DNeedIn => length (m_trailer m) <> 8%nat
    | DNeedOut => zlen o = room
    | DFail => False
    end.
Proof.
  intros (T1 & T2 & (t & T3) & T4 & T5) (ML & MP & LR & LO & h & ID & TR) RM. unfold finish.
  destruct (ProofRecode3.flush_done (m_rec m) h e room ID RM) as (res & o & r' & -> & ID' & LR' & _ & LO' & RES). cbn [bind].
  assert (HF : hf = h) by (inversion TR; reflexivity).
  assert (KI : keep_in m (m_set_rec m r' (m_pop m))) by (unfold keep_in; split; [exists (buf1 (m_mux m)); cbn; destruct (m_mux m); reflexivity|]; repeat split).
  assert (MI : midle dict wlen (m_set_rec m r' (m_pop m)) (e ++ o) [] les hf pb).
  { split; [exact ML|]. split; [exact MP|]. split; [cbn [m_rec m_set_rec]; congruence|]. split; [exact LO|]. exists h. split; [exact ID'|exact TR]. }
  destruct RES as [(-> & E)|(-> & E)].
  - change (m_crc (m_set_rec m r' (m_pop m))) with (m_crc m). change (m_trailer (m_set_rec m r' (m_pop m))) with (m_trailer m).
    destruct (Nat.eq_dec (length (m_trailer m)) 8) as [L8|L8].
    + assert (t = []) by (apply (f_equal (@length Z)) in T3; rewrite app_length in T3; destruct t; [reflexivity|cbn [length] in T3; lia]). subst t. rewrite app_nil_r in T3.
      assert (R0 : R = []) by (destruct R as [|x R]; [reflexivity|]; rewrite T4 in L8 by discriminate; discriminate L8).
      assert (OK : process_eof skip (m_crc m) (m_trailer m) = EofSuccess).
      { apply process_eof_success. split; [exact L8|]. rewrite T3. destruct skip; [exact T2|]. symmetry. apply T5; auto. }
      rewrite OK. do 3 eexists. split; [reflexivity|]. split; [exact LO'|]. split; [exact KI|]. split; [exact MI|]. split; [congruence|]. auto.
    + rewrite (proj2 (process_eof_needs skip (m_crc m) (m_trailer m)) L8). do 3 eexists. split; [reflexivity|]. split; [exact LO'|]. split; [exact KI|]. split; [exact MI|]. exact L8.
  - do 3 eexists. split; [reflexivity|]. split; [exact LO'|]. split; [exact KI|]. split; [exact MI|]. exact E.
Qed.

(** ** decode_process_output *)
Definition complete (R : list Z) (m : main) : Prop := R = [] /\ length (m_trailer m) = 8%nat.
Lemma sinv_end n pw ci ces outsW pa w q m : sinv n pw ci ces outsW pa w q m -> m_eof m = true -> m_cmds m = [] -> pending q m outsW = [].
Proof.
  intros [W RI OUT EO PQ PQ2 PS] ME MC. destruct (EO ME) as (WD & QR). unfold pending. rewrite MC, QR. cbn [expand map app].
  pose proof (wv_done _ _ _ _ _ _ _ _ _ _ _ W WD) as ST. pose proof (wv_tr _ _ _ _ _ _ _ _ _ _ _ W) as TR.
  inversion TR as [n0 c0 cdf kk v c' es0 o0 S1 N1|n0 c0 c' es0 o0 S1 N1 W1|n0 c0 c' x es0 o0 S1 P1 N1|n0 c0 cmd' es0 o0 S1 ST1 W1|c0 S1 ST1]; try reflexivity.
  - unfold wi_node, w_node, top_node in N1. rewrite ST in N1. discriminate N1.
  - unfold wi_node, w_node, top_node in N1. rewrite ST in N1. discriminate N1.
  - unfold wi_node, w_node, top_node in N1. rewrite ST in N1. discriminate N1.
  - congruence.
Qed.
Lemma process_output_spec skip Tr R n pw ci ces outsW pa pb hf w : 1 < wlen -> (R = [] -> pb = []) -> forall fuel q m e les room,
  sinv n pw ci ces outsW pa w q m -> tinv skip Tr R m -> (is_done (eof (m_mux m)) = true <-> R = []) -> mph dict wlen m e (pending q m outsW) les hf pb -> 0 <= room ->
  (length (pending q m outsW) < fuel)%nat ->
  exists o q' m' r les', process_output dict skip fuel q m room = Some (o, q', m', r) /\ zlen o <= room /\
    sinv n pw ci ces outsW pa w q' m' /\ mph dict wlen m' (e ++ o) (pending q' m' outsW) les' hf pb /\ keep_io m m' /\ tot w q' m' pa = tot w q m pa /\
    (length (pending q' m' outsW) <= length (pending q m outsW))%nat /\
    match r with
    | Yield => (length (pending q' m' outsW) < length (pending q m outsW))%nat \/
        (m_cmds m = [] /\ q_res q = [] /\ q_eof q = false /\ q_rdata q' = [] /\ ~ idling w q m)
    | Processed DSuccess => e ++ o = hf /\ complete R m
    | Processed DNeedIn => ~ complete R m
    | Processed DNeedOut => zlen o = room
    | Processed DFail => False
    end.
Proof.
  intros W1 RB. induction fuel as [|fuel IH]; intros q m e les room SV TI DI PH RM F; [lia|].
  rewrite process_output_front. destruct (front_spec dict wlen m e (pending q m outsW) les hf pb room W1 PH RM) as (o & m1 & fr & -> & LO & KI & FR).
  pose proof (pending_keep q m m1 outsW KI) as PE. pose proof (keep_io_in _ _ KI) as KO. pose proof (tot_keep w q m m1 pa KI) as TT.
  destruct fr; [| | |contradiction FR].
  - destruct FR as (les1 & MI). assert (SV1 : sinv n pw ci ces outsW pa w q m1) by (apply (sinv_keep _ _ _ _ _ _ _ _ _ _ SV KI); eapply mph_bok; left; exact MI).
    rewrite <- PE in MI. destruct (pull_spec n pw ci ces outsW pa w q m1 _ _ _ _ SV1 MI) as (q2 & m2 & need & -> & SV2 & MI2 & PE2 & KO2 & TT2 & ND & YD). cbn [bind].
    pose proof (keep_io_trans _ _ _ KO KO2) as KO12. pose proof (tinv_keep _ _ _ _ _ KO12 TI) as TI2.
    destruct need.
    + do 4 eexists. exists les1. split; [reflexivity|]. split; [exact LO|]. split; [exact SV2|]. split; [left; exact MI2|]. split; [exact KO12|]. split; [congruence|]. rewrite PE2, PE. split; [lia|].
      intros (R0 & _). apply DI in R0. destruct KO as (EE & _). rewrite <- EE, (ND eq_refl) in R0. discriminate R0.
    + destruct (m_cmds m2) as [|c cs] eqn:MC.
      * destruct (m_eof m2) eqn:ME.
        -- pose proof (sinv_end _ _ _ _ _ _ _ _ _ SV2 ME MC) as PN. rewrite PN in MI2.
           destruct (finish_spec skip Tr R m2 (e ++ o) les1 hf pb (room - zlen o) TI2 MI2) as (o2 & m3 & r & -> & LO2 & KI3 & MI3 & RES); [lia|]. cbn [bind].
           do 4 eexists. exists les1. split; [reflexivity|]. rewrite zlen_app. split; [lia|].
           pose proof (sinv_keep _ _ _ _ _ _ _ _ _ m3 SV2 KI3 ltac:(eapply mph_bok; left; exact MI3)) as SV3. split; [exact SV3|].
           rewrite (pending_keep q2 m2 m3 outsW KI3), PN. split; [left; rewrite app_assoc; exact MI3|]. split; [apply (keep_io_trans _ _ _ KO12 (keep_io_in _ _ KI3))|].
           split; [rewrite (tot_keep _ _ _ _ _ KI3); congruence|]. split; [cbn [length]; lia|].
           assert (TL : m_trailer m2 = m_trailer m) by apply KO12. rewrite TL in RES. unfold complete. destruct r.
           ++ rewrite app_assoc. destruct RES as (E1 & E2 & E3). auto.
           ++ intros (_ & X). contradiction.
           ++ lia.
           ++ exact RES.
        -- destruct (YD eq_refl eq_refl) as (Y1 & Y2 & Y3 & Y4 & Y5). do 4 eexists. exists les1. split; [reflexivity|]. split; [exact LO|]. split; [exact SV2|]. split; [left; exact MI2|]. split; [exact KO12|]. split; [congruence|].
           rewrite PE2, PE. split; [lia|]. right. destruct KI as ((b & K1) & _ & _ & _ & K5 & _). rewrite <- K5. split; [exact Y1|]. split; [exact Y2|]. split; [exact Y3|]. split; [exact Y4|].
           intros (I1 & I2 & I3 & I4 & I5). apply (Y5 eq_refl). unfold idling. rewrite K1. auto.
      * destruct (take_spec n pw ci ces outsW pa w q2 m2 _ _ _ _ c cs SV2 MI2 MC) as (q3 & m3 & r & -> & SV3 & (les3 & PH3) & PL3 & KO3 & TT3 & RD3 & RR). cbn [bind].
        pose proof (keep_io_trans _ _ _ KO12 KO3) as KO13. destruct RR as [-> | ->].
        -- destruct (IH q3 m3 (e ++ o) les3 (room - zlen o) SV3 (tinv_keep _ _ _ _ _ KO13 TI)) as (o4 & q4 & m4 & r4 & les4 & -> & LO4 & SV4 & PH4 & KO4 & TT4 & PL4 & RES4).
           { destruct KO13 as (EE & _). rewrite EE. exact DI. }
           { exact PH3. }
           { lia. }
           { rewrite PE2, PE in PL3. lia. }
           cbn [bind]. do 4 eexists. exists les4. split; [reflexivity|]. rewrite zlen_app. split; [lia|]. split; [exact SV4|]. rewrite app_assoc. split; [exact PH4|]. split; [apply (keep_io_trans _ _ _ KO13 KO4)|]. split; [congruence|].
           rewrite PE2, PE in PL3. split; [lia|]. assert (TL : m_trailer m3 = m_trailer m) by apply KO13. unfold complete in *. rewrite TL in RES4. destruct r4 as [[]|]; try exact RES4; [lia|]. left. lia.
        -- do 4 eexists. exists les3. split; [reflexivity|]. split; [exact LO|]. split; [exact SV3|]. split; [exact PH3|]. split; [exact KO13|]. split; [congruence|]. rewrite PE2, PE in PL3. split; [lia|]. left. lia.
  - destruct FR as (-> & (les1 & ML) & BE & PB). do 4 eexists. exists les1. split; [reflexivity|]. split; [exact LO|]. split; [apply (sinv_keep _ _ _ _ _ _ _ _ _ _ SV KI); eapply mph_bok; right; right; exact ML|].
    rewrite PE. split; [right; right; exact ML|]. split; [exact KO|]. split; [exact TT|]. split; [lia|]. intros (R0 & _). apply PB, RB, R0.
  - destruct FR as (E & les1 & MP). do 4 eexists. exists les1. split; [reflexivity|]. split; [exact LO|]. split; [apply (sinv_keep _ _ _ _ _ _ _ _ _ _ SV KI); eapply mph_bok; right; left; exact MP|].
    rewrite PE. split; [right; left; exact MP|]. split; [exact KO|]. split; [exact TT|]. split; [lia|]. exact E.
Qed.
End Out.
