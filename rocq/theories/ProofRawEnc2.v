(** The raw interface: calls and sessions. *)
From Verif Require Import Prelude ProofList ModelAns SpecAns ProofAnsRt ModelCdf SpecCdf ModelMux SpecMux ProofZlist ProofMux ProofMuxW ModelCmd ModelCrc SpecCrc ModelHeader SpecHeader ModelRecode SpecLz ModelPriors ModelCodec ModelLit ModelPm ModelTop SpecCodec SpecReplay ProofCodecInv ProofCodecInv2 ModelEnc SpecEnc SpecFile SpecDec ProofEnc ProofEnc2 ProofEnc3 ProofEnc4 ModelRaw ModelRawEnc SpecRawEnc ProofRecode ThmRaw ProofRawEnc.

Definition fits (D : dims) : Prop := 0 <= n_lit D /\ 1 <= n_mix D /\ 3 * n_lit D + n_mix D + 3097 <= 65535.
Lemma run_rest dict wl D g fuel : forall cmds c p room o c' p' rest r, run_commands dict wl D g fuel cmds c p room = Some (o, c', p', rest, r) -> exists done, cmds = done ++ rest.
Proof.
  induction cmds as [|cmd cmds IH]; intros c p room o c' p' rest r; cbn [run_commands]; [discriminate|].
  destruct (one_command dict wl D g fuel cmd false c p room) as [[[[o1 c1] p1] r1]|]; [|discriminate]. cbn [bind]. destruct r1.
  - destruct cmds as [|c2 cs]; [intros [= <- <- <- <- <-]; exists [cmd]; reflexivity|].
    destruct (run_commands dict wl D g fuel (c2 :: cs) c1 p1 _) as [[[[[o2 c3] p3] rest3] r3]|] eqn:R; [|discriminate]. cbn [bind]. intros [= <- <- <- <- <-].
    destruct (IH _ _ _ _ _ _ _ _ R) as (dn & E). exists (cmd :: dn). rewrite E. reflexivity.
  - intros [= <- <- <- <- <-]. exists []. reflexivity.
  - intros [= <- <- <- <- <-]. exists []. reflexivity.
  - intros [= <- <- <- <- <-]. exists []. reflexivity.
Qed.
Lemma run_pm dict wl D g fuel pm ls c p room n o c' p' rest : 1 <= n_mix D -> pm_at D c n -> room_for (x_cmd p) n ->
  run_commands dict wl D g fuel (PredictionMode pm :: ls) c p room = Some (o, c', p', rest, RNeedsMoreOutput) -> exists done, ls = done ++ rest.
Proof.
  intros NM A RM. cbn [run_commands]. destruct (one_command dict wl D g fuel (PredictionMode pm) false c p room) as [[[[o1 c1] p1] r1]|] eqn:O; [|discriminate]. cbn [bind].
  pose proof (pm_no_wait dict wl D g NM pm fuel c p room n _ _ _ _ A RM O) as NW. destruct r1; [|contradiction|discriminate|discriminate].
  destruct ls as [|c2 cs]; [discriminate|]. destruct (run_commands dict wl D g fuel (c2 :: cs) c1 p1 _) as [[[[[o2 c3] p3] rest3] r3]|] eqn:R; [|discriminate]. cbn [bind]. intros [= <- <- <- <- ->]. exact (run_rest _ _ _ _ _ _ _ _ _ _ _ _ _ _ R).
Qed.
Lemma fresh_pm D r : fits D -> pm_at D (codec_new D r) 65535.
Proof.
  intros (N1 & N2 & N3). unfold pm_at, codec_new. cbn [k_st k_pm k_bk]. unfold lit3, dcm3, pm_new, bk_new. cbn [lit_map distance_context_map]. unfold zlen. rewrite !repeat_length. rewrite Z2Nat.id by lia.
  change (Z.of_nat 1024) with 1024. lia.
Qed.
Lemma fresh_room : room_for (x_cmd eparts_new) 65535.
Proof. unfold room_for. cbn [eparts_new x_cmd]. vm_compute. intuition congruence. Qed.
Lemma thaw_suffix a b : forallb thawable (a ++ b) = true -> forallb thawable b = true.
Proof. rewrite forallb_app. intros H. apply andb_true_iff in H. apply H. Qed.

Section Raw.
Context (dict : dict_fn) (wl : word_len_fn) (D : dims) (g : cfg).
Context (ES : list ev) (A B H : list Z) (WR : writable ES)
  (EA : ans_encode (sfs_of CMD ES) = Some A) (EB : ans_encode (sfs_of LIT ES) = Some B) (BH : bytes H) (HL : length H = 16%nat).
Context (ws : Z) (WS : 2 <= 2 ^ ws) (FT : fits D) (X : list Z) (LX : zlen X < 2 * 2 ^ ws - 1).
Context (fuel F : nat) (LE : (fuel <= F)%nat).
Let L := 2 ^ ws.
Local Notation SI := (sinv dict wl D g ES A B H fuel).
Local Notation RAWPM := (PredictionMode (raw_pm D)).
Definition fresh (s : rawc) : Prop := (exists r, ec_codec (cm_codec (rw_cm s)) = codec_new D r) /\ ec_parts (cm_codec (rw_cm s)) = eparts_new.
Definition run_ph (s : rawc) : phase := ec_phase (cm_codec (rw_cm s)).
Definition thaws (s : rawc) : Prop := forallb thawable (rw_frz s) = true.

Lemma start_same s room h s' ok : start_call s room = (h, s', ok) -> ec_codec (cm_codec s') = ec_codec (cm_codec s) /\ ec_parts (cm_codec s') = ec_parts (cm_codec s).
Proof.
  unfold start_call. destruct (Nat.eqb _ _); [intros [= <- <- <-]; auto|]. destruct (write_header _ _ _ _) as (((o, n), crc), r). intros [= <- <- <-]. auto.
Qed.
(** commands offered when the header is out *)
Lemma enc_spec cs later cm T room : SI (cs ++ later) cm T -> ec_phase (cm_codec cm) = PRun -> cm_hdr cm = 16%nat -> cs <> [] -> 0 <= room ->
  exists o c rest r, codec_encode dict wl D g F cs (cm_codec cm) room = Some (o, c, rest, r) /\ zlen o <= room /\ SI (rest ++ later) (CM (cm_hdr cm) (cm_ws cm) c) (T ++ o) /\ ec_phase c = PRun /\
    (((r = RNeedsMoreInput \/ r = RSuccess) /\ rest = []) \/ (r = RNeedsMoreOutput /\ zlen o = room /\ rest <> [])).
Proof.
  intros I P HD NE R. destruct (encode_commands_spec dict wl D g ES A B H WR EA EB BH HL fuel F cs later cm T room I P NE LE R) as (o & s' & rest & r & E & LO & I' & P' & K).
  unfold encode_commands, start_call in E. rewrite HD in E. change (Nat.eqb 16 HEADER_LENGTH) with true in E. cbn [negb] in E. change (zlen (@nil Z)) with 0 in E. rewrite Z.sub_0_r in E.
  destruct (codec_encode dict wl D g F cs (cm_codec cm) room) as [[[[o1 c1] rest1] r1]|] eqn:CE; [|discriminate]. cbn [bind app] in E. injection E as <- <- <- E. exists o1, c1, rest1, r1. cbn [cm_codec] in P'.
  split; [reflexivity|]. split; [exact LO|]. split; [exact I'|]. split; [exact P'|]. destruct K as [(K1 & K2)|(K1 & K2)].
  - left. split; [|exact K2]. rewrite K1 in E. destruct r1; try discriminate E; auto.
  - right. split; [|exact K2]. rewrite K1 in E. destruct r1; try discriminate E; auto.
Qed.
(** ... and what is left of them can be frozen *)
Lemma left_thaws cs s room o c rest : (forallb thawable cs = true \/ (fresh s /\ exists ls, cs = RAWPM :: ls /\ forallb thawable ls = true)) -> run_ph s = PRun ->
  codec_encode dict wl D g F cs (cm_codec (rw_cm s)) room = Some (o, c, rest, RNeedsMoreOutput) -> forallb thawable rest = true.
Proof.
  intros K P E. unfold codec_encode in E. unfold run_ph in P. rewrite P in E.
  destruct (run_commands dict wl D g F cs _ _ room) as [[[[[o1 c1] p1] rest1] r1]|] eqn:RC; [|discriminate]. cbn [bind] in E. injection E as <- <- <- ->.
  destruct K as [K|(((r & FC) & FP) & ls & -> & K)].
  - destruct (run_rest _ _ _ _ _ _ _ _ _ _ _ _ _ _ RC) as (dn & ->). exact (thaw_suffix _ _ K).
  - rewrite FC, FP in RC. destruct (run_pm dict wl D g F (raw_pm D) ls _ _ room 65535 _ _ _ _ (proj1 (proj2 FT)) (fresh_pm D r FT) fresh_room RC) as (dn & ->). exact (thaw_suffix _ _ K).
Qed.
Lemma raw_start_spec later s T room : SI (rw_frz s ++ later) (rw_cm s) T -> run_ph s <> PDone -> (rw_frz s <> [] -> run_ph s = PRun) -> thaws s -> 0 <= room ->
  exists h s' r, raw_start dict wl D g F s room = Some (h, s', r) /\ zlen h <= room /\ SI (rw_frz s' ++ later) (rw_cm s') (T ++ h) /\ run_ph s' = run_ph s /\ thaws s' /\ rw_asm s' = rw_asm s /\
    ((r = RSuccess /\ rw_frz s' = [] /\ cm_hdr (rw_cm s') = 16%nat) \/ (r = RNeedsMoreOutput /\ zlen h = room /\ (rw_frz s' <> [] -> rw_frz s <> []))) /\
    (rw_frz s = [] -> rw_frz s' = [] /\ (fresh s -> fresh s')).
Proof.
  intros I ND PR TH R. unfold raw_start. destruct (start_spec dict wl D g ES A B H BH HL fuel (rw_frz s ++ later) (rw_cm s) T room I R ND) as (h & cm & ok & E & L1 & I1 & T1 & F1 & P1). rewrite E.
  destruct (start_same _ _ _ _ _ E) as (SC & SP). fold (run_ph s) in P1.
  destruct ok; cbn [negb]; cycle 1.
  { exists h, (RWC cm (rw_asm s) (rw_frz s)), RNeedsMoreOutput. split; [reflexivity|]. split; [exact L1|]. cbn [rw_frz rw_cm rw_asm]. split; [exact I1|]. split; [exact P1|]. split; [exact TH|]. split; [reflexivity|]. split; [right; auto|].
    intros FZ. split; [exact FZ|]. unfold fresh. cbn [rw_cm]. rewrite SC, SP. auto. }
  specialize (T1 eq_refl). unfold flush_frozen. cbn [rw_frz rw_cm rw_asm]. destruct (rw_frz s) as [|f fs] eqn:FZ.
  { cbn [bind]. exists (h ++ []), (RWC cm (rw_asm s) []), RSuccess. rewrite app_nil_r. split; [reflexivity|]. split; [exact L1|]. cbn [rw_frz rw_cm rw_asm]. split; [exact I1|]. split; [exact P1|]. split; [reflexivity|]. split; [reflexivity|].
    split; [left; auto|]. intros _. split; [reflexivity|]. unfold fresh. cbn [rw_cm]. rewrite SC, SP. auto. }
  rewrite <- FZ in *. assert (NF : rw_frz s <> []) by (rewrite FZ; discriminate). specialize (PR NF). rewrite PR in P1. unfold thaws in TH. rewrite TH. unfold assert.
  destruct (enc_spec (rw_frz s) later cm (T ++ h) (room - zlen h) I1 P1 T1 NF ltac:(lia)) as (o & c & rest & r & CE & LO & I2 & P2 & K). rewrite CE. cbn [bind].
  exists (h ++ o), (RWC (CM (cm_hdr cm) (cm_ws cm) c) (rw_asm s) rest), (match r with RNeedsMoreInput => RSuccess | r => r end). split; [reflexivity|]. split; [rewrite zlen_app; lia|]. cbn [rw_frz rw_cm rw_asm].
  split; [rewrite app_assoc; exact I2|]. split; [rewrite PR; exact P2|]. split.
  { unfold thaws. cbn [rw_frz]. destruct K as [(_ & ->)|(-> & _ & _)]; [reflexivity|]. apply (left_thaws (rw_frz s) (RWC cm (rw_asm s) (rw_frz s)) (room - zlen h) o c rest); [left; exact TH|exact P1|exact CE]. }
  split; [reflexivity|]. split; [|intros Z0; congruence].
  destruct K as [([->| ->] & ->)|(-> & K1 & K2)]; [left; auto|left; auto|right]. split; [reflexivity|]. split; [rewrite zlen_app; lia|]. auto.
Qed.
Lemma hand_spec cs later s T room : SI (cs ++ later) (rw_cm s) T -> run_ph s = PRun -> cm_hdr (rw_cm s) = 16%nat -> rw_frz s = [] -> cs <> [] -> 0 <= room ->
  (forallb thawable cs = true \/ (fresh s /\ exists ls, cs = RAWPM :: ls /\ forallb thawable ls = true)) ->
  exists o s' r, hand_over dict wl D g F cs s room = Some (o, s', r) /\ zlen o <= room /\ SI (rw_frz s' ++ later) (rw_cm s') (T ++ o) /\ run_ph s' = PRun /\ thaws s' /\ rw_asm s' = rw_asm s /\ cm_hdr (rw_cm s') = 16%nat /\
    ((r = RSuccess /\ rw_frz s' = []) \/ (r = RNeedsMoreOutput /\ zlen o = room)).
Proof.
  intros I P HD FZ NE R TH. unfold hand_over. destruct (enc_spec cs later (rw_cm s) T room I P HD NE R) as (o & c & rest & r & CE & LO & I2 & P2 & K). rewrite CE. cbn [bind].
  destruct K as [(K1 & ->)|(-> & K1 & K2)].
  - exists o, (RWC (CM (cm_hdr (rw_cm s)) (cm_ws (rw_cm s)) c) (rw_asm s) (rw_frz s)), RSuccess. cbn [rw_frz rw_cm rw_asm cm_hdr]. unfold assert. change (zlen (@nil command) =? 0) with true.
    split; [destruct K1 as [->| ->]; reflexivity|]. split; [exact LO|]. rewrite FZ. split; [exact I2|]. split; [exact P2|]. split; [unfold thaws; cbn [rw_frz]; reflexivity|]. auto.
  - exists o, (RWC (CM (cm_hdr (rw_cm s)) (cm_ws (rw_cm s)) c) (rw_asm s) rest), RNeedsMoreOutput. cbn [rw_frz rw_cm rw_asm cm_hdr]. split; [reflexivity|]. split; [exact LO|]. split; [exact I2|]. split; [exact P2|].
    split; [exact (left_thaws cs s room o c rest TH P CE)|]. auto.
Qed.

(** ** encode *)
Definition rinv (s : rawc) (x T : list Z) : Prop :=
  zlen (rring (rw_asm s)) = L /\ asm ws (rw_asm s) x /\ SI (rw_frz s ++ pending D ws X x) (rw_cm s) T /\ run_ph s = PRun /\ thaws s /\ (zlen x < L -> rw_frz s = [] /\ fresh s).
Definition looped (s : rawc) (x T i : list Z) (room : Z) (t : option (list Z * list Z * rawc * cres)) : Prop :=
  exists i' o s' r pre, t = Some (i', o, s', r) /\ i = pre ++ i' /\ zlen o <= room /\ rinv s' (x ++ pre) (T ++ o) /\ ((r = RNeedsMoreInput /\ i' = []) \/ (r = RNeedsMoreOutput /\ zlen o = room)).
Lemma pending_same x i : zlen x + zlen i < L \/ L <= zlen x -> pending D ws X (x ++ i) = pending D ws X x.
Proof. intros C. pose proof (zlen_nonneg i). unfold pending. rewrite zlen_app. fold L. destruct (Z.ltb_spec (zlen x) L), (Z.ltb_spec (zlen x + zlen i) L); try reflexivity; lia. Qed.
Lemma loop_quiet n s x T i room : rinv s x T -> zlen x + zlen i < 2 * L - 1 -> zlen x + zlen i < L \/ L <= zlen x -> 0 <= room -> looped s x T i room (encode_loop dict wl D g (S n) F s i room).
Proof.
  intros (RL & AS & I & P & TH & FR) LI C R. cbn [encode_loop]. destruct (asm_stream D ws WS (rw_asm s) x i RL AS LI) as (a' & RL' & [(_ & E & AS')|(C2 & _)]); [|fold L in C2; lia].
  rewrite E. cbn [bind]. exists [], [], (RWC (rw_cm s) a' (rw_frz s)), RNeedsMoreInput, i. rewrite !app_nil_r. split; [reflexivity|]. split; [reflexivity|]. split; [exact R|]. split; [|left; auto].
  unfold rinv. cbn [rw_asm rw_cm rw_frz]. split; [exact RL'|]. split; [exact AS'|]. split; [rewrite pending_same by exact C; exact I|]. split; [exact P|]. split; [exact TH|].
  intros LL. rewrite zlen_app in LL. pose proof (zlen_nonneg i). apply FR. lia.
Qed.
Lemma loop_spec n s x T i future room : rinv s x T -> rw_frz s = [] -> cm_hdr (rw_cm s) = 16%nat -> (x ++ i) ++ future = X -> 0 <= room -> looped s x T i room (encode_loop dict wl D g (S (S n)) F s i room).
Proof.
  intros RI FZ HD EX R. assert (LI : zlen x + zlen i < 2 * L - 1) by (pose proof (f_equal zlen EX) as Q; rewrite !zlen_app in Q; pose proof (zlen_nonneg future); unfold L; lia).
  destruct (Z_lt_le_dec (zlen x + zlen i) L) as [C|C]; [apply loop_quiet; auto|]. destruct (Z_lt_le_dec (zlen x) L) as [C2|C2]; [|apply loop_quiet; auto].
  destruct RI as (RL & AS & I & P & TH & FR). destruct (FR C2) as (_ & FRE). remember (S n) as m eqn:EM. cbn [encode_loop].
  destruct (asm_stream D ws WS (rw_asm s) x i RL AS LI) as (a' & RL' & [(C3 & _)|(_ & E & AS')]); [fold L in C3; lia|]. cbv zeta in E. rewrite E. clear E. cbn [bind]. fold L in AS'. fold L. set (k := L - zlen x) in *.
  set (s1 := RWC (rw_cm s) a' (rw_frz s)).
  assert (EP : pending D ws X x = [RAWPM; Literal (zfirst L (x ++ i)) false] ++ lit_of (zskip L X)).
  { unfold pending. fold L. destruct (Z.ltb_spec (zlen x) L); [|lia]. unfold raw_cmds. fold L. assert (L <= zlen X) by (rewrite <- EX, !zlen_app; pose proof (zlen_nonneg future); lia).
    destruct (Z.ltb_spec (zlen X) L); [lia|]. rewrite <- EX at 1. rewrite zfirst_app_less by (rewrite zlen_app; lia). reflexivity. }
  assert (IK : zlen (zfirst k i) = k) by (apply zfirst_len_sub; unfold k; lia).
  assert (EP2 : pending D ws X (x ++ zfirst k i) = lit_of (zskip L X)). { unfold pending. fold L. rewrite zlen_app, IK. destruct (Z.ltb_spec (zlen x + k) L); [unfold k in *; lia|reflexivity]. }
  rewrite FZ in I. cbn [app] in I. rewrite EP in I.
  destruct (hand_spec _ _ s1 T room I P HD FZ ltac:(discriminate) R) as (o & s2 & r & HE & LO & I2 & P2 & TH2 & A2 & HD2 & K).
  { right. split; [exact FRE|]. eexists. split; reflexivity. }
  assert (RI2 : rinv s2 (x ++ zfirst k i) (T ++ o)).
  { unfold rinv. rewrite A2. unfold s1. cbn [rw_asm]. split; [exact RL'|]. split; [exact AS'|]. split; [rewrite EP2; exact I2|]. split; [exact P2|]. split; [exact TH2|]. rewrite zlen_app, IK. unfold k. lia. }
  assert (EI : i = zfirst k i ++ zskip k i) by (symmetry; apply zfirst_skip).
  destruct (Z.eqb_spec (zlen (zskip k i)) 0) as [Z0|Z0].
  - apply zlen_0_nil in Z0. rewrite Z0. cbv iota. rewrite HE. cbn [bind]. destruct K as [(-> & K)|(-> & K)].
    + exists [], o, s2, RNeedsMoreInput, (zfirst k i). split; [reflexivity|]. split; [rewrite Z0 in EI; exact EI|]. split; [exact LO|]. split; [exact RI2|auto].
    + exists [], o, s2, RNeedsMoreOutput, (zfirst k i). split; [reflexivity|]. split; [rewrite Z0 in EI; exact EI|]. split; [exact LO|]. split; [exact RI2|auto].
  - rewrite HE. cbn [bind]. destruct K as [(-> & K)|(-> & K)].
    + assert (LK : zlen (zskip k i) = zlen i - k) by (rewrite zlen_skip by (unfold k; lia); unfold k in *; lia).
      destruct (loop_quiet n s2 (x ++ zfirst k i) (T ++ o) (zskip k i) (room - zlen o) RI2) as (i' & o2 & s3 & r3 & pre & E3 & EI3 & LO3 & RI3 & K3); [rewrite zlen_app, IK, LK; lia|right; rewrite zlen_app, IK; unfold k; lia|lia|].
      rewrite EM, E3. cbn [bind]. exists i', (o ++ o2), s3, r3, (zfirst k i ++ pre). split; [reflexivity|]. split; [rewrite <- app_assoc, <- EI3; exact EI|]. split; [rewrite zlen_app; lia|]. split; [rewrite !app_assoc; exact RI3|].
      destruct K3 as [K3|(K3 & K4)]; [left; exact K3|right; split; [exact K3|rewrite zlen_app; lia]].
    + exists (zskip k i), o, s2, RNeedsMoreOutput, (zfirst k i). split; [reflexivity|]. split; [exact EI|]. split; [exact LO|]. split; [exact RI2|auto].
Qed.
Lemma encode_raw_spec s x T i future room : rinv s x T -> x ++ i ++ future = X -> 0 <= room ->
  exists n o s' r i' pre, encode_raw dict wl D g F s i room = Some (n, o, s', r) /\ i = pre ++ i' /\ n = zlen pre /\ zlen o <= room /\ rinv s' (x ++ pre) (T ++ o) /\
    ((r = RNeedsMoreInput /\ i' = []) \/ (r = RNeedsMoreOutput /\ zlen o = room)).
Proof.
  intros (RL & AS & I & P & TH & FR) EX R. unfold encode_raw.
  destruct (raw_start_spec (pending D ws X x) s T room I ltac:(rewrite P; discriminate) ltac:(auto) TH R) as (h & s1 & r & E & LH & I1 & P1 & TH1 & A1 & K & FZ). rewrite E. cbn [bind].
  assert (RI1 : rinv s1 x (T ++ h)).
  { unfold rinv. rewrite A1, P1. split; [exact RL|]. split; [exact AS|]. split; [exact I1|]. split; [exact P|]. split; [exact TH1|]. intros LL. destruct (FR LL) as (F0 & F1). destruct (FZ F0). auto. }
  destruct K as [(-> & K1 & K2)|(-> & K1 & K2)].
  - replace (length i + 3)%nat with (S (S (length i + 1))) by lia.
    destruct (loop_spec (length i + 1) s1 x (T ++ h) i future (room - zlen h) RI1 K1 K2 ltac:(rewrite <- app_assoc; exact EX) ltac:(lia)) as (i' & o & s2 & r2 & pre & E2 & EI & LO & RI2 & K3). rewrite E2. cbn [bind].
    exists (zlen i - zlen i'), (h ++ o), s2, r2, i', pre. split; [reflexivity|]. split; [exact EI|]. split; [rewrite EI, zlen_app; lia|]. split; [rewrite zlen_app; lia|]. split; [rewrite app_assoc; exact RI2|].
    destruct K3 as [K3|(K3 & K4)]; [left; exact K3|right; split; [exact K3|rewrite zlen_app; lia]].
  - exists 0, h, s1, RNeedsMoreOutput, i, []. split; [reflexivity|]. split; [reflexivity|]. split; [reflexivity|]. split; [exact LH|]. rewrite app_nil_r. split; [exact RI1|auto].
Qed.

(** ** flush *)
Definition finv (s : rawc) (T : list Z) : Prop :=
  rinv s X T \/ (SI (rw_frz s) (rw_cm s) T /\ idle (rw_asm s) /\ run_ph s <> PDone /\ thaws s /\ (rw_frz s <> [] -> run_ph s = PRun)).
(** flush has reported success *)
Definition closed (s : rawc) : Prop := idle (rw_asm s) /\ rw_frz s = [] /\ cm_hdr (rw_cm s) = 16%nat /\ run_ph s = PDone.
Lemma flush_started s room : cm_hdr s = 16%nat -> flush dict wl D g F s room = let? '(o, c, r) := codec_flush dict wl D g F (cm_codec s) room in Some (o, CM (cm_hdr s) (cm_ws s) c, r).
Proof.
  intros HD. unfold flush. generalize (codec_flush dict wl D g F). intros cf. unfold start_call. rewrite HD. change (Nat.eqb 16 HEADER_LENGTH) with true. cbn [negb]. change (zlen (@nil Z)) with 0. rewrite Z.sub_0_r, HD. reflexivity.
Qed.
Lemma tail_flush s T room : SI [] (rw_cm s) T -> idle (rw_asm s) -> rw_frz s = [] -> run_ph s <> PDone -> cm_hdr (rw_cm s) = 16%nat -> 0 <= room ->
  exists o c r, codec_flush dict wl D g F (cm_codec (rw_cm s)) room = Some (o, c, r) /\ zlen o <= room /\
    let s' := RWC (CM (cm_hdr (rw_cm s)) (cm_ws (rw_cm s)) c) (rw_asm s) (rw_frz s) in
    SI [] (rw_cm s') (T ++ o) /\ ((r = RSuccess /\ run_ph s' = PDone) \/ (r = RNeedsMoreOutput /\ zlen o = room /\ finv s' (T ++ o))).
Proof.
  intros I ID FZ ND HD R. destruct (flush_spec dict wl D g ES A B H WR EA EB BH HL fuel F (rw_cm s) T room I ND LE R) as (o & s' & r & E & LO & I' & K).
  rewrite (flush_started _ _ HD) in E.
  destruct (codec_flush dict wl D g F (cm_codec (rw_cm s)) room) as [[[o1 c1] r1]|]; [|discriminate]. cbn [bind app] in E. injection E as <- <- <-. exists o1, c1, r1. split; [reflexivity|]. split; [exact LO|]. cbv zeta. cbn [rw_cm].
  split; [exact I'|]. destruct K as [K|(K1 & K2 & K3)]; [left; exact K|right]. split; [exact K1|]. split; [exact K2|]. right. cbn [rw_frz rw_cm rw_asm]. rewrite FZ. split; [exact I'|]. split; [exact ID|]. split; [exact K3|]. split; [reflexivity|]. intros Q; contradiction.
Qed.
Lemma flush_loop_nil n s room a : raw_flush (raw_pm D) (rw_asm s) CMD_BUFFER = Some (ModelRecode.OSuccess, [], a) -> flush_loop dict wl D g (S n) F s room = Some ([], RWC (rw_cm s) a (rw_frz s), RSuccess).
Proof. intros E. cbn [flush_loop]. rewrite E. reflexivity. Qed.
Lemma flush_loop_some n s room a cs o s' r : raw_flush (raw_pm D) (rw_asm s) CMD_BUFFER = Some (ModelRecode.OSuccess, cs, a) -> cs <> [] ->
  hand_over dict wl D g F cs (RWC (rw_cm s) a (rw_frz s)) room = Some (o, s', r) -> r = RSuccess \/ r = RNeedsMoreOutput -> flush_loop dict wl D g (S n) F s room = Some (o, s', r).
Proof. intros E NE HE K. cbn [flush_loop]. rewrite E. cbn [bind]. destruct cs; [contradiction|]. rewrite HE. cbn [bind]. destruct K as [->| ->]; reflexivity. Qed.
Lemma flush_raw_spec s T room : finv s T -> 0 <= room ->
  exists o s' r, flush_raw dict wl D g F s room = Some (o, s', r) /\ zlen o <= room /\
    ((r = RSuccess /\ SI [] (rw_cm s') (T ++ o) /\ closed s') \/ (r = RNeedsMoreOutput /\ zlen o = room /\ finv s' (T ++ o))).
Proof.
  intros FI R. unfold flush_raw.
  assert (FIN : forall h s1 o0 T1, zlen h + zlen o0 <= room -> SI [] (rw_cm s1) (T1 ++ o0) -> idle (rw_asm s1) -> rw_frz s1 = [] -> run_ph s1 <> PDone -> cm_hdr (rw_cm s1) = 16%nat -> T1 = T ++ h ->
    exists o s' r, (let cm := rw_cm s1 in let? '(o2, c, r) := codec_flush dict wl D g F (cm_codec cm) (room - zlen h - zlen o0) in Some (h ++ o0 ++ o2, RWC (CM (cm_hdr cm) (cm_ws cm) c) (rw_asm s1) (rw_frz s1), r)) = Some (o, s', r) /\ zlen o <= room /\
    ((r = RSuccess /\ SI [] (rw_cm s') (T ++ o) /\ closed s') \/ (r = RNeedsMoreOutput /\ zlen o = room /\ finv s' (T ++ o)))).
  { intros h s1 o0 T1 LL I ID FZ ND HD ->. cbv zeta. destruct (tail_flush s1 _ (room - zlen h - zlen o0) I ID FZ ND HD ltac:(lia)) as (o & c & r & E & LO & I2 & K). rewrite E. cbn [bind]. eexists _, _, r. split; [reflexivity|].
    rewrite !zlen_app. split; [lia|]. rewrite <- !app_assoc in *. destruct K as [(K1 & K2)|(K1 & K2 & K3)]; [left|right].
    - split; [exact K1|]. split; [exact I2|]. unfold closed. cbn [rw_asm rw_frz rw_cm cm_hdr]. auto.
    - split; [exact K1|]. split; [lia|exact K3]. }
  destruct FI as [(RL & AS & I & P & TH & FR)|(I & ID & ND & TH & PR)].
  - destruct (raw_start_spec (pending D ws X X) s T room I ltac:(rewrite P; discriminate) ltac:(auto) TH R) as (h & s1 & r & E & LH & I1 & P1 & TH1 & A1 & K & FZ). rewrite E. cbn [bind].
    assert (RI1 : rinv s1 X (T ++ h)).
    { unfold rinv. rewrite A1, P1. split; [exact RL|]. split; [exact AS|]. split; [exact I1|]. split; [exact P|]. split; [exact TH1|]. intros LL. destruct (FR LL) as (F0 & F1). destruct (FZ F0). auto. }
    destruct K as [(-> & K1 & K2)|(-> & K1 & K2)]; cycle 1. { exists h, s1, RNeedsMoreOutput. split; [reflexivity|]. split; [exact LH|]. right. split; [reflexivity|]. split; [exact K1|]. left. exact RI1. }
    destruct (asm_flush D ws WS (rw_asm s) X RL AS) as (a' & FE & ID). rewrite <- A1 in FE.
    rewrite K1 in I1. cbn [app] in I1. rewrite P in P1.
    destruct (pending D ws X X) as [|p ps] eqn:EP.
    + rewrite (flush_loop_nil _ _ _ _ FE). cbn [bind]. apply (FIN h (RWC (rw_cm s1) a' (rw_frz s1)) [] (T ++ h)); cbn [rw_cm rw_asm rw_frz]; [change (zlen (@nil Z)) with 0; lia|rewrite app_nil_r; exact I1|exact ID|exact K1| |exact K2|reflexivity]. unfold run_ph in *. cbn [rw_cm]. rewrite P1. discriminate.
    + rewrite <- EP in *. assert (NE : pending D ws X X <> []) by (rewrite EP; discriminate).
      assert (TP : forallb thawable (pending D ws X X) = true \/ (fresh (RWC (rw_cm s1) a' (rw_frz s1)) /\ exists ls, pending D ws X X = RAWPM :: ls /\ forallb thawable ls = true)).
      { assert (TL : forall d, forallb thawable (lit_of d) = true) by (intros []; reflexivity).
        unfold pending. fold L. destruct (Z.ltb_spec (zlen X) L) as [LL|LL]; [|left; apply TL]. right. destruct RI1 as (_ & _ & _ & _ & _ & FR1). split; [apply FR1; exact LL|]. unfold raw_cmds. fold L. eexists. split; [reflexivity|].
        destruct (Z.ltb_spec (zlen X) L); [apply TL|lia]. }
      destruct (hand_spec _ [] (RWC (rw_cm s1) a' (rw_frz s1)) (T ++ h) (room - zlen h) ltac:(rewrite app_nil_r; exact I1) P1 K2 K1 NE ltac:(lia) TP) as (o & s2 & r & HE & LO & I2 & P2 & TH2 & A2 & HD2 & K).
      assert (KR : r = RSuccess \/ r = RNeedsMoreOutput) by (destruct K as [(K & _)|(K & _)]; auto). rewrite (flush_loop_some _ _ _ _ _ _ _ _ FE NE HE KR). clear KR. cbn [bind]. rewrite app_nil_r in I2. cbn [rw_asm] in A2. destruct K as [(-> & K)|(-> & K)].
      * rewrite K in I2. apply (FIN h s2 o (T ++ h)); [lia|exact I2|rewrite A2; exact ID|exact K|rewrite P2; discriminate|exact HD2|reflexivity].
      * exists (h ++ o), s2, RNeedsMoreOutput. split; [reflexivity|]. split; [rewrite zlen_app; lia|]. right. split; [reflexivity|]. split; [rewrite zlen_app; lia|]. rewrite app_assoc. right. rewrite A2, P2. split; [exact I2|]. split; [exact ID|]. split; [discriminate|]. split; [exact TH2|auto].
  - destruct (raw_start_spec [] s T room ltac:(rewrite app_nil_r; exact I) ND PR TH R) as (h & s1 & r & E & LH & I1 & P1 & TH1 & A1 & K & FZ). rewrite E. cbn [bind]. rewrite app_nil_r in I1.
    destruct K as [(-> & K1 & K2)|(-> & K1 & K2)]; cycle 1.
    { exists h, s1, RNeedsMoreOutput. split; [reflexivity|]. split; [exact LH|]. right. split; [reflexivity|]. split; [exact K1|]. right. rewrite A1, P1. split; [exact I1|]. split; [exact ID|]. split; [exact ND|]. split; [exact TH1|]. intros Q. apply PR, K2, Q. }
    rewrite <- A1 in ID. rewrite (flush_loop_nil _ _ _ _ (idle_flush D (rw_asm s1) ID)). cbn [bind]. rewrite K1 in I1.
    apply (FIN h (RWC (rw_cm s1) (rw_asm s1) (rw_frz s1)) [] (T ++ h)); cbn [rw_cm rw_asm rw_frz]; [change (zlen (@nil Z)) with 0; lia|rewrite app_nil_r; exact I1|exact ID|exact K1| |exact K2|reflexivity]. unfold run_ph in *. cbn [rw_cm]. rewrite P1. exact ND.
Qed.

(** ** Sessions *)
Local Notation BD := (bound A B + 16).
Local Notation COMPLETE := (complete A B H).
Lemma done_complete cm T : SI [] cm T -> ec_phase (cm_codec cm) = PDone -> COMPLETE T.
Proof.
  intros (O & ET & HB & HS & MH & PI & C & BT) PD. unfold phinv in PI. rewrite PD in PI. destruct PI as (_ & W & FR & ->).
  exists W. split; [exact FR|]. rewrite ET. destruct (Nat.eq_dec (cm_hdr cm) 16) as [Q|Q]; [rewrite Q, (H16 H HL); reflexivity|]. destruct (HS ltac:(lia)) as (_ & Q1). congruence.
Qed.
Lemma finv_bounds s T : finv s T -> zlen T <= BD.
Proof. intros [(_ & _ & I & _)|(I & _)]; exact (sinv_bounds dict wl D g ES A B H WR EA EB HL fuel _ _ _ I). Qed.
Lemma rfinish_spec : forall rooms s T, finv s T -> Forall (fun r => 0 <= r) rooms ->
  exists o v, rfinish dict wl D g F s rooms = Some (o, v) /\ v <> Broken /\ (v = Finished -> COMPLETE (T ++ o)) /\
    (Forall (fun r => 1 <= r) rooms -> BD - zlen T < zlen rooms -> v = Finished).
Proof.
  induction rooms as [|room rooms IH]; intros s T FI RM.
  { exists [], Waiting. cbn [rfinish]. split; [reflexivity|]. split; [discriminate|]. split; [discriminate|]. intros _ Q. pose proof (finv_bounds _ _ FI). change (zlen (@nil Z)) with 0 in Q. lia. }
  inversion RM as [|? ? R1 R2]; subst. cbn [rfinish]. destruct (flush_raw_spec s T room FI R1) as (o & s' & r & E & LO & K). rewrite E. cbn [bind]. destruct (Z.ltb_spec room (zlen o)); [lia|].
  destruct K as [(-> & I & PD)|(-> & ZL & FI')].
  - exists o, Finished. split; [reflexivity|]. split; [discriminate|]. split; [|auto]. intros _. exact (done_complete _ _ I (proj2 (proj2 (proj2 PD)))).
  - destruct (Z.ltb_spec (zlen o) room); [lia|]. destruct (IH s' (T ++ o) FI' R2) as (o2 & v & E2 & V1 & V2 & V3). rewrite E2. cbn [bind]. exists (o ++ o2), v. split; [reflexivity|]. split; [exact V1|]. rewrite app_assoc. split; [exact V2|].
    intros RO Q. inversion RO as [|? ? RO1 RO2]; subst. apply V3; [exact RO2|]. rewrite zlen_app. rewrite zlen_cons in Q. lia.
Qed.
Lemma rsession_spec rooms : Forall (fun r => 0 <= r) rooms -> forall calls s x T rest, rinv s x T -> x ++ rest ++ offered calls = X -> Forall (fun c => 0 <= snd c) calls ->
  exists o v, rsession dict wl D g F s rest calls rooms = Some (o, v) /\ v <> Broken /\ (v = Finished -> COMPLETE (T ++ o)) /\
    (Forall (fun r => 1 <= r) rooms -> BD < zlen rooms -> forall calls1 calls2, calls = calls1 ++ calls2 -> offered calls2 = [] -> Forall (fun c => 1 <= snd c) calls2 ->
       BD - zlen T < zlen calls2 \/ (calls1 = [] /\ rest = []) -> v = Finished).
Proof.
  intros RR0. induction calls as [|(piece, room) calls IH]; intros s x T rest RI EX RC; cbn [rsession].
  - destruct rest as [|z rest].
    + cbn [offered map concat app] in EX. rewrite app_nil_r in EX. subst x. destruct (rfinish_spec rooms s T (or_introl RI) RR0) as (o & v & E & V1 & V2 & V3). exists o, v. split; [exact E|]. split; [exact V1|]. split; [exact V2|].
      intros RO Q c1 c2 _ _ _ _. apply V3; [exact RO|]. pose proof (zlen_nonneg T). lia.
    + exists [], Waiting. split; [reflexivity|]. split; [discriminate|]. split; [discriminate|]. intros _ _ c1 c2 E _ _ Q. symmetry in E. apply app_eq_nil in E. destruct E as (-> & ->).
      destruct Q as [Q|(_ & Q)]; [|discriminate]. destruct RI as (_ & _ & I & _). pose proof (sinv_bounds dict wl D g ES A B H WR EA EB HL fuel _ _ _ I). change (zlen (@nil (list Z * Z))) with 0 in Q. lia.
  - inversion RC as [|? ? R1 R2]; subst. cbn [snd] in R1. set (input := rest ++ piece).
    assert (EX2 : x ++ input ++ offered calls = X) by (unfold input; rewrite <- EX; unfold offered; cbn [map concat fst]; rewrite <- !app_assoc; reflexivity).
    destruct (encode_raw_spec s x T input (offered calls) room RI EX2 R1) as (n & o & s' & r & i' & pre & E & EI & -> & LO & RI' & K). rewrite E. cbn [bind].
    assert (ZI : zlen input = zlen pre + zlen i') by (rewrite EI, zlen_app; reflexivity). pose proof (zlen_nonneg pre). pose proof (zlen_nonneg i').
    destruct (Z.ltb_spec room (zlen o)); [lia|]. destruct (Z.ltb_spec (zlen pre) 0); [lia|]. destruct (Z.ltb_spec (zlen input) (zlen pre)); [lia|]. cbn [orb].
    assert (SK : zskip (zlen pre) input = i') by (rewrite EI; apply zskip_app_exact; reflexivity). rewrite SK.
    assert (EX3 : (x ++ pre) ++ i' ++ offered calls = X) by (rewrite EI in EX2; rewrite <- EX2, <- !app_assoc; reflexivity).
    destruct (IH s' (x ++ pre) (T ++ o) i' RI' EX3 R2) as (o2 & v & E2 & V1 & V2 & V3). rewrite E2. cbn [bind].
    assert (TAIL : (i' = [] \/ zlen o = room) -> (exists oo vv, Some (o ++ o2, v) = Some (oo, vv) /\ vv <> Broken /\ (vv = Finished -> COMPLETE (T ++ oo)) /\
      (Forall (fun r => 1 <= r) rooms -> BD < zlen rooms -> forall calls1 calls2, (piece, room) :: calls = calls1 ++ calls2 -> offered calls2 = [] -> Forall (fun c => 1 <= snd c) calls2 ->
       BD - zlen T < zlen calls2 \/ (calls1 = [] /\ rest = []) -> vv = Finished))).
    { intros KK. exists (o ++ o2), v. split; [reflexivity|]. split; [exact V1|]. rewrite app_assoc. split; [exact V2|]. intros RO Q c1 c2 EC OF RC2 ME. pose proof (zlen_nonneg o).
      destruct c1 as [|(pc, rm) c1].
      - cbn [app] in EC. subst c2. unfold offered in OF. cbn [map concat fst] in OF. apply app_eq_nil in OF. destruct OF as (PN & OF). inversion RC2 as [|? ? RC3 RC4]; subst. cbn [snd] in RC3.
        apply (V3 RO Q [] calls eq_refl OF RC4). rewrite zlen_app. rewrite zlen_cons in ME.
        destruct KK as [->|KK]; [right; auto|]. destruct ME as [ME|(_ & ->)]; [left; lia|]. right. split; [reflexivity|]. unfold input in EI. cbn [app] in EI. symmetry in EI. apply app_eq_nil in EI. apply EI.
      - cbn [app] in EC. injection EC as -> -> EC. apply (V3 RO Q c1 c2 EC OF RC2). rewrite zlen_app. destruct ME as [ME|(ME & _)]; [left; lia|discriminate]. }
    destruct K as [(-> & ->)|(-> & ZL)].
    + change (zlen (@nil Z)) with 0 in ZI. destruct (Z.ltb_spec (zlen pre) (zlen input)); [lia|]. apply TAIL. auto.
    + destruct (Z.ltb_spec (zlen o) room); [lia|]. apply TAIL. auto.
Qed.
End Raw.
