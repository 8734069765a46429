(** The decompressor with two threads keeps the contract, as long as the turns last. *)
From Verif Require Import Prelude ProofList ModelAns SpecAns ModelCdf SpecCdf ModelRecode SpecLz ProofRecode ProofRecode2 ProofAns ProofAnsRt ProofAnsDec ThmCdf ModelMux SpecMux ProofZlist ProofMux ProofMuxR ModelCmd ModelCrc SpecCrc ProofCrc ModelHeader SpecHeader ProofHeader ModelPriors ModelCodec ModelLit ModelPm ModelTop SpecCodec SpecReplay SpecFile ModelEnc ProofSim ModelDec SpecEnc SpecDec ProofDec1 ProofDec2 ProofDec3 ProofDec4 ProofDec5 ProofDec6 ProofDec7 ModelThread SpecThread ProofThread1 ProofThread2 ProofThread3 ProofThread4 ModelRawEnc ProofThread5 ModelTool ModelToolThread SpecTool ProofTool.
From Verif Require Import ModelIo SpecIo ProofIo ModelToolThread ProofToolThread ModelIoThread ProofIoThread.

Section Shadow.
Context (dict : dict_fn) (wl : word_len_fn) (D : dims) (skip : bool) (ws : Z) (WS : 10 <= ws <= 24).
Context (W Tr out : list Z) (N : nat) (TRE : Tr = trailer (crc32c 0 (make_header ws ++ W))).
Context (START : starts dict wl D skip ws W Tr out N) (BTT : bytes (make_header ws ++ W ++ Tr)).
Notation PINV := (pinv dict wl D skip ws W Tr out N).
(** The decompressor with the number of calls its turns are enough for, what it has still
    to be given and what it has put out; after that, one that needs no turns. *)
Inductive shadow := Live (n : nat) (p : pstate) (x o : list Z) | Dream (x o : list Z).
Definition dream (x o i : list Z) (room : Z) : Z * list Z * shadow * pres :=
  let x' := zskip (zlen i) x in
  match x' with
  | [] => let o2 := zfirst room (zskip (zlen o) out) in (zlen i, o2, Dream [] (o ++ o2), if zlen out - zlen o <=? room then PSuccess else PNeedOut)
  | _ => (zlen i, [], Dream x' o, PNeedIn)
  end.
Definition shadow_call (s : shadow) (i : list Z) (room : Z) : option (Z * list Z * shadow * pres) :=
  match s with
  | Live (S n) p x o => let? '(k, o2, p', r) := parallel_decode dict wl D skip (ps_sched p) (ps_on p) (ps_d p) i room in Some (k, o2, Live n p' (zskip k x) (o ++ o2), r)
  | Live O _ x o | Dream x o => Some (dream x o i room)
  end.
Definition shadowed : processor shadow := PROC shadow_call
  (fun s room => let? '(_, o, s, r) := shadow_call s [] room in Some (o, s, match r with PNeedIn => PFail | r => r end)).
Definition s_inv (s : shadow) (x o : list Z) : Prop :=
  match s with Live n p x' o' => x' = x /\ o' = o /\ PINV n p x o | Dream x' o' => x' = x /\ o' = o /\ exists more, out = o ++ more end.
Definition s_part (o : list Z) : Prop := exists more, out = o ++ more.
Definition s_done (s : shadow) (o : list Z) : Prop := s_inv s [] o /\ o = out.
Lemma s_inv_part s x o : s_inv s x o -> s_part o /\ zlen o <= zlen out.
Proof.
  intros I. assert (P : s_part o) by (destruct s as [n p x' o'|x' o']; destruct I as (_ & _ & I); [exact (pinv_part _ _ _ _ _ _ _ _ _ START [] _ _ _ _ I)|exact I]). split; [exact P|]. destruct P as (m & ->). rewrite zlen_app. pose proof (zlen_nonneg m). lia.
Qed.
Lemma dream_good x o i f room : (exists more, out = o ++ more) -> x = i ++ f -> 1 <= room -> exists o2 s r, dream x o i room = (zlen i, o2, s, r) /\ zlen o2 <= room /\ s_inv s f (o ++ o2) /\
  match r with PSuccess => f = [] /\ o ++ o2 = out | PNeedIn => f <> [] /\ o2 = [] | PNeedOut => zlen o2 = room /\ f = [] | PFail => False end.
Proof.
  intros (more & OE) -> R. unfold dream. rewrite (zskip_app_exact _ i f eq_refl). pose proof (zlen_nonneg more) as M0. destruct f as [|y f].
  - cbv zeta. assert (ZO : zskip (zlen o) out = more) by (rewrite OE; apply zskip_app_exact; reflexivity). rewrite ZO. assert (LO : zlen out = zlen o + zlen more) by (rewrite OE, zlen_app; reflexivity).
    eexists _, _, _. split; [reflexivity|]. assert (LF : zlen (zfirst room more) = Z.min room (zlen more)) by (rewrite zlen_first by lia; reflexivity). split; [lia|]. split; [split; [reflexivity|]; split; [reflexivity|]; exists (zskip room more); rewrite <- app_assoc, zfirst_skip; exact OE|].
    destruct (Z.leb_spec (zlen out - zlen o) room) as [K|K]; [split; [reflexivity|]; rewrite zfirst_all by lia; symmetry; exact OE|split; [lia|reflexivity]].
  - eexists [], _, _. split; [reflexivity|]. change (zlen (@nil Z)) with 0. split; [lia|]. rewrite app_nil_r. split; [split; [reflexivity|]; split; [reflexivity|]; exists more; exact OE|]. split; [discriminate|reflexivity].
Qed.
Lemma shadow_good s x o i f room : s_inv s x o -> x = i ++ f -> 1 <= room -> exists pre suf o2 s' r, shadow_call s i room = Some (zlen pre, o2, s', r) /\ i = pre ++ suf /\ zlen o2 <= room /\ s_inv s' (suf ++ f) (o ++ o2) /\
  match r with PSuccess => suf = [] /\ f = [] /\ o ++ o2 = out | PNeedIn => suf = [] /\ f <> [] | PNeedOut => zlen o2 = room /\ (suf <> [] -> f = []) | PFail => False end.
Proof.
  intros I EX R. assert (DR : (exists more, out = o ++ more) -> shadow_call (Dream x o) i room = shadow_call s i room -> exists pre suf o2 s' r, shadow_call s i room = Some (zlen pre, o2, s', r) /\ i = pre ++ suf /\ zlen o2 <= room /\ s_inv s' (suf ++ f) (o ++ o2) /\
    match r with PSuccess => suf = [] /\ f = [] /\ o ++ o2 = out | PNeedIn => suf = [] /\ f <> [] | PNeedOut => zlen o2 = room /\ (suf <> [] -> f = []) | PFail => False end).
  { intros P E. rewrite <- E. destruct (dream_good x o i f room P EX R) as (o2 & s' & r & E2 & LO & I' & K). exists i, [], o2, s', r. cbn [shadow_call]. rewrite E2. split; [reflexivity|]. split; [rewrite app_nil_r; reflexivity|]. split; [exact LO|]. split; [exact I'|].
    destruct r; [destruct K; auto|destruct K; auto|destruct K as (K1 & K2); split; [exact K1|intros Q; contradiction Q; reflexivity]|exact K]. }
  destruct s as [n p x' o'|x' o']; [|destruct I as (-> & -> & I); exact (DR I eq_refl)]. destruct I as (-> & -> & I). destruct n as [|n]; [exact (DR (pinv_part _ _ _ _ _ _ _ _ _ START [] _ _ _ _ I) eq_refl)|]. clear DR.
  assert (EX2 : i ++ f = x ++ []) by (rewrite app_nil_r; symmetry; exact EX). destruct (call_good dict wl D skip ws WS W Tr out N TRE START BTT [] (Forall_nil _) n p x o i f room I EX2 ltac:(lia)) as (pre & suf & o2 & p' & r & x1 & E & EI & XE & LO & K).
  assert (X1 : x1 = suf ++ f) by (rewrite EX, EI, <- app_assoc in XE; apply app_inv_head in XE; symmetry; exact XE). assert (ZS : zskip (zlen pre) x = x1) by (rewrite XE; apply zskip_app_exact; reflexivity).
  cbn [shadow_call]. rewrite E. cbn [bind]. rewrite ZS. exists pre, suf, o2, (Live n p' x1 (o ++ o2)), r. split; [reflexivity|]. split; [exact EI|]. split; [exact LO|]. rewrite X1 in *. cbn [s_inv].
  destruct r.
  - destruct K as (K1 & K2 & _ & K4). apply app_eq_nil in K1. destruct K1 as (-> & ->). rewrite K2. cbn [app]. auto.
  - destruct K as (-> & K2 & K3). cbn [app] in *. auto.
  - destruct K as (K1 & K2 & K3). split; [auto|]. split; [exact K1|]. intros NS. exfalso. apply NS, K3. intros Q. apply app_eq_nil in Q. apply NS, Q.
  - contradiction.
Qed.
Lemma shadow_contract : contract shadowed s_inv s_inv s_done (fun _ => True) (fun o => o = out) s_part (zlen out) true true.
Proof.
  constructor.
  - intros p x o i f room I EX R. destruct (shadow_good p x o i f room I EX R) as (pre & suf & o2 & s' & r & E & EI & LO & I' & K). exists pre, suf, o2, s', r. cbn [process shadowed]. split; [exact E|]. split; [exact EI|]. split; [exact LO|]. split; [exact I'|].
    split; [destruct r; [destruct K as (-> & -> & K); split; [reflexivity|]; split; [reflexivity|]; split; [exact I'|exact K]|apply K|destruct K as (K1 & K2); auto|exact K]|].
    intros _ -> -> ->. cbn [app] in I'. rewrite (app_nil_r o) in I', K. destruct r; [split; [exact I'|apply K]|destruct K as (_ & K); contradiction K; reflexivity|destruct K as (K & _); change (zlen (@nil Z)) with 0 in K; lia|contradiction].
  - auto.
  - intros p x o room I R. destruct (shadow_good p x o [] x room I eq_refl R) as (pre & suf & o2 & s' & r & E & EI & LO & I' & K). symmetry in EI. apply app_eq_nil in EI. destruct EI as (-> & ->). cbn [app] in I'. cbn [close shadowed]. rewrite E. cbn [bind].
    eexists o2, s', _. split; [reflexivity|]. split; [exact LO|]. split; [exact I'|]. destruct r; [destruct K as (_ & -> & K); split; [reflexivity|]; split; assumption|apply K|apply K|contradiction].
  - intros p o room (I & ->) R. destruct (shadow_good p [] out [] [] room I eq_refl R) as (pre & suf & o2 & s' & r & E & EI & LO & I' & K). symmetry in EI. apply app_eq_nil in EI. destruct EI as (-> & ->). cbn [app] in I'. cbn [close shadowed]. rewrite E. cbn [bind].
    destruct (s_inv_part _ _ _ I') as (_ & L). rewrite zlen_app in L. pose proof (zlen_nonneg o2) as L0. assert (o2 = []) as -> by (apply zlen_0_nil; lia). rewrite app_nil_r in I'. change (zlen (@nil Z)) with 0 in *.
    destruct r; [|destruct K as (_ & K); contradiction K; reflexivity|lia|contradiction]. exists s'. split; [reflexivity|]. split; [exact I'|reflexivity].
  - intros p x o [I|I]; exact (s_inv_part _ _ _ I).
  - intros p o (I & ->). destruct (s_inv_part _ _ _ I). auto.
Qed.
Lemma shadow_self : forall p x o i f room n o2 p', s_inv p x o -> x = i ++ f -> 1 <= room -> process shadowed p i room = Some (n, o2, p', PNeedIn) -> f <> [].
Proof.
  intros p x o i f room n o2 p' I EX R E. destruct (shadow_good p x o i f room I EX R) as (pre & suf & o3 & s' & r & E2 & EI & LO & I' & K). cbn [process shadowed] in E. assert (r = PNeedIn) as -> by congruence. apply K.
Qed.
(** ** What it has to do with the decompressor *)
Definition srel (n : nat) (p : pstate) (s : shadow) : Prop := exists m x o, s = Live m p x o /\ (n <= m)%nat.
Lemma srel_le n m p s : (n <= m)%nat -> srel m p s -> srel n p s.
Proof. intros L (k & x & o & -> & K). exists k, x, o. split; [reflexivity|lia]. Qed.
Notation REAL := (decompressing_parallel dict wl D skip).
Lemma srel_proc n p s i room : srel (S n) p s ->
  match process REAL p i room, process shadowed s i room with Some (k1, o1, a', r1), Some (k2, o2, b', r2) => k1 = k2 /\ o1 = o2 /\ r1 = r2 /\ srel n a' b' | None, None => True | _, _ => False end.
Proof.
  intros (m & x & o & -> & L). destruct m as [|m]; [lia|]. cbn [process decompressing_parallel shadowed shadow_call]. destruct (parallel_decode _ _ _ _ _ _ _ _ _) as [(((k, o2), p'), r)|]; cbn [bind]; [|exact I]. split; [reflexivity|]. split; [reflexivity|]. split; [reflexivity|]. exists m, (zskip k x), (o ++ o2). split; [reflexivity|lia].
Qed.
Lemma srel_close n p s room : srel (S n) p s ->
  match close REAL p room, close shadowed s room with Some (o1, a', r1), Some (o2, b', r2) => o1 = o2 /\ r1 = r2 /\ srel n a' b' | None, None => True | _, _ => False end.
Proof.
  intros (m & x & o & -> & L). destruct m as [|m]; [lia|]. cbn [close decompressing_parallel shadowed shadow_call]. destruct (parallel_decode _ _ _ _ _ _ _ _ _) as [(((k, o2), p'), r)|]; cbn [bind]; [|exact I]. split; [reflexivity|]. split; [reflexivity|]. exists m, (zskip k x), (o ++ o2). split; [reflexivity|lia].
Qed.
End Shadow.
