(** The example program's loops. *)
From Verif Require Import Prelude ProofList ModelFfi ModelMux ProofZlist ModelAns SpecAns ModelRecode SpecLz ModelCmd ModelCodec ModelPm ModelTop SpecCodec ModelHeader SpecHeader SpecCrc ProofHeader ModelEnc SpecFile ModelDec ProofDec7 ModelRaw ModelRawEnc ModelThread SpecThread ProofThread5 ProofThread6.
From Verif Require Import ModelIo ProofIo2 ModelHybrid SpecHybrid ModelToolThread ProofToolThread ModelCapi SpecCapi ProofCapi ProofFfi ModelExample ProofExample.

Lemma put_front buf o : zlen o <= zlen buf -> zfirst (0 + zlen o) (put_at buf 0 o) = o /\ zlen (put_at buf 0 o) = zlen buf.
Proof. intros L. destruct (put_at_facts buf 0 o ltac:(lia) ltac:(lia)) as (_ & Bw & Z). split; [|exact Z]. unfold between in Bw. rewrite Z.sub_0_r in Bw. exact Bw. Qed.
Section C.
Context (dict : dict_fn) (wl : word_len_fn) (D : dims).
Context {B : Type} (fe : frontend B) (create : opts -> B) (optimize : opts -> metablock -> option metablock).
Context (op : opts) (fuel : nat).
Local Notation PR := (hybrid_processor dict wl D (cfg_of op) fe (optimize op) fuel fuel).

Lemma flush_good : forall m n s x buf ret Y o, c_started D create s = Some (Brotli op x) -> zlen buf = BUF_SIZE ->
  hfinish PR x (repeat BUF_SIZE m) = Some (o, HFinished) -> holds ret Y -> zlen Y + zlen o <= 2 ^ 63 -> (m <= n)%nat ->
  exists v, flush_loop dict wl D fe create optimize n fuel s buf ret = XDone v /\ holds v (Y ++ o).
Proof.
  induction m as [|m IH]; intros n s x buf ret Y o ST LB HF HO LY LN; cbn [repeat hfinish] in HF; [discriminate HF|]. destruct n as [|n]; [lia|]. cbn [flush_loop].
  unfold c_flush. rewrite ST. cbn [bind]. unfold assert. rewrite LB. change ((0 <=? 0) && (0 <=? BUF_SIZE)) with true. cbn iota. rewrite Z.sub_0_r. cbn [close hybrid_processor] in HF.
  destruct (hybrid_flush dict wl D (cfg_of op) fe (optimize op) fuel fuel x BUF_SIZE) as [[[w x'] r]|]; [|discriminate HF]. cbn [bind] in HF |- *.
  destruct (Z.ltb_spec BUF_SIZE (zlen w)) as [Q|Q]; [discriminate HF|]. replace (0 + zlen w <=? BUF_SIZE) with true by (symmetry; apply Z.leb_le; lia). destruct (put_front buf w ltac:(lia)) as (PF & PL). rewrite PF.
  destruct r; try discriminate HF; cbn [pres_code ModelFfi.code].
  - change (DIVANS_SUCCESS =? DIVANS_FAILURE) with false. cbn iota. assert (w = o) by congruence. subst w. destruct (push_holds ret Y o HO LY) as (v & PV & HV). rewrite PV. change (DIVANS_SUCCESS =? DIVANS_SUCCESS) with true. cbn iota. exists v. auto.
  - change (DIVANS_NEEDS_MORE_OUTPUT =? DIVANS_FAILURE) with false. cbn iota. destruct (zlen w <? BUF_SIZE); [discriminate HF|]. destruct (hfinish PR x' (repeat BUF_SIZE m)) as [[o2 v2]|] eqn:E2; [|discriminate HF]. cbn [bind] in HF. assert (o = w ++ o2 /\ v2 = HFinished) as (-> & ->) by (split; congruence).
    rewrite zlen_app in LY. pose proof (zlen_nonneg o2). destruct (push_holds ret Y w HO ltac:(lia)) as (v & PV & HV). rewrite PV. change (DIVANS_NEEDS_MORE_OUTPUT =? DIVANS_SUCCESS) with false. cbn iota. rewrite app_assoc.
    apply (IH n (Started (Some (Brotli op x'))) x' (put_at buf 0 w) v (Y ++ w) o2 eq_refl ltac:(congruence) E2 HV); [rewrite zlen_app; lia|lia].
Qed.
Definition quiet (k : nat) : list (list Z * Z) := repeat ([], BUF_SIZE) k.
(** the calls of divans_encode put nothing out; [K] of them are more than enough if the
    session with so many empty calls has nothing left *)
Lemma encode_good rooms m : rooms = repeat BUF_SIZE m -> forall K s x data buf ret,
  c_started D create s = Some (Brotli op x) -> zlen buf = BUF_SIZE -> holds ret [] ->
  (forall k, (k <= K)%nat -> exists o v, hsession PR x data (quiet k) rooms = Some (o, v) /\ v <> HBroken /\ (v <> HLeft -> v = HFinished)) ->
  (forall o, hsession PR x data (quiet K) rooms <> Some (o, HLeft)) ->
  exists k o, (k <= K)%nat /\ hsession PR x data (quiet k) rooms = Some (o, HFinished) /\
    forall n, (K + m < n)%nat -> zlen o <= 2 ^ 63 -> exists v, encode_loop dict wl D fe create optimize n fuel s data buf ret = XDone v /\ holds v o.
Proof.
  intros RO. induction K as [|K IH]; intros s x data buf ret ST LB HO ALL NL.
  - destruct (ALL 0%nat (le_n _)) as (o & v & E & NB & FI). assert (v = HFinished) as -> by (apply FI; intros ->; exact (NL _ E)). exists 0%nat, o. split; [lia|]. split; [exact E|]. intros n LN LO.
    unfold quiet in E. cbn [repeat hsession] in E. destruct data; [|discriminate E]. destruct n as [|n]; [lia|]. cbn [encode_loop]. change (zlen (@nil Z) =? 0) with true. cbn iota. rewrite RO in E. apply (flush_good m (S n) s x buf ret [] o ST LB E HO); [exact LO|lia].
  - destruct data as [|z data0].
    { destruct (ALL 0%nat ltac:(lia)) as (o & v & E & NB & FI). assert (v = HFinished) as ->. { apply FI. intros ->. unfold quiet in E. cbn [repeat hsession] in E. clear - E. destruct rooms as [|r rooms]; cbn [hfinish] in E; [discriminate E|]. destruct (close _ _ _) as [[[o1 p1] r1]|]; [|discriminate E]. cbn [bind] in E.
        assert (NLF : forall l p q w, hfinish PR p l = Some (q, w) -> w <> HLeft). { clear. induction l as [|r l IH]; intros p q w H; cbn [hfinish] in H; [assert (w = HWaiting) by congruence; subst; discriminate|]. destruct (close _ _ _) as [[[o1 p1] r1]|]; [|discriminate H]. cbn [bind] in H. destruct (r <? zlen o1); [assert (w = HBroken) by congruence; subst; discriminate|]. destruct r1; [assert (w = HFinished) by congruence; subst; discriminate|assert (w = HBroken) by congruence; subst; discriminate| |assert (w = HBroken) by congruence; subst; discriminate]. destruct (zlen o1 <? r); [assert (w = HBroken) by congruence; subst; discriminate|]. destruct (hfinish PR p1 l) as [[o2 v2]|] eqn:E2; [|discriminate H]. cbn [bind] in H. assert (w = v2) as -> by congruence. exact (IH _ _ _ E2). }
        destruct (r <? zlen o1); [congruence|]. destruct r1; try congruence. destruct (zlen o1 <? r); [congruence|]. destruct (hfinish PR p1 rooms) as [[o2 v2]|] eqn:E2; [|discriminate E]. cbn [bind] in E. apply (NLF _ _ _ _ E2). congruence. }
      exists 0%nat, o. split; [lia|]. split; [exact E|]. intros n LN LO. unfold quiet in E. cbn [repeat hsession] in E. destruct n as [|n]; [lia|]. cbn [encode_loop]. change (zlen (@nil Z) =? 0) with true. cbn iota. rewrite RO in E. apply (flush_good m (S n) s x buf ret [] o ST LB E HO); [exact LO|lia]. }
    set (data := z :: data0) in *. assert (ND : zlen data =? 0 = false) by (unfold data; rewrite zlen_cons; apply Z.eqb_neq; pose proof (zlen_nonneg data0); lia).
    assert (STEP : forall k, hsession PR x data (quiet (S k)) rooms =
      let? '(n, o, p, r) := process PR x data BUF_SIZE in
      if (BUF_SIZE <? zlen o) || (n <? 0) || (zlen data <? n) then Some (o, HBroken) else
      match r with
      | PNeedIn => let? '(o2, v) := hsession PR p (zskip n data) (quiet k) rooms in Some (o ++ o2, v)
      | PNeedOut => if zlen o <? BUF_SIZE then Some (o, HBroken) else let? '(o2, v) := hsession PR p (zskip n data) (quiet k) rooms in Some (o ++ o2, v)
      | _ => Some (o, HBroken)
      end). { intros k. unfold quiet. cbn [repeat hsession]. rewrite app_nil_r. reflexivity. }
    clearbody data. cbn [process hybrid_processor] in STEP.
    destruct (hybrid_encode dict wl D (cfg_of op) fe (optimize op) fuel fuel x data BUF_SIZE) as [[[[n1 o1] x1] r]|] eqn:HE; [|destruct (ALL 1%nat ltac:(lia)) as (o & v & E & _); rewrite STEP in E; discriminate E]. cbn [bind] in STEP.
    assert (BR : (BUF_SIZE <? zlen o1) || (n1 <? 0) || (zlen data <? n1) = false). { destruct (ALL 1%nat ltac:(lia)) as (o & v & E & NB & _). rewrite STEP in E. destruct (_ || _ || _); [congruence|reflexivity]. }
    rewrite BR in STEP. assert (O1 : o1 = [] /\ (r = PNeedIn \/ r = PNeedOut)).
    { split.
      - clear - HE. unfold hybrid_encode in HE. repeat match type of HE with (match ?e with _ => _ end = _) => destruct e | bind ?e _ = _ => destruct e as [?|]; [cbn [bind] in HE|discriminate HE] end; congruence.
      - destruct (ALL 1%nat ltac:(lia)) as (o & v & E & NB & _). rewrite STEP in E. destruct r; auto; congruence. }
    destruct O1 as (-> & RR).
    assert (STEP2 : forall k, hsession PR x data (quiet (S k)) rooms = hsession PR x1 (zskip n1 data) (quiet k) rooms).
    { intros k. rewrite STEP. destruct RR as [-> | ->]; [|change (zlen (@nil Z) <? BUF_SIZE) with true in STEP |- *; destruct (ALL 1%nat ltac:(lia)) as (o & v & E & NB & _); rewrite STEP in E; congruence]. destruct (hsession PR x1 (zskip n1 data) (quiet k) rooms) as [[o2 v]|]; reflexivity. }
    destruct (IH (Started (Some (Brotli op x1))) x1 (zskip n1 data) buf ret eq_refl LB HO) as (k & o & K1 & K2 & K3).
    { intros k LK. destruct (ALL (S k) ltac:(lia)) as (o & v & E). rewrite STEP2 in E. eauto. } { intros o E. apply (NL o). rewrite STEP2. exact E. }
    exists (S k), o. split; [lia|]. split; [rewrite STEP2; exact K2|]. intros n LN LO. destruct n as [|n]; [lia|]. cbn [encode_loop]. rewrite ND. unfold c_encode. rewrite ST. cbn [bind]. unfold assert. replace ((0 <=? 0) && (0 <=? zlen data)) with true by (symmetry; apply andb_true_intro; rewrite !Z.leb_le; pose proof (zlen_nonneg data); lia). cbn iota.
    change (zskip 0 data) with data. rewrite LB, Z.sub_0_r, HE. cbn [bind]. assert (NF : pres_code r =? DIVANS_FAILURE = false) by (destruct RR as [-> | ->]; reflexivity). rewrite NF. change (zfirst 0 buf) with (@nil Z). destruct (push_holds ret [] [] HO ltac:(change (zlen (@nil Z)) with 0; lia)) as (v & PV & HV). 
    assert (v = ret) as -> by (unfold push_vec in PV; change (zlen (@nil Z) =? 0) with true in PV; cbn [orb] in PV; congruence). rewrite PV. apply K3; [lia|exact LO].
Qed.
End C.

(** ** Decompressing *)
Section Dec.
Context (dict : dict_fn) (wl : word_len_fn) (D : dims) (ws : Z) (WS : 10 <= ws <= 24) (W Tr out : list Z) (N : nat).
Context (TRE : Tr = trailer (crc32c 0 (make_header ws ++ W))) (START : starts dict wl D false ws W Tr out N) (fuel : nat).
Lemma decode_alone (LE : (N <= fuel)%nat) (LO : zlen out <= 2 ^ 63) : forall n d x o buf ret, d_inv dict wl D false ws W Tr out N d x o -> zlen buf = BUF_SIZE -> holds ret o -> zlen out - zlen o < Z.of_nat n ->
  exists v, decode_loop dict wl D n fuel (Alone d) x buf ret = XDone v /\ holds v out.
Proof.
  induction n as [|n IH]; intros d x o buf ret I LB HO LN.
  { destruct I as (I & _). destruct (dinv_prefix _ _ _ _ _ _ _ _ _ _ _ _ I) as (y & Y). rewrite Y, zlen_app in LN. pose proof (zlen_nonneg y). lia. }
  destruct (dec_call dict wl D false ws WS W Tr out N TRE START fuel LE d x o x [] BUF_SIZE I ltac:(rewrite app_nil_r; reflexivity) ltac:(unfold BUF_SIZE; lia)) as (pre & suf & o2 & d' & r & E & EI & LO2 & I' & K). rewrite app_nil_r in I'.
  assert (SUF : zskip (0 + zlen pre) x = suf) by (rewrite EI; change (0 + zlen pre) with (zlen pre); apply zskip_exact).
  destruct (dinv_prefix _ _ _ _ _ _ _ _ _ _ _ _ (proj1 I')) as (y & Y). pose proof (zlen_nonneg y). assert (LY : zlen out = zlen o + zlen o2 + zlen y) by (rewrite Y, !zlen_app; lia).
  cbn [decode_loop m_decode]. unfold c_decode, assert. rewrite LB. replace ((0 <=? 0) && (0 <=? zlen x)) with true by (symmetry; apply andb_true_intro; rewrite !Z.leb_le; pose proof (zlen_nonneg x); lia). change ((0 <=? 0) && (0 <=? BUF_SIZE)) with true. cbn iota. change (zskip 0 x) with x. rewrite Z.sub_0_r, E. cbn [bind].
  replace (0 + zlen o2 <=? BUF_SIZE) with true by (symmetry; apply Z.leb_le; lia). cbn [bind]. destruct (put_front buf o2 ltac:(lia)) as (PF & PL). rewrite PF.
  destruct (push_holds ret o o2 HO ltac:(lia)) as (v & PV & HV). rewrite PV. destruct r; cbn [dres_code ModelFfi.code].
  - change (DIVANS_SUCCESS =? DIVANS_FAILURE) with false. change (DIVANS_SUCCESS =? DIVANS_NEEDS_MORE_INPUT) with false. change (DIVANS_SUCCESS =? DIVANS_SUCCESS) with true. cbn [orb andb m_free]. exists v. split; [reflexivity|]. destruct K as (_ & _ & _ & K). rewrite K in HV. exact HV.
  - destruct K as (_ & K). contradiction K. reflexivity.
  - change (DIVANS_NEEDS_MORE_OUTPUT =? DIVANS_FAILURE) with false. change (DIVANS_NEEDS_MORE_OUTPUT =? DIVANS_NEEDS_MORE_INPUT) with false. change (DIVANS_NEEDS_MORE_OUTPUT =? DIVANS_SUCCESS) with false. cbn [orb andb]. rewrite SUF. destruct K as (K & _).
    apply (IH d' suf (o ++ o2) (put_at buf 0 o2) v I' ltac:(congruence) HV). rewrite zlen_app, K. unfold BUF_SIZE. lia.
  - contradiction.
Qed.
Context (BTT : bytes (make_header ws ++ W ++ Tr)).
Local Notation PI := (pinv dict wl D false ws W Tr out N).
Lemma free_over p : pfin p -> c_free_parallel dict wl D false p = true.
Proof.
  intros (w & E & EN). destruct p as [d on l]. cbn [ps_d] in E. subst d. unfold c_free_parallel. cbn [parallel_free ps_d ps_sched ps_on]. assert (K : free_returns (begin_free w) = true) by (unfold free_returns, begin_free; cbn [wd_w]; destruct (notify (wd_sh w)); exact EN). destruct l; cbn [wait_free]; rewrite K; reflexivity.
Qed.
Lemma decode_both (LO : zlen out <= 2 ^ 63) : forall n p x o buf ret, PI n p x o -> zlen buf = BUF_SIZE -> holds ret o -> zlen out - zlen o < Z.of_nat n ->
  exists v, decode_loop dict wl D n fuel (Both p) x buf ret = XDone v /\ holds v out.
Proof.
  induction n as [|n IH]; intros p x o buf ret I LB HO LN.
  { destruct (pinv_part dict wl D false ws W Tr out N START [] _ _ _ _ I) as (y & Y). rewrite Y, zlen_app in LN. pose proof (zlen_nonneg y). lia. }
  destruct (call_good dict wl D false ws WS W Tr out N TRE START BTT [] (Forall_nil _) n p x o x [] BUF_SIZE I eq_refl ltac:(unfold BUF_SIZE; lia)) as (pre & suf & o2 & p' & r & x' & E & EI & EX & LO2 & K).
  assert (XS : x' = suf) by (rewrite EI in EX; apply app_inv_head in EX; auto). subst x'.
  assert (SUF : zskip (0 + zlen pre) x = suf) by (rewrite EI; change (0 + zlen pre) with (zlen pre); apply zskip_exact).
  cbn [decode_loop m_decode]. unfold c_decode_parallel, assert. rewrite LB. replace ((0 <=? 0) && (0 <=? zlen x)) with true by (symmetry; apply andb_true_intro; rewrite !Z.leb_le; pose proof (zlen_nonneg x); lia). change ((0 <=? 0) && (0 <=? BUF_SIZE)) with true. cbn iota. change (zskip 0 x) with x. rewrite Z.sub_0_r, E. cbn [bind].
  replace (0 + zlen o2 <=? BUF_SIZE) with true by (symmetry; apply Z.leb_le; lia). cbn [bind]. destruct (put_front buf o2 ltac:(lia)) as (PF & PL). rewrite PF.
  assert (I' : exists y, out = (o ++ o2) ++ y). { destruct r; [destruct K as (_ & K & _); exists []; rewrite app_nil_r; auto|destruct K as (K1 & K2 & _); contradiction|destruct K as (_ & K & _); exact (pinv_part dict wl D false ws W Tr out N START [] _ _ _ _ K)|contradiction]. }
  destruct I' as (y & Y). pose proof (zlen_nonneg y). assert (LY : zlen out = zlen o + zlen o2 + zlen y) by (rewrite Y, !zlen_app; lia).
  destruct (push_holds ret o o2 HO ltac:(lia)) as (v & PV & HV). rewrite PV. destruct r; cbn [pres_code ModelFfi.code].
  - change (DIVANS_SUCCESS =? DIVANS_FAILURE) with false. change (DIVANS_SUCCESS =? DIVANS_NEEDS_MORE_INPUT) with false. change (DIVANS_SUCCESS =? DIVANS_SUCCESS) with true. cbn [orb andb m_free]. destruct K as (_ & K & F & _). rewrite (free_over _ F). exists v. split; [reflexivity|]. rewrite K in HV. exact HV.
  - destruct K as (K1 & K2 & _). contradiction.
  - change (DIVANS_NEEDS_MORE_OUTPUT =? DIVANS_FAILURE) with false. change (DIVANS_NEEDS_MORE_OUTPUT =? DIVANS_NEEDS_MORE_INPUT) with false. change (DIVANS_NEEDS_MORE_OUTPUT =? DIVANS_SUCCESS) with false. cbn [orb andb]. rewrite SUF. destruct K as (K & KI & _).
    apply (IH p' suf (o ++ o2) (put_at buf 0 o2) v KI ltac:(congruence) HV). rewrite zlen_app, K. unfold BUF_SIZE. lia.
  - contradiction.
Qed.
End Dec.
(** more rounds than needed change nothing *)
Lemma decode_more dict wl D fuel : forall n k m data buf ret v, decode_loop dict wl D n fuel m data buf ret = XDone v -> decode_loop dict wl D (n + k) fuel m data buf ret = XDone v.
Proof.
  induction n as [|n IH]; intros k m data buf ret v E; cbn [decode_loop Nat.add] in *; [discriminate E|].
  destruct (m_decode dict wl D fuel m data buf) as [[[[[res rd] b'] off] m']|]; [|exact E]. destruct (_ || _); [exact E|]. destruct (push_vec ret (zfirst off b')); [|exact E]. destruct (res =? DIVANS_SUCCESS); [exact E|]. apply IH, E.
Qed.
