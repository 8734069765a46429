(** The tool and the C API over the decompressor with one thread or two, on any input. *)
From Verif Require Import Prelude ProofList ProofZlist ModelMux ModelCmd ModelCrc ModelHeader ModelRecode ModelPriors ModelCodec ModelPm ModelTop ModelDec ModelThread ModelIo ModelTool ModelToolThread ModelCapi SpecCrc SpecHeader SpecIo SpecCheck SpecOrigin ProofCrc ProofHeader ProofCheck ProofTany ProofOrigin ProofOrigin2 ProofOrigin3.

Section Reads.
Context (dict : dict_fn) (wl : word_len_fn) (D : dims) (skip : bool) (fuel : nat).
Context (cap : Z) (F : list Z) (flt : bool) (BF : bytes F) (NF : ~ false_mark F).
Lemma reads_any k : forall rooms g X avail chunks h, rinv skip F flt X g avail -> rested g avail -> Forall (fun r => 1 <= r) rooms ->
  reads (decompressing dict wl D skip fuel) cap k g rooms = (chunks, h) -> reached_end chunks -> flt = false /\ intact skip F.
Proof.
  induction rooms as [|room rooms IH]; intros g X avail chunks h I RS FR; cbn [reads].
  - intros E (c1 & c2 & EC). assert (chunks = []) as -> by congruence. destruct c1; discriminate.
  - apply Forall_cons_iff in FR. destruct FR as (R & FR).
    destruct (gread (decompressing dict wl D skip fuel) cap k g room) as [o g1|g1| |] eqn:G.
    + unfold gread in G. assert (AV : zlen (g_data g) - g_off g = avail) by (symmetry; apply I). rewrite AV in G.
      apply (read_any dict wl D skip fuel cap F flt BF NF _ _ _ _ _ _ X) in G;
        [|exact I|exact RS|exact R|change (zlen (@nil Z)) with 0; lia|discriminate|discriminate].
      destruct G as (GE & X1 & a1 & I1 & R1).
      destruct (reads (decompressing dict wl D skip fuel) cap k g1 rooms) as (cs, h1) eqn:RD.
      intros E (c1 & c2 & EC). assert (chunks = o :: cs) as -> by congruence. destruct c1 as [|c c1]; cbn [app] in EC.
      * apply GE. congruence.
      * apply (IH g1 X1 a1 cs h1 I1 R1 FR RD). exists c1, c2. congruence.
    + intros E (c1 & c2 & EC). assert (chunks = []) as -> by congruence. destruct c1; discriminate.
    + intros E (c1 & c2 & EC). assert (chunks = []) as -> by congruence. destruct c1; discriminate.
    + intros E (c1 & c2 & EC). assert (chunks = []) as -> by congruence. destruct c1; discriminate.
Qed.
End Reads.

Lemma more_bytes : forall src space l src', read_more src space = Some (l, src') -> bytes (content src) -> content src = l ++ content src' /\ bytes l /\ bytes (content src').
Proof.
  induction src as [|[x| |] src IH]; intros space l src'; cbn [read_more source_read content].
  - intros E _. assert (l = [] /\ src' = []) as (-> & ->) by (split; congruence). repeat split; constructor.
  - intros E B. assert (EE : x ++ content src = l ++ content src').
    { destruct (Z.ltb_spec space (zlen x)).
      - assert (l = zfirst space x /\ src' = SData (zskip space x) :: src) as (-> & ->) by (split; congruence). cbn [content]. now rewrite app_assoc, zfirst_skip.
      - assert (l = zfirst space x /\ src' = src) as (-> & ->) by (split; congruence). now rewrite zfirst_all by lia. }
    split; [exact EE|]. rewrite EE in B. now apply Forall_app in B.
  - apply IH.
  - discriminate.
Qed.

Section Tool.
Context (dict : dict_fn) (wl : word_len_fn) (D : dims) (skip : bool).
(** a beginning of [F] is intact *)
Definition begins_intact (F : list Z) : Prop := exists pre post, F = pre ++ post /\ intact skip pre.

(** ** Two threads *)
Definition pinv (X : list Z) (d : pdec) : Prop :=
  match d with PHeader h => bytes X /\ hp_inv h X | PDecode x => hinv skip X (tm_m (wd_m x)) end.
Lemma pinv_new : pinv [] pdec_new.
Proof. split; [constructor|apply hp_new_inv]. Qed.
Lemma step_in_call X input room e x x' : bytes input -> minv skip X input room (wd_m x) -> step dict wl D skip e x = Some x' -> minv skip X input room (wd_m x').
Proof.
  intros B J E. unfold step in E. destruct e.
  - assert (GO : (if in_call (wd_m x) then let? '(s0, m, note) := mstep dict skip (leave_wait (tm_st (wd_m x)) (wd_sh x)) (tm_set_st (wd_m x) Awake) in Some (WD s0 (if note then tw_set_st (wd_w x) (wake (tw_st (wd_w x))) else wd_w x) m) else Some x) = Some x' -> minv skip X input room (wd_m x')).
    { destruct (in_call (wd_m x)) eqn:IC; [|intros [= <-]; exact J].
      destruct (mstep dict skip (leave_wait (tm_st (wd_m x)) (wd_sh x)) (tm_set_st (wd_m x) Awake)) as [((s0, m0), nt)|] eqn:M; cbn [bind]; [|discriminate].
      intros [= <-]. cbn [wd_m]. exact (mstep_any dict skip _ _ _ _ _ _ _ _ B (minv_st skip _ _ _ _ Awake J) IC M). }
    destruct (tm_st (wd_m x)); [exact (GO E)|injection E as <-; exact J|exact (GO E)].
  - destruct (tw_st (wd_w x)); try (injection E as <-; exact J).
    all: destruct (ended (wd_w x)); [injection E as <-; exact J|].
    all: match type of E with bind ?a _ = _ => destruct a as [((s0, w0), nt)|]; cbn [bind] in E; [|discriminate] end; injection E as <-; cbn [wd_m]; destruct nt; [apply minv_st|]; exact J.
  - injection E as <-. apply minv_st. exact J.
  - injection E as <-. exact J.
Qed.
Lemma step_between e x x' : step dict wl D skip e x = Some x' -> e <> ByMain -> tm_m (wd_m x') = tm_m (wd_m x).
Proof.
  intros ES NM. unfold step in ES. destruct e; [contradiction NM; reflexivity| | |].
  - destruct (tw_st (wd_w x)); try (injection ES as <-; reflexivity).
    all: destruct (ended (wd_w x)); [injection ES as <-; reflexivity|].
    all: match type of ES with bind ?a _ = _ => destruct a as [((s0, w0), nt)|]; cbn [bind] in ES; [|discriminate] end; injection ES as <-; cbn [wd_m]; destruct nt; reflexivity.
  - injection ES as <-. reflexivity.
  - injection ES as <-. reflexivity.
Qed.
Lemma await_any X input room : bytes input -> forall sched on x x' r on' sched', minv skip X input room (wd_m x) ->
  await dict wl D skip sched on x = Some (x', r, on', sched') -> minv skip X input room (wd_m x') /\ tm_pc (wd_m x') = MRet r.
Proof.
  intros B. induction sched as [|e sched IH]; intros on x x' r on' sched' M; cbn [await].
  - destruct (tm_pc (wd_m x)) eqn:PC; try discriminate. intros E.
    match goal with H : tm_pc _ = MRet ?q |- _ => assert (x' = x /\ r = q) as (-> & ->) by (split; congruence) end. split; [exact M|exact PC].
  - assert (GO : (let? x := step dict wl D skip e x in await dict wl D skip sched (turn e on) x) = Some (x', r, on', sched') -> minv skip X input room (wd_m x') /\ tm_pc (wd_m x') = MRet r).
    { destruct (step dict wl D skip e x) as [x1|] eqn:SE; cbn [bind]; [|discriminate]. apply IH. exact (step_in_call _ _ _ _ _ _ B M SE). }
    destruct (tm_pc (wd_m x)) eqn:PC; try exact GO. intros E.
    match goal with H : tm_pc _ = MRet ?q |- _ => assert (x' = x /\ r = q) as (-> & ->) by (split; congruence) end. split; [exact M|exact PC].
Qed.
Lemma parallel_any X input room : bytes input -> 0 <= room -> forall sched on d n o p r, pinv X d ->
  parallel_decode dict wl D skip sched on d input room = Some (n, o, p, r) ->
  0 <= n <= zlen input /\ zlen o <= room /\ (r <> PFail -> pinv (X ++ zfirst n input) (ps_d p)) /\ (r = PSuccess -> intact skip (X ++ zfirst n input)).
Proof.
  intros BI R. induction sched as [|e sched IH]; intros on d n o p r I; cbn [parallel_decode]; [discriminate|].
  assert (AW : forall sched on x, minv skip X input room (wd_m x) ->
    (let? '(x, r, on, sched) := await dict wl D skip sched on x in Some (tm_n (wd_m x), tm_out (wd_m x), PS (PDecode x) on sched, dec_pres r)) = Some (n, o, p, r) ->
    0 <= n <= zlen input /\ zlen o <= room /\ (r <> PFail -> pinv (X ++ zfirst n input) (ps_d p)) /\ (r = PSuccess -> intact skip (X ++ zfirst n input))).
  { intros sc on1 x M. destruct (await dict wl D skip sc on1 x) as [(((x1, r1), on2), sc2)|] eqn:AE; cbn [bind]; [|discriminate].
    destruct (await_any X input room BI _ _ _ _ _ _ _ M AE) as ((H & N & EI & O & RR & G) & PC).
    intros E. match type of E with Some (?a, ?b, ?c, ?d) = _ => assert (n = a /\ o = b /\ p = c /\ r = d) as (-> & -> & -> & ->) by (repeat split; congruence) end.
    split; [exact N|]. split; [lia|]. split; [intros _; exact H|]. intros ES. assert (r1 = DSuccess) as -> by (destruct r1; try discriminate; reflexivity).
    exact (intact_end2 D skip _ _ H (G PC)). }
  destruct e.
  - unfold begin_call. destruct d as [h|x].
    + destruct I as (BX & HI). pose proof (hp_any h X input HI) as H.
      destruct (hp_decode h input) as ((h', k), hr). destruct H as (Lk & H).
      assert (EK : zfirst (Z.of_nat k) input = firstn k input) by (unfold zfirst; now rewrite Nat2Z.id).
      assert (BN : bytes (X ++ firstn k input)) by (apply Forall_app; split; [exact BX|now apply bytes_firstn]).
      assert (RK : 0 <= Z.of_nat k <= zlen input) by (unfold zlen; lia).
      destruct hr as [|err|ws].
      * intros E. match type of E with Some (?a, ?b, ?c, ?d) = _ => assert (n = a /\ o = b /\ p = c /\ r = d) as (-> & -> & -> & ->) by (repeat split; congruence) end.
        split; [exact RK|]. split; [exact R|]. split; [|discriminate]. intros _. rewrite EK. split; [exact BN|exact H].
      * intros E. match type of E with Some (?a, ?b, ?c, ?d) = _ => assert (n = a /\ o = b /\ p = c /\ r = d) as (-> & -> & -> & ->) by (repeat split; congruence) end.
        split; [exact RK|]. split; [exact R|]. split; [intros C; contradiction C; reflexivity|discriminate].
      * destruct H as (H1 & H2 & H3). pose proof (proj1 (parse_header_ok _ ws H2) H3) as (P3 & P4 & P5).
        assert (I0 : hinv skip (X ++ firstn k input) (main_new (if skip then 0 else crc32c_update 0 (hp_header h')) ws)).
        { exists (hp_header h'). rewrite P4. split; [exact H2|]. split; [exact P3|]. split; [exact P5|].
          split; [exact BN|]. split; [exact Logic.I|]. split; [intros NE; now elim NE|]. exists []. split.
          - cbn [main_new m_trailer app]. now rewrite app_nil_r, H1.
          - intros SK. cbn [main_new m_crc]. rewrite SK, app_nil_r. apply crc_update_ok; [rewrite H1; exact BN|lia]. }
        destruct (Z.of_nat k <? zlen input).
        -- apply AW. cbn [world_new wd_m]. split; [cbn [tm_n tm_m]; rewrite EK; exact I0|]. cbn [tm_n tm_in tm_out tm_room tm_pc]. change (zlen (@nil Z)) with 0.
           split; [exact RK|]. split; [reflexivity|]. split; [lia|]. split; [exact R|discriminate].
        -- intros E. match type of E with Some (?a, ?b, ?c, ?d) = _ => assert (n = a /\ o = b /\ p = c /\ r = d) as (-> & -> & -> & ->) by (repeat split; congruence) end.
           split; [exact RK|]. split; [exact R|]. split; [|discriminate]. intros _. rewrite EK. exact I0.
    + apply AW. cbn [wd_m]. unfold minv. cbn [tm_n tm_in tm_out tm_room tm_pc tm_m]. rewrite zskip_0. change (zlen (@nil Z)) with 0. change (zfirst 0 input) with (@nil Z). rewrite app_nil_r.
      split; [exact I|]. split; [pose proof (zlen_nonneg input); lia|]. split; [reflexivity|]. split; [lia|]. split; [exact R|discriminate].
  - destruct d as [h|x]; [now apply IH|]. destruct (step dict wl D skip ByWorker x) as [x1|] eqn:SE; cbn [bind]; [|discriminate].
    apply IH. cbn [pinv]. rewrite (step_between _ _ _ SE ltac:(discriminate)). exact I.
  - destruct d as [h|x]; [now apply IH|].
    match goal with |- bind (step dict wl D skip ?e x) _ = _ -> _ => destruct (step dict wl D skip e x) as [x1|] eqn:SE; cbn [bind]; [|discriminate] end.
    apply IH. cbn [pinv]. rewrite (step_between _ _ _ SE ltac:(discriminate)). exact I.
  - destruct d as [h|x]; [now apply IH|].
    match goal with |- bind (step dict wl D skip ?e x) _ = _ -> _ => destruct (step dict wl D skip e x) as [x1|] eqn:SE; cbn [bind]; [|discriminate] end.
    apply IH. cbn [pinv]. rewrite (step_between _ _ _ SE ltac:(discriminate)). exact I.
Qed.
Section Parallel.
Context (bsize cap : Z).
Lemma ploop_any : forall k p data off src pend f f' q X F, pinv X (ps_d p) -> 0 <= off <= zlen data -> zlen pend <= bsize ->
  F = X ++ zskip off data ++ content src -> bytes F ->
  ploop dict wl D skip bsize cap k p data off src pend f = (f', TDone, q) -> begins_intact F.
Proof.
  induction k as [|k IH]; intros p data off src pend f f' q X F I OF PE EF BF; cbn [ploop]; [discriminate|].
  destruct (parallel_decode dict wl D skip (ps_sched p) (ps_on p) (ps_d p) (zskip off data) (bsize - zlen pend)) as [(((n, o), p1), r)|] eqn:DE; [|discriminate].
  assert (BB : bytes (zskip off data) /\ bytes (content src)).
  { rewrite EF in BF. apply Forall_app in BF. destruct BF as (_ & BF'). now apply Forall_app in BF'. }
  destruct (parallel_any X _ (bsize - zlen pend) (proj1 BB) ltac:(lia) _ _ _ _ _ _ _ I DE) as (RN & LO & DI & GS).
  rewrite zlen_skip in RN by lia.
  destruct (_ || _); [discriminate|].
  assert (EX2 : F = (X ++ zfirst n (zskip off data)) ++ zskip (off + n) data ++ content src).
  { rewrite EF. rewrite app_assoc, (split_at X _ n), <- !app_assoc. now rewrite zskip_zskip by lia. }
  destruct r.
  - intros _. exists (X ++ zfirst n (zskip off data)), (zskip (off + n) data ++ content src). split; [exact EX2|now apply GS].
  - specialize (DI ltac:(discriminate)).
    assert (GO : forall data' off', 0 <= off' <= zlen data' -> zskip off' data' = zskip (off + n) data ->
      (if zlen data' =? cap then ploop dict wl D skip bsize cap k p1 data' off' src (pend ++ o) f else
              match read_more src (cap - zlen data') with
              | None => (f, TError, Some p1)
              | Some ([], _) => (f, TError, Some p1)
              | Some (l, src) => ploop dict wl D skip bsize cap k p1 (data' ++ l) off' src (pend ++ o) f
              end) = (f', TDone, q) -> begins_intact F).
    { intros data' off' H1 H2. destruct (_ =? _).
      - apply (IH _ _ _ _ _ _ _ _ (X ++ zfirst n (zskip off data))); [exact DI|exact H1|rewrite zlen_app; lia|rewrite H2; exact EX2|exact BF].
      - destruct (read_more src (cap - zlen data')) as [(l, src1)|] eqn:RM; [|discriminate].
        destruct (more_bytes _ _ _ _ RM (proj2 BB)) as (EC & BL & BC). destruct l as [|b l]; [discriminate|].
        apply (IH _ _ _ _ _ _ _ _ (X ++ zfirst n (zskip off data))); [exact DI| |rewrite zlen_app; lia| |exact BF].
        + rewrite zlen_app. pose proof (zlen_nonneg (b :: l)). lia.
        + rewrite zskip_app_less by lia. rewrite H2, <- (app_assoc _ (b :: l)), <- EC. exact EX2. }
    destruct (Z.eqb_spec (off + n) (zlen data)) as [EN|EN].
    + apply (GO [] 0); [change (zlen (@nil Z)) with 0; lia|]. rewrite (zskip_all (off + n)) by lia. reflexivity.
    + apply (GO data (off + n)); [lia|reflexivity].
  - specialize (DI ltac:(discriminate)). destruct (put f (pend ++ o)) as (f1, ok). destruct ok; [|discriminate].
    apply (IH _ _ _ _ _ _ _ _ (X ++ zfirst n (zskip off data))); [exact DI|lia| |exact EX2|exact BF].
    change (zlen (@nil Z)) with 0. pose proof (zlen_nonneg pend). lia.
  - discriminate.
Qed.
End Parallel.
End Tool.

(** ** The C API *)
Section Calls.
Context {S : Type} (decode : S -> list Z -> Z -> list Z -> Z -> option (Z * Z * list Z * Z * S)) (skip : bool).
Context (inv : list Z -> S -> Prop).
Context (one : forall X d front input buf at_ k inoff buf' to d', inv X d -> bytes input ->
  decode d (front ++ input) (zlen front) buf at_ = Some (k, inoff, buf', to, d') ->
  0 <= inoff - zlen front <= zlen input /\ in_bounds (DANS k (inoff - zlen front) (zlen input) buf' at_ to buf) /\
  (k <> 3 -> inv (X ++ zfirst (inoff - zlen front) input) d') /\ (k = 0 -> intact skip (X ++ zfirst (inoff - zlen front) input))).
Lemma calls_any : forall calls d X rest l Y, inv X d -> bytes rest -> Forall (fun c => bytes (d_piece c)) calls ->
  any_calls decode d rest calls = (l, Y) ->
  Forall in_bounds l /\ (exists left, rest ++ concat (map d_piece calls) = Y ++ left) /\ ((exists a, In a l /\ a_code a = 0) -> intact skip (X ++ Y)).
Proof.
  induction calls as [|c calls IH]; intros d X rest l Y I B FC; cbn [any_calls map concat].
  - intros E. assert (l = [] /\ Y = []) as (-> & ->) by (split; congruence). split; [constructor|]. split; [exists rest; now rewrite app_nil_r|]. intros (a & [] & _).
  - apply Forall_cons_iff in FC. destruct FC as (BP & FC).
    assert (BI : bytes (rest ++ d_piece c)) by (apply Forall_app; split; assumption).
    destruct (decode d (d_front c ++ rest ++ d_piece c) (zlen (d_front c)) (d_buf c) (d_at c)) as [((((k, inoff), buf), to), d')|] eqn:DE.
    2: { intros E. assert (l = [] /\ Y = []) as (-> & ->) by (split; congruence). split; [constructor|]. split; [now exists (rest ++ d_piece c ++ concat (map d_piece calls))|]. intros (a & [] & _). }
    destruct (one X _ _ _ _ _ _ _ _ _ _ I BI DE) as (RN & IB & I1 & S1). set (n := inoff - zlen (d_front c)) in *.
    destruct ((k =? 0) || (k =? 3)) eqn:K.
    + intros E. match type of E with (?a, ?b) = _ => assert (l = a /\ Y = b) as (-> & ->) by (split; congruence) end.
      split; [constructor; [exact IB|constructor]|]. split.
      * exists (zskip n (rest ++ d_piece c) ++ concat (map d_piece calls)). now rewrite !app_assoc, zfirst_skip.
      * intros (a & [<-|[]] & E0). exact (S1 E0).
    + apply orb_false_elim in K. destruct K as (K0 & K3). apply Z.eqb_neq in K0, K3.
      destruct (any_calls decode d' (zskip n (rest ++ d_piece c)) calls) as (l2, Y2) eqn:E2.
      destruct (IH _ _ _ _ _ (I1 K3) (bytes_zskip _ _ BI) FC E2) as (F2 & (left & EL) & S2).
      intros E. match type of E with (?a, ?b) = _ => assert (l = a /\ Y = b) as (-> & ->) by (split; congruence) end.
      split; [constructor; [exact IB|exact F2]|]. split.
      * exists left. rewrite <- app_assoc, <- EL. now rewrite !app_assoc, zfirst_skip.
      * intros (a & [<-|IA] & E0); [contradiction (K0 E0)|]. rewrite app_assoc. apply S2. now exists a.
Qed.
End Calls.
