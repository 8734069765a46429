(** The adapters over a processor that swallows its input whole and puts nothing out until
    it is closed: the default compressor with a greedy front end. *)
From Verif Require Import Prelude ProofList ModelMux ProofZlist ModelCmd ModelRecode ModelPriors ModelCodec ModelPm ModelTop ModelEnc ModelIo SpecIo SpecDec SpecHybrid ProofIo ModelHybrid ProofHybrid.
From Coq Require Import Lia.

Section Greedy.
Context {P : Type} (pr : processor P).
(** [fed p pieces p']: the pieces, one per call, are consumed whole *)
Inductive fed : P -> list (list Z) -> P -> Prop :=
| fed_nil p : fed p [] p
| fed_cons p i p1 is p2 : (forall room, process pr p i room = Some (zlen i, [], p1, PNeedIn)) -> fed p1 is p2 -> fed p (i :: is) p2.
Definition calls_of (pieces : list (list Z)) : list (list Z * Z) := map (fun i => (i, 0)) pieces.
Lemma zskip_len (l : list Z) : zskip (zlen l) l = [].
Proof. apply zskip_all. lia. Qed.
Lemma fed_session p pieces p' : fed p pieces p' -> forall rooms, hsession pr p [] (calls_of pieces) rooms = hfinish pr p' rooms.
Proof.
  induction 1 as [p|p i p1 is p2 K F IH]; intros rooms; [reflexivity|]. cbn [calls_of map hsession app]. rewrite K. cbn [bind]. change (zlen (@nil Z)) with 0. change (0 <? 0) with false. pose proof (zlen_nonneg i). destruct (Z.ltb_spec (zlen i) 0); [lia|]. rewrite Z.ltb_irrefl. cbn [orb]. rewrite zskip_len. fold (calls_of is). rewrite IH.
  destruct (hfinish pr p2 rooms) as [[o2 v]|]; reflexivity.
Qed.
Lemma session_fed (quiet : forall p i room n o p' r, process pr p i room = Some (n, o, p', r) -> r <> PFail -> (forall room', process pr p i room' = Some (zlen i, [], p', PNeedIn))) : forall pieces p rooms o v, hsession pr p [] (calls_of pieces) rooms = Some (o, v) -> v <> HBroken -> exists p', fed p pieces p'.
Proof.
  induction pieces as [|i is IH]; intros p rooms o v S NB; [exists p; constructor|]. cbn [calls_of map hsession app] in S. fold (calls_of is) in S.
  destruct (process pr p i 0) as [[[[n o1] p1] r]|] eqn:E; [|discriminate S]. cbn [bind] in S. destruct (_ || _) in S; [assert (v = HBroken) by congruence; contradiction|].
  assert (NF : r <> PFail) by (intros ->; assert (v = HBroken) by congruence; contradiction). pose proof (quiet _ _ _ _ _ _ _ E NF) as Q. rewrite (Q 0) in E. assert (n = zlen i /\ r = PNeedIn) as (-> & ->) by (split; congruence). rewrite zskip_len in S.
  destruct (hsession pr p1 [] (calls_of is) rooms) as [[o2 v2]|] eqn:S2; [|discriminate S]. cbn [bind] in S. assert (v2 = v) by congruence. subst v2. destruct (IH _ _ _ _ S2 NB) as (p' & F). exists p'. econstructor; [exact Q|exact F].
Qed.

End Greedy.

(** ** Reading up to the end of the source, all of it within the first read *)
Lemma feeding {P} cap (CAP : 1 <= cap) : forall m src data, (weight src <= m)%nat -> Forall honest src -> zlen data < cap ->
  exists pieces, concat pieces = content src /\
  forall (pr : processor P) n p p' needs room fl, 1 <= room -> (m + 2 <= n)%nat -> fed pr p pieces p' ->
  exists n' data' src', (1 <= n')%nat /\ zlen data' <= cap /\ exists needs', read_loop pr cap n (GR p data (zlen data) false fl false src) room 0 needs [] = after pr cap n' (GR p' data' (zlen data') true fl (faulty src) src') room 0 needs' [].
Proof.
  induction m as [m IH] using lt_wf_ind. intros src data WM HO ROOM. pose proof (zlen_nonneg data) as D0.
  assert (START : forall (pr : processor P) n p needs room fl, read_loop pr cap (S n) (GR p data (zlen data) false fl false src) room 0 needs [] =
    let '(g, av, needs, again) := fetch cap (GR p data (zlen data) false fl false src) 0 needs in if again then read_loop pr cap n g room av needs [] else after pr cap n g room av needs []).
  { intros. rewrite read_loop_eq. change (zlen (@nil Z)) with 0. rewrite Z.sub_0_r, Z.eqb_refl. cbn [g_eof negb]. rewrite orb_true_r. reflexivity. }
  destruct src as [|ev src].
  - exists []. split; [reflexivity|]. intros pr n p p' needs room fl R LE F. destruct n as [|n]; [lia|]. inversion F; subst. rewrite START. unfold fetch. cbn [g_data g_eof g_src g_p g_off g_flushed g_err negb source_read]. destruct (Z.ltb_spec (zlen data) cap); [|lia]. cbn [andb]. change (zlen (@nil Z) =? 0) with true. cbn beta iota.
    exists n, data, []. split; [lia|]. split; [lia|]. exists needs. reflexivity.
  - pose proof (Forall_inv HO) as H1. pose proof (Forall_inv_tail HO) as H2. destruct ev as [l| |].
    + assert (LL : 0 < zlen l) by (destruct l; [contradiction H1|rewrite zlen_cons; pose proof (zlen_nonneg l); lia]).
      set (k := cap - zlen data). assert (K0 : 0 < k) by (unfold k; lia). set (src1 := if k <? zlen l then SData (zskip k l) :: src else src). set (d := zfirst k l).
      assert (DD : 0 < zlen d /\ zlen d <= k /\ d ++ content src1 = l ++ content src /\ (weight src1 + 2 <= weight (SData l :: src))%nat /\ Forall honest src1 /\ faulty src1 = faulty src).
      { unfold d, src1. destruct (Z.ltb_spec k (zlen l)) as [LT|GE2].
        - rewrite zlen_first by lia. split; [lia|]. split; [lia|]. cbn [content weight faulty]. split; [rewrite app_assoc; f_equal; apply zfirst_skip|].
          assert (zlen (zskip k l) = zlen l - k) by (rewrite zlen_skip by lia; lia).
          split; [unfold zlen in *; lia|]. split; [|reflexivity]. apply Forall_cons; [|exact H2]. unfold honest. destruct (zskip k l); [change (zlen (@nil Z)) with 0 in *; lia|exact Logic.I].
        - rewrite zfirst_all by lia. cbn [weight]. repeat split; try lia. exact H2. }
      destruct DD as (D1 & D2 & D3 & D4 & D5 & D6).
      (* the buffer after the piece is consumed does not depend on the processor *)
      assert (CF : exists data1, zlen data1 < cap /\ forall (p : P) fl, copy_to_front cap (GR p (data ++ d) (zlen data + zlen d) false fl false src1) = GR p data1 (zlen data1) false fl false src1).
      { unfold copy_to_front. cbn [g_off g_data g_p g_eof g_flushed g_err g_src]. rewrite zlen_app. destruct (Z.eqb_spec (zlen data + zlen d) cap); [exists []; split; [change (zlen (@nil Z)) with 0; lia|reflexivity]|].
        destruct (_ && _); [exists []; split; [change (zlen (@nil Z)) with 0; lia|]; intros; rewrite <- zlen_app, zskip_len; reflexivity|]. exists (data ++ d). rewrite zlen_app. split; [unfold k in D2; lia|reflexivity]. }
      destruct CF as (data1 & LD & CF). destruct (IH (m - 1)%nat ltac:(lia) src1 data1 ltac:(lia) D5 LD) as (pieces & PC & K).
      exists (d :: pieces). split; [cbn [concat content]; rewrite PC; exact D3|]. intros pr n p p' needs room fl R LE F. destruct n as [|n]; [lia|]. inversion F as [|? ? p1 ? ? F1 F2]; subst. rewrite START. unfold fetch. cbn [g_data g_eof g_src g_p g_off g_flushed g_err negb source_read]. destruct (Z.ltb_spec (zlen data) cap); [|lia]. cbn [andb]. fold k. fold d. fold src1.
      destruct (Z.eqb_spec (zlen d) 0); [lia|]. cbn beta iota. replace (zlen data + zlen d - zlen data) with (zlen d) by lia. unfold after at 1. cbn [g_data g_eof g_src g_p g_off g_flushed g_err]. destruct (Z.eqb_spec (zlen d) 0); [lia|].
      rewrite zskip_app_exact by reflexivity. rewrite zfirst_all by lia. rewrite F1. rewrite Z.ltb_irrefl. change (zlen (@nil Z)) with 0. destruct (Z.ltb_spec (room - 0) 0); [lia|]. cbn [orb app]. rewrite Z.sub_diag. change (0 =? 0) with true. cbn [g_err andb]. rewrite CF.
      destruct (K pr n p1 p' true room fl R ltac:(lia) F2) as (n' & data' & src' & N1 & L' & nd & E). exists n', data', src'. split; [exact N1|]. split; [exact L'|]. exists nd. rewrite E. cbn [faulty]. rewrite D6. reflexivity.
    + cbn [weight] in WM. destruct (IH (m - 1)%nat ltac:(lia) src data ltac:(lia) H2 ROOM) as (pieces & PC & K). exists pieces. split; [exact PC|]. intros pr n p p' needs room fl R LE F. destruct n as [|n]; [lia|]. rewrite START. unfold fetch. cbn [g_data g_eof g_src g_p g_off g_flushed g_err negb source_read]. destruct (Z.ltb_spec (zlen data) cap); [|lia]. cbn [andb].
      destruct (K pr n p p' needs room fl R ltac:(lia) F) as (n' & data' & src' & N1 & L' & nd & E). exists n', data', src'. split; [exact N1|]. split; [exact L'|]. exists nd. exact E.
    + exists []. split; [reflexivity|]. intros pr n p p' needs room fl R LE F. destruct n as [|n]; [lia|]. inversion F; subst. rewrite START. unfold fetch. cbn [g_data g_eof g_src g_p g_off g_flushed g_err negb source_read]. destruct (Z.ltb_spec (zlen data) cap); [|lia]. cbn [andb].
      exists n, data, src. split; [lia|]. split; [lia|]. exists needs. reflexivity.
Qed.

(** ** From there on *)
Section Closing.
Context {P : Type} (pr : processor P) (cap : Z) (CAP : 1 <= cap).
Context (again : forall p room o p', 0 <= room -> close pr p room = Some (o, p', PSuccess) -> forall room', 0 <= room' -> close pr p' room' = Some ([], p', PSuccess)).
(** one read from the end of the source on *)
Lemma close_read n p data fl er src room needs o p' r : (1 <= n)%nat -> zlen data <= cap -> 1 <= room -> close pr p room = Some (o, p', r) -> zlen o <= room -> (r = PSuccess \/ r = PNeedOut /\ zlen o = room) ->
  exists data', zlen data' <= cap /\ after pr cap n (GR p data (zlen data) true fl er src) room 0 needs [] =
    if er then RErr (GR p' data (zlen data) true true false src) else ROk o (GR p' data' (zlen data') true true false src).
Proof.
  intros N LD R E LO RR. destruct n as [|n]; [lia|]. unfold after. change (0 =? 0) with true. cbn match. cbn [g_data g_eof g_src g_p g_off g_flushed g_err]. change (zlen (@nil Z)) with 0. rewrite Z.sub_0_r, E. change (0 <? 0) with false. destruct (Z.ltb_spec room (zlen o)); [lia|]. cbn [orb app]. change (0 - 0) with 0. change (0 =? 0) with true. cbn [andb g_err g_data g_eof g_src g_p g_off g_flushed].
  destruct er; [exists data; split; [exact LD|reflexivity]|].
  assert (CF : exists data1, zlen data1 <= cap /\ copy_to_front cap (GR p' data (zlen data) true true false src) = GR p' data1 (zlen data1) true true false src).
  { unfold copy_to_front. cbn [g_off g_data g_p g_eof g_flushed g_err g_src]. destruct (_ =? cap); [exists []; split; [change (zlen (@nil Z)) with 0; lia|reflexivity]|]. destruct (_ && _); [exists []; split; [change (zlen (@nil Z)) with 0; lia|rewrite zskip_len; reflexivity]|]. exists data. split; [exact LD|reflexivity]. }
  destruct CF as (data1 & L1 & ->). exists data1. split; [exact L1|]. cbn [g_eof g_flushed andb]. destruct RR as [-> |(-> & LZ)]; [reflexivity|]. assert (o <> []) by (intros ->; change (zlen (@nil Z)) with 0 in LZ; lia). apply (loop_exit pr cap true true). left. assumption.
Qed.
Lemma gread_turn n p data er src room : 1 <= room -> gread pr cap (S n) (GR p data (zlen data) true true er src) room = after pr cap n (GR p data (zlen data) true true er src) room 0 false [].
Proof.
  intros R. unfold gread. cbn [g_data g_off]. rewrite Z.sub_diag, read_loop_eq. change (zlen (@nil Z)) with 0. rewrite Z.sub_0_r, Z.eqb_refl. cbn [negb orb andb g_eof]. unfold fetch. cbn [g_eof negb]. rewrite andb_false_r. reflexivity.
Qed.
Lemma reads_over fuel : (2 <= fuel)%nat -> forall rooms p data src, (forall room, 0 <= room -> close pr p room = Some ([], p, PSuccess)) -> zlen data <= cap -> Forall (fun r => 1 <= r) rooms ->
  exists cs, reads pr cap fuel (GR p data (zlen data) true true false src) rooms = (cs, Fine) /\ concat cs = [] /\ (rooms <> [] -> reached_end cs).
Proof.
  intros FU. induction rooms as [|room rooms IH]; intros p data src C LD RM; cbn [reads]; [exists []; split; [reflexivity|split; [reflexivity|intros Q; contradiction]]|].
  pose proof (Forall_inv RM) as R1. cbv beta in R1. pose proof (Forall_inv_tail RM) as R2. destruct fuel as [|fuel]; [lia|]. rewrite gread_turn by exact R1.
  destruct (close_read fuel p data true false src room false [] p PSuccess ltac:(lia) LD R1 (C room ltac:(lia)) ltac:(change (zlen (@nil Z)) with 0; lia) (or_introl eq_refl)) as (data' & LD' & ->).
  destruct (IH p data' src C LD' R2) as (cs & -> & CC & _). exists ([] :: cs). split; [reflexivity|]. split; [exact CC|]. intros _. exists [], cs. reflexivity.
Qed.
(** the reads once the source has ended, against the flush calls of a session: [rooms1]
    for the flush, then further reads *)
Definition told (o : list Z) (v : hend) (rooms2 : list Z) (cs : list (list Z)) : Prop :=
  match v with
  | HFinished => (forall c1 c2, cs = c1 ++ [] :: c2 -> concat c1 = o /\ concat c2 = []) /\ (rooms2 <> [] -> reached_end cs)
  | _ => ~ reached_end cs
  end.
Lemma told_cons x o v rooms2 cs : x <> [] -> told o v rooms2 cs -> told (x ++ o) v rooms2 (x :: cs).
Proof.
  intros NE T. assert (RE : reached_end (x :: cs) -> reached_end cs). { intros (c1 & c2 & E). destruct c1 as [|y c1]; [cbn [app] in E; congruence|]. exists c1, c2. cbn [app] in E. congruence. }
  unfold told in *. destruct v; [|intros Q; apply T, RE, Q..]. destruct T as (T1 & T2). split.
  - intros c1 c2 E. destruct c1 as [|y c1]; [cbn [app] in E; congruence|]. cbn [app] in E. assert (x = y /\ cs = c1 ++ [] :: c2) as (<- & E2) by (split; congruence). destruct (T1 _ _ E2) as (<- & C2). auto.
  - intros Q. destruct (T2 Q) as (c1 & c2 & ->). exists (x :: c1), c2. reflexivity.
Qed.
Lemma told_first x rooms2 cs : concat cs = [] -> (rooms2 <> [] -> reached_end cs) -> told x HFinished rooms2 (x :: cs).
Proof.
  intros CC RE. unfold told. split.
  - intros c1 c2 E. destruct c1 as [|y c1]; cbn [app] in E.
    + assert (x = [] /\ cs = c2) as (-> & ->) by (split; congruence). auto.
    + assert (x = y /\ cs = c1 ++ [] :: c2) as (<- & ->) by (split; congruence). rewrite concat_app in CC. cbn [concat app] in CC. apply app_eq_nil in CC. destruct CC as (C1 & C2). cbn [concat]. rewrite C1, app_nil_r. auto.
  - intros Q. destruct (RE Q) as (c1 & c2 & ->). exists (x :: c1), c2. reflexivity.
Qed.
Lemma reads_finish fuel : (2 <= fuel)%nat -> forall rooms1 rooms2 p data src o v, hfinish pr p rooms1 = Some (o, v) -> v <> HBroken -> (v = HWaiting -> rooms2 = []) -> zlen data <= cap -> Forall (fun r => 1 <= r) (rooms1 ++ rooms2) ->
  exists cs, reads pr cap fuel (GR p data (zlen data) true true false src) (rooms1 ++ rooms2) = (cs, Fine) /\ told o v rooms2 cs.
Proof.
  intros FU. induction rooms1 as [|room rooms1 IH]; intros rooms2 p data src o v HF NB W2 LD RM; cbn [app] in *.
  - cbn [hfinish] in HF. assert (o = [] /\ v = HWaiting) as (-> & ->) by (split; congruence). rewrite (W2 eq_refl). cbn [reads]. exists []. split; [reflexivity|]. cbn [told]. intros (c1 & c2 & E). destruct c1; discriminate E.
  - pose proof (Forall_inv RM) as R1. cbv beta in R1. pose proof (Forall_inv_tail RM) as R2. destruct fuel as [|fuel]; [lia|]. cbn [reads]. rewrite gread_turn by exact R1. cbn [hfinish] in HF.
    destruct (close pr p room) as [[[o1 p1] r]|] eqn:E; [|discriminate HF]. cbn [bind] in HF. destruct (Z.ltb_spec room (zlen o1)); [assert (v = HBroken) by congruence; contradiction|].
    destruct r; [| | |].
    + assert (o = o1 /\ v = HFinished) as (-> & ->) by (split; congruence). destruct (close_read fuel p data true false src room false o1 p1 PSuccess ltac:(lia) LD R1 E ltac:(lia) (or_introl eq_refl)) as (data' & LD' & ->).
      destruct (reads_over (S fuel) FU (rooms1 ++ rooms2) p1 data' src (fun room' => again p room o1 p1 ltac:(lia) E room') LD' R2) as (cs & -> & CC & RE). exists (o1 :: cs). split; [reflexivity|]. apply told_first; [exact CC|]. intros Q. apply RE. destruct rooms1, rooms2; try discriminate. contradiction.
    + assert (v = HBroken) by congruence. contradiction.
    + destruct (Z.ltb_spec (zlen o1) room); [assert (v = HBroken) by congruence; contradiction|]. destruct (hfinish pr p1 rooms1) as [[o2 v2]|] eqn:F2; [|discriminate HF]. cbn [bind] in HF. assert (o = o1 ++ o2 /\ v = v2) as (-> & ->) by (split; congruence).
      destruct (close_read fuel p data true false src room false o1 p1 PNeedOut ltac:(lia) LD R1 E ltac:(lia) ltac:(right; split; [reflexivity|lia])) as (data' & LD' & ->). destruct (IH rooms2 p1 data' src o2 v2 F2 NB W2 LD' R2) as (cs & -> & T). exists (o1 :: cs). split; [reflexivity|]. apply told_cons; [|exact T]. intros ->. change (zlen (@nil Z)) with 0 in *. lia.
    + assert (v = HBroken) by congruence. contradiction.
Qed.

End Closing.

(** the reader, from the start *)
Lemma greedy_reader {P} cap src : 1 <= cap -> Forall honest src -> exists pieces, concat pieces = content src /\
  forall (pr : processor P), (forall p room o p', 0 <= room -> close pr p room = Some (o, p', PSuccess) -> forall room', 0 <= room' -> close pr p' room' = Some ([], p', PSuccess)) ->
  forall n p p', (weight src + 3 <= n)%nat -> fed pr p pieces p' -> forall rooms1 rooms2 o v, hfinish pr p' rooms1 = Some (o, v) -> v <> HBroken -> (v = HWaiting -> rooms2 = []) -> Forall (fun r => 1 <= r) (rooms1 ++ rooms2) ->
  exists cs h, reads pr cap n (greader_new p src true) (rooms1 ++ rooms2) = (cs, h) /\
    if faulty src then cs = [] /\ h = (match rooms1 with [] => Fine | _ => Failed end) else h = Fine /\ told o v rooms2 cs.
Proof.
  intros CAP HO. destruct (feeding (P := P) cap CAP (weight src) src [] (le_n _) HO ltac:(change (zlen (@nil Z)) with 0; lia)) as (pieces & PC & K). exists pieces. split; [exact PC|]. intros pr again n p p' LE F rooms1 rooms2 o v HF NB W2 RM.
  destruct rooms1 as [|room rooms1]; cbn [app] in *.
  { cbn [hfinish] in HF. assert (o = [] /\ v = HWaiting) as (-> & ->) by (split; congruence). rewrite (W2 eq_refl). cbn [reads]. exists [], Fine. split; [reflexivity|]. destruct (faulty src); [auto|]. split; [reflexivity|]. cbn [told]. intros (c1 & c2 & E). destruct c1; discriminate E. }
  pose proof (Forall_inv RM) as R1. cbv beta in R1. cbn [reads]. unfold gread, greader_new. cbn [g_data g_off negb]. change (zlen (@nil Z) - 0) with 0.
  destruct (K pr n p p' false room false R1 ltac:(lia) F) as (n' & data' & src' & N1 & LD & nd & E). change (zlen (@nil Z)) with 0 in E. rewrite E.
  (* the first read is the one [reads_finish] makes in the closing state *)
  destruct (faulty src).
  - cbn [hfinish] in HF. destruct (close pr p' room) as [[[o1 p1] r]|] eqn:EC; [|discriminate HF]. cbn [bind] in HF. destruct (Z.ltb_spec room (zlen o1)); [assert (v = HBroken) by congruence; contradiction|].
    assert (RR : r = PSuccess \/ r = PNeedOut /\ zlen o1 = room). { destruct r; [left; reflexivity|assert (v = HBroken) by congruence; contradiction| |assert (v = HBroken) by congruence; contradiction]. right. split; [reflexivity|]. destruct (Z.ltb_spec (zlen o1) room); [assert (v = HBroken) by congruence; contradiction|lia]. }
    destruct (close_read pr cap CAP again n' p' data' false true src' room nd o1 p1 r N1 LD R1 EC ltac:(lia) RR) as (d2 & _ & ->). exists [], Failed. split; [reflexivity|auto].
  - destruct (reads_finish pr cap CAP again n ltac:(lia) (room :: rooms1) rooms2 p' data' src' o v HF NB W2 LD RM) as (cs & RF & T). exists cs, Fine. split; [|auto]. rewrite <- RF. cbn [app reads]. destruct n as [|n]; [lia|]. rewrite gread_turn by exact R1.
    cbn [hfinish] in HF. destruct (close pr p' room) as [[[o1 p1] r]|] eqn:EC; [|discriminate HF]. cbn [bind] in HF. destruct (Z.ltb_spec room (zlen o1)); [assert (v = HBroken) by congruence; contradiction|].
    assert (RR : r = PSuccess \/ r = PNeedOut /\ zlen o1 = room). { destruct r; [left; reflexivity|assert (v = HBroken) by congruence; contradiction| |assert (v = HBroken) by congruence; contradiction]. right. split; [reflexivity|]. destruct (Z.ltb_spec (zlen o1) room); [assert (v = HBroken) by congruence; contradiction|lia]. }
    assert (SAME : forall m1 m2 f1 f2 d1 d2, (1 <= m1)%nat -> (1 <= m2)%nat -> after pr cap m1 (GR p' data' (zlen data') true f1 false src') room 0 d1 [] = after pr cap m2 (GR p' data' (zlen data') true f2 false src') room 0 d2 []).
    { clear - EC RR R1 LD H. intros m1 m2 f1 f2 d1 d2 M1 M2. unfold after. change (0 =? 0) with true. cbn match. cbn [g_data g_eof g_src g_p g_off g_flushed g_err]. change (zlen (@nil Z)) with 0. rewrite Z.sub_0_r, EC. change (0 - 0) with 0. change (0 =? 0) with true. cbn [andb g_err]. destruct (_ || _); [reflexivity|].
      destruct RR as [->|(-> & LZ)].
      - cbn [app].
        assert (Q : g_eof (copy_to_front cap (GR p1 data' (zlen data') true true false src')) = true /\ g_flushed (copy_to_front cap (GR p1 data' (zlen data') true true false src')) = true) by (unfold copy_to_front; destruct (_ =? cap); [auto|destruct (_ && _); auto]). destruct Q as (-> & ->). reflexivity.
      - destruct m1 as [|m1]; [lia|]. destruct m2 as [|m2]; [lia|]. rewrite !(loop_exit pr cap true true) by (left; destruct o1; [change (zlen (@nil Z)) with 0 in LZ; lia|discriminate]). reflexivity. }
    rewrite (SAME n' n false true nd false N1 ltac:(lia)). reflexivity.
Qed.

(** ** The writer *)
Lemma greedy_writes {P} (pr : processor P) cap n : 1 <= cap -> (1 <= n)%nat -> forall bufs p p' fl k, fed pr p bufs p' -> writes pr cap n (GW p fl k) bufs = (GW p' fl k, Fine).
Proof.
  intros CAP N. destruct n as [|n]; [lia|]. induction bufs as [|b bufs IH]; intros p p' fl k F; inversion F as [|? ? p1 ? ? F1 F2]; subst; [reflexivity|]. cbn [writes]. unfold gwrite. cbn [write_loop gw_p gw_sink gw_flushed]. rewrite F1, Z.ltb_irrefl. change (zlen (@nil Z)) with 0. destruct (Z.ltb_spec cap 0); [lia|]. cbn [orb write_all negb]. rewrite zskip_len. change (zlen (@nil Z) =? 0) with true. cbn [negb]. rewrite Z.eqb_refl. apply IH, F2.
Qed.
Lemma greedy_flush {P} (pr : processor P) cap : forall m p k o, hfinish pr p (repeat cap m) = Some (o, HFinished) -> forall n, (m + 1 <= n)%nat ->
  exists g', k_got (gw_sink g') = k_got k ++ o /\ gflush pr cap n (GW p false k) = WOk 0 g' \/
    k_faults k <> [] /\ gflush pr cap n (GW p false k) = WErr g' /\ exists more, k_got k ++ o = k_got (gw_sink g') ++ more.
Proof.
  induction m as [|m IH]; intros p k o HF n LE; [discriminate HF|]. destruct n as [|n]; [lia|]. cbn [repeat hfinish] in HF. cbn [gflush gw_flushed gw_p gw_sink]. destruct (close pr p cap) as [[[o1 p1] r]|]; [|discriminate HF]. cbn [bind] in HF. destruct (Z.ltb_spec cap (zlen o1)); [discriminate HF|].
  destruct (write_all_spec k o1) as (k' & ok & -> & W1 & W2 & a & b & -> & W3). destruct r.
  - assert (o = a ++ b) by congruence. subst o. destruct ok; cbn [negb].
    + destruct n as [|n]; [lia|]. cbn [gflush gw_flushed]. eexists. left. split; [|reflexivity]. cbn [gw_sink]. apply W1. reflexivity.
    + eexists. right. split; [intros Q; destruct (W2 Q) as (Q2 & _); discriminate Q2|]. split; [reflexivity|]. cbn [gw_sink]. exists b. rewrite W3, app_assoc. reflexivity.
  - discriminate HF.
  - destruct (zlen (a ++ b) <? cap); [discriminate HF|]. destruct (hfinish pr p1 (repeat cap m)) as [[o2 v2]|] eqn:F2; [|discriminate HF]. cbn [bind] in HF. assert (o = (a ++ b) ++ o2 /\ v2 = HFinished) as (-> & ->) by (split; congruence). destruct ok; cbn [negb].
    + rewrite app_assoc, <- (W1 eq_refl). destruct (IH p1 k' o2 F2 n ltac:(lia)) as (g' & [(G1 & G2)|(G0 & G1 & G2)]); exists g'; [left; split; [exact G1|exact G2]|]. right. split; [intros Q; apply G0, (proj2 (W2 Q))|]. split; [exact G1|exact G2].
    + eexists. right. split; [intros Q; destruct (W2 Q) as (Q2 & _); discriminate Q2|]. split; [reflexivity|]. cbn [gw_sink]. exists (b ++ o2). rewrite W3, <- !app_assoc. reflexivity.
  - discriminate HF.
Qed.

Section Hybrid.
Context (dict : dict_fn) (wl : word_len_fn) (D : dims) (g : cfg).
Context {B : Type} (fe : frontend B) (optimize : metablock -> option metablock) (n fuel : nat).
Notation PR := (hybrid_processor dict wl D g fe optimize n fuel).
Lemma hybrid_quiet : greedy fe -> forall p i room k o p' r, process PR p i room = Some (k, o, p', r) -> r <> PFail -> forall room', process PR p i room' = Some (zlen i, [], p', PNeedIn).
Proof.
  intros GR p i room k o p' r E NF room'. cbn [process hybrid_processor] in *. unfold hybrid_encode in *. destruct (internal_encode_stream dict wl D g fe optimize n fuel false i p) as [[[k1 s1] r1]|] eqn:IE; [|discriminate E]. cbn [bind] in *.
  assert (k1 = k /\ s1 = p' /\ match r1 with PNeedOut | PFail => PFail | PSuccess | PNeedIn => PNeedIn end = r) as (-> & -> & RR) by (repeat split; congruence). clear E.
  assert (k = zlen i); [|subst k; destruct r1; (reflexivity || (exfalso; apply NF; symmetry; exact RR))].
  unfold internal_encode_stream in IE. destruct ((zlen i =? 0) && b_finished fe (h_b p)) eqn:Q.
  { apply andb_true_iff in Q. destruct Q as (Q & _). apply Z.eqb_eq in Q. assert (k = 0) by congruence. lia. }
  destruct (b_step fe (h_b p) false i _) as [[[[k2 w] ms] b]|] eqn:BS; [|assert (r1 = PFail) by congruence; subst r1; contradiction NF; symmetry; exact RR].
  rewrite <- (GR _ _ _ _ _ _ _ BS). destruct (callbacks _ _ _ _ _ _ _ _ _ _ _ _) as [[[[cm data] cp] err]|]; [|discriminate IE]. cbn [bind andb] in IE. destruct (_ && _) in IE; [congruence|]. destruct err; congruence.
Qed.

Local Opaque codec_flush codec_encode.
Lemma started cm room h cm' : start_call cm room = (h, cm', true) -> cm_hdr cm' = 16%nat.
Proof.
  unfold start_call. change ModelHeader.HEADER_LENGTH with 16%nat. destruct (Nat.eqb_spec (cm_hdr cm) 16) as [Q|Q]; [intros E; assert (cm = cm') by congruence; subst; exact Q|].
  destruct (ModelHeader.write_header _ _ _ _) as [[[o k] crc] r] eqn:W. intros E. assert (Q2 : r = ModelHeader.OSuccess /\ cm_hdr cm' = k). { apply (f_equal (fun t => (snd (fst t), snd t))) in E. cbn [fst snd] in E. destruct r; split; try congruence. all: assert (Q2 : cm' = CM k (cm_ws cm) (EC (ec_codec (cm_codec cm)) (ec_parts (cm_codec cm)) crc (ec_frozen (cm_codec cm)) (ec_phase (cm_codec cm)))) by congruence; rewrite Q2; reflexivity. }
  destruct Q2 as (-> & ->). unfold ModelHeader.write_header in W. change ModelHeader.HEADER_LENGTH with 16%nat in W. destruct (_ <? _)%nat in W; congruence.
Qed.
Lemma commands_hdr : forall m cmds cm data cp cm' data' cp', divans_encode_commands dict wl D g m fuel cmds cm data cp = Some (cm', data', cp') -> cm_hdr cm' = 16%nat.
Proof.
  induction m as [|m IH]; intros cmds cm data cp cm' data' cp' E; [discriminate E|]. cbn [divans_encode_commands] in E. unfold encode_commands in E. destruct (start_call cm _) as [[h c1] ok] eqn:S. destruct ok; cbn [negb] in E; [|discriminate E].
  pose proof (started _ _ _ _ S) as HD. destruct (codec_encode _ _ _ _ _ _ _ _) as [[[[o c] rest] r]|]; [|discriminate E]. cbn [bind] in E. destruct r; try discriminate E.
  - destruct rest; [|discriminate E]. assert (cm' = CM (cm_hdr c1) (cm_ws c1) c) by congruence. subst cm'. exact HD.
  - destruct rest; [|discriminate E]. assert (cm' = CM (cm_hdr c1) (cm_ws c1) c) by congruence. subst cm'. exact HD.
  - apply IH in E. exact E.
Qed.
Lemma callbacks_hdr m : forall ms cm data cp err cm' data' cp' err', cm_hdr cm = 16%nat -> callbacks dict wl D g optimize m fuel ms cm data cp err = Some (cm', data', cp', err') -> cm_hdr cm' = 16%nat.
Proof.
  induction ms as [|x ms IH]; intros cm data cp err cm' data' cp' err' HD E; cbn [callbacks] in E; [assert (cm = cm') by congruence; subst; exact HD|].
  destruct (callback dict wl D g optimize m fuel x cm data cp) as [[[[cm1 d1] c1] e1]|] eqn:CB; [|discriminate E]. cbn [bind] in E. apply IH in E; [exact E|]. unfold callback in CB. destruct (optimize x) as [[pm cmds]|]; [|assert (cm = cm1) by congruence; subst; exact HD].
  destruct (divans_encode_commands dict wl D g m fuel [_] cm data cp) as [[[cm2 d2] c2]|] eqn:E2; [|discriminate CB]. cbn [bind] in CB. apply commands_hdr in E2. destruct cmds as [|c cmds]; [assert (cm2 = cm1) by congruence; subst; exact E2|].
  destruct (divans_encode_commands dict wl D g m fuel (c :: cmds) cm2 d2 c2) as [[[cm3 d3] c3]|] eqn:E3; [|discriminate CB]. cbn [bind] in CB. apply commands_hdr in E3. assert (cm3 = cm1) by congruence. subst. exact E3.
Qed.
Lemma flush_codec_hdr : forall m cm data cp cm' data' cp' r, flush_codec dict wl D g m fuel cm data cp = Some (cm', data', cp', r) -> cm_hdr cm' = cm_hdr cm.
Proof.
  induction m as [|m IH]; intros cm data cp cm' data' cp' r E; [discriminate E|]. cbn [flush_codec] in E. destruct (codec_flush _ _ _ _ _ _ _) as [[[o c] r1]|]; [|discriminate E]. cbn [bind] in E. destruct r1.
  - assert (cm' = CM (cm_hdr cm) (cm_ws cm) c) by congruence. subst. reflexivity.
  - assert (cm' = CM (cm_hdr cm) (cm_ws cm) c) by congruence. subst. reflexivity.
  - apply IH in E. exact E.
  - assert (cm' = CM (cm_hdr cm) (cm_ws cm) c) by congruence. subst. reflexivity.
Qed.
Lemma stream_end m s k s' r : cm_hdr (h_cm s) = 16%nat -> internal_encode_stream dict wl D g fe optimize m fuel true [] s = Some (k, s', r) -> cm_hdr (h_cm s') = 16%nat /\ (r = PSuccess -> b_finished fe (h_b s') = true).
Proof.
  intros HD E. unfold internal_encode_stream in E. change (zlen (@nil Z) =? 0) with true in E. cbn [andb] in E. destruct (b_finished fe (h_b s)) eqn:F; [assert (s = s') by congruence; subst; auto|].
  destruct (b_step fe (h_b s) true [] _) as [[[[k2 w] ms] b]|]; [|assert (r = PFail /\ s' = HY (h_b s) (h_cm s) (h_bsize s) (grown (h_bsize s) (h_bcap s) 256) (h_data s) (h_cap s) (h_off s)) as (-> & ->) by (split; congruence); split; [exact HD|discriminate]].
  destruct (callbacks _ _ _ _ _ _ _ _ _ _ _ _) as [[[[cm data] cp] err]|] eqn:CB; [|discriminate E]. cbn [bind] in E. apply callbacks_hdr in CB; [|exact HD].
  destruct (_ && negb (b_finished fe b)) in E; [apply (f_equal (fun t => match t with Some (_, s, r) => Some (h_cm s, r) | None => None end)) in E; cbn [h_cm] in E; assert (h_cm s' = cm /\ r = PNeedIn) as (-> & ->) by (split; congruence); split; [exact CB|discriminate]|].
  destruct err; [apply (f_equal (fun t => match t with Some (_, s, r) => Some (h_cm s, r) | None => None end)) in E; cbn [h_cm] in E; assert (h_cm s' = cm /\ r = PFail) as (-> & ->) by (split; congruence); split; [exact CB|discriminate]|].
  destruct (b_finished fe b) eqn:FB; cbn [negb] in E.
  - destruct (flush_codec dict wl D g m fuel cm data cp) as [[[[cm2 d2] c2] r2]|] eqn:FC; [|discriminate E]. cbn [bind] in E. apply flush_codec_hdr in FC. apply (f_equal (fun t => match t with Some (_, s, r) => Some (h_cm s, h_b s) | None => None end)) in E. cbn [h_cm h_b] in E. assert (h_cm s' = cm2 /\ h_b s' = b) as (-> & ->) by (split; congruence). split; [rewrite FC; exact CB|intros _; exact FB].
  - apply (f_equal (fun t => match t with Some (_, s, r) => Some (h_cm s, r) | None => None end)) in E; cbn [h_cm] in E; assert (h_cm s' = cm /\ r = PNeedOut) as (-> & ->) by (split; congruence); split; [exact CB|discriminate].
Qed.
Lemma drive_end m : forall k s s', cm_hdr (h_cm s) = 16%nat -> drive dict wl D g fe optimize k m fuel s = Some (s', true) -> cm_hdr (h_cm s') = 16%nat /\ b_finished fe (h_b s') = true.
Proof.
  induction k as [|k IH]; intros s s' HD E; [discriminate E|]. cbn [drive] in E. destruct (internal_encode_stream dict wl D g fe optimize m fuel true [] s) as [[[k1 s1] r]|] eqn:IE; [|discriminate E]. cbn [bind] in E. destruct (stream_end _ _ _ _ _ HD IE) as (H1 & H2). destruct r; try discriminate E.
  - assert (s1 = s') by congruence. subst. auto.
  - apply (IH _ _ H1 E).
Qed.
Lemma hybrid_again p room o p' : 0 <= room -> close PR p room = Some (o, p', PSuccess) -> forall room', 0 <= room' -> close PR p' room' = Some ([], p', PSuccess).
Proof.
  intros R E room' R'. cbn [close hybrid_processor] in *. unfold hybrid_flush in E. destruct (start_call (h_cm p) room) as [[h cm] ok] eqn:ST. destruct ok; cbn [negb] in E; [|discriminate E]. apply started in ST.
  destruct (drive dict wl D g fe optimize n n fuel _) as [[s fine]|] eqn:DR; [|discriminate E]. cbn [bind] in E. destruct fine; cbn [negb] in E; [|discriminate E]. assert (NP : exists n', n = S n') by (clear - DR; destruct n; [discriminate DR|eauto]). apply drive_end in DR; [|exact ST]. destruct DR as (HD & FB). set (len := Z.min _ _) in E.
  destruct (Z.eqb_spec (h_off s + len) (zlen (h_data s))) as [Q|Q]; [|discriminate E]. assert (EP : p' = HY (h_b s) (h_cm s) (h_bsize s) (h_bcap s) (h_data s) (h_cap s) (h_off s + len)) by congruence. rewrite Q in EP. clear E. subst p'.
  unfold hybrid_flush. cbn [h_cm h_b h_bsize h_bcap h_data h_cap h_off]. rewrite (start_none _ _ HD). cbn [negb].
  destruct NP as (n' & ->). cbn [drive]. unfold internal_encode_stream. cbn [h_b]. rewrite FB. change (zlen (@nil Z) =? 0) with true. cbn [andb bind negb h_cm h_b h_bsize h_bcap h_data h_cap h_off].
  rewrite zskip_len. change (zlen (@nil Z)) with 0. rewrite Z.min_l by lia. rewrite Z.add_0_r, Z.eqb_refl. reflexivity.
Qed.
End Hybrid.
