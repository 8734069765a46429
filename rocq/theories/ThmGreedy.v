(** C65: the std::io adapters over the default compressor. *)
From Verif Require Import Prelude ProofList ModelMux ProofZlist ModelCmd ModelHeader ThmHeader ModelRecode SpecLz ModelPriors ModelCodec ModelLit ModelPm ModelTop SpecCodec SpecReplay ThmCodec ModelEnc SpecEnc SpecFile ThmEnc ModelDec SpecDec ModelIo SpecIo ProofIo ThmIo ModelRaw ModelRawEnc ThmRawEnc ModelHybrid SpecHybrid ProofHybrid ProofHybrid2 ThmHybrid ProofGreedy.
From Coq Require Import Lia.
Local Opaque codec_flush codec_encode.

(** The default compressor on pieces that a greedy encoder consumes whole. *)
Lemma greedy_file : forall dict wl D g opt {B} (fe : frontend B) optimize b0,
  big D -> cfg_ok g -> good_frontend dict wl D g (choose_window opt) fe optimize b0 -> faithful dict (choose_window opt) fe optimize b0 -> greedy fe ->
  forall pieces, bytes (concat pieces) ->
  exists cmds a b fuel0 n0, acceptable dict wl D g (choose_window opt) cmds /\ meaning dict (window (choose_window opt)) cmds = concat pieces /\ streams_of dict wl D g (choose_window opt) cmds a b /\
    forall fuel n, (fuel0 <= fuel)%nat -> (n0 <= n)%nat -> let pr := hybrid_processor dict wl D g fe optimize n fuel in
    exists p', fed pr (hybrid_new D b0 opt) pieces p' /\
    forall rooms, Forall (fun r => 0 <= r) rooms -> exists o v, hfinish pr p' rooms = Some (o, v) /\ (v = HFinished \/ v = HWaiting) /\ (v = HFinished -> is_file (choose_window opt) a b o) /\
      (Forall (fun r => 1 <= r) rooms -> 4 * (zlen a + zlen b) + 27 < zlen rooms -> v = HFinished).
Proof.
  intros dict wl D g opt B fe optimize b0 BG G GF FF GR pieces BX.
  assert (OF : offered (calls_of pieces) = concat pieces) by (unfold offered, calls_of; rewrite map_map; cbn [fst]; rewrite map_id; reflexivity).
  assert (RC : Forall (fun c : list Z * Z => 0 <= snd c) (calls_of pieces)) by (apply Forall_forall; intros c IN; apply in_map_iff in IN; destruct IN as (i & <- & _); cbn [snd]; lia).
  destruct (hybrid_file dict wl D g opt fe optimize b0 BG G GF (calls_of pieces) ltac:(rewrite OF; exact BX) RC) as (cmds & a & b & x & b' & left & fuel0 & n0 & R & ST & XI & _ & K).
  (* nothing is left over, as the session feeds everything *)
  destruct (K fuel0 n0 [] (le_n _) (le_n _) ltac:(constructor)) as (o1 & v1 & S1 & L1 & L2).
  assert (NB : v1 <> HBroken). { destruct left; [rewrite (L1 eq_refl); discriminate|]. destruct (L2 eq_refl) as ([->| ->] & _); discriminate. }
  destruct (session_fed _ (hybrid_quiet dict wl D g fe optimize n0 fuel0 GR) _ _ _ _ _ S1 NB) as (p1 & F1). rewrite (fed_session _ _ _ _ F1) in S1. cbn [hfinish] in S1. assert (v1 = HWaiting) by congruence. subst v1.
  destruct left; [specialize (L1 eq_refl); discriminate L1|]. clear L1 L2 S1 NB F1 o1. destruct (XI eq_refl) as (-> & FB). rewrite OF in *.
  exists cmds, a, b, fuel0, n0. split; [exact (gf_says _ _ _ _ _ _ _ _ GF _ _ _ R)|]. split; [exact (FF _ _ _ R FB)|]. split; [exact ST|]. intros fuel n LE LN pr.
  destruct (K fuel n [] LE LN ltac:(constructor)) as (o1 & v1 & S1 & _ & L2). assert (NB : v1 <> HBroken) by (destruct (L2 eq_refl) as ([->| ->] & _); discriminate).
  destruct (session_fed _ (hybrid_quiet dict wl D g fe optimize n fuel GR) _ _ _ _ _ S1 NB) as (p' & F). exists p'. split; [exact F|]. intros rooms R0. destruct (K fuel n rooms LE LN R0) as (o & v & S & _ & V). exists o, v. rewrite (fed_session _ _ _ _ F) in S. split; [exact S|]. exact (V eq_refl).
Qed.

(** C65, the reader.  Over any source, honest and of any sizes of chunks, interrupted as
    often as it likes: there are commands that stand for the bytes of the source such that,
    whatever the sizes of the caller's buffers, the reads return a complete file for them
    and then report the end, again and again; an error is one of the source. *)
Theorem C65_default_reader : forall dict wl D g opt B (fe : frontend B) optimize b0,
  big D -> cfg_ok g -> good_frontend dict wl D g (choose_window opt) fe optimize b0 -> faithful dict (choose_window opt) fe optimize b0 -> greedy fe ->
  forall src cap, Forall honest src -> bytes (content src) -> 1 <= cap ->
  exists cmds a b fuel0 n0 m0, acceptable dict wl D g (choose_window opt) cmds /\ meaning dict (window (choose_window opt)) cmds = content src /\ streams_of dict wl D g (choose_window opt) cmds a b /\
  forall fuel n m rooms, (fuel0 <= fuel)%nat -> (n0 <= n)%nat -> (m0 <= m)%nat -> Forall (fun r => 1 <= r) rooms ->
  exists chunks h, reads (hybrid_processor dict wl D g fe optimize n fuel) cap m (greader_new (hybrid_new D b0 opt) src true) rooms = (chunks, h) /\
    (h = Fine \/ (h = Failed /\ faulty src = true)) /\
    (reached_end chunks -> faulty src = false) /\
    (forall c1 c2, chunks = c1 ++ [] :: c2 -> is_file (choose_window opt) a b (concat c1) /\ concat c2 = []) /\
    (4 * (zlen a + zlen b) + 28 < zlen rooms -> reached_end chunks \/ h = Failed).
Proof.
  intros dict wl D g opt B fe optimize b0 BG G GF FF GR src cap HO BX CAP.
  (* the pieces are the same for every processor *)
  assert (PI : exists pieces, concat pieces = content src /\ forall fuel n, let pr := hybrid_processor dict wl D g fe optimize n fuel in
    forall m p p', (weight src + 3 <= m)%nat -> fed pr p pieces p' -> forall rooms1 rooms2 o v, hfinish pr p' rooms1 = Some (o, v) -> v <> HBroken -> (v = HWaiting -> rooms2 = []) -> Forall (fun r => 1 <= r) (rooms1 ++ rooms2) ->
    exists cs h, reads pr cap m (greader_new p src true) (rooms1 ++ rooms2) = (cs, h) /\
      if faulty src then cs = [] /\ h = (match rooms1 with [] => Fine | _ => Failed end) else h = Fine /\ told o v rooms2 cs).
  { destruct (greedy_reader (P := @hybrid B) cap src CAP HO) as (pieces & PC & K). exists pieces. split; [exact PC|]. intros fuel n pr. apply K. apply hybrid_again. }
  destruct PI as (pieces & PC & PI). destruct (greedy_file dict wl D g opt fe optimize b0 BG G GF FF GR pieces ltac:(rewrite PC; exact BX)) as (cmds & a & b & fuel0 & n0 & AC & ME & ST & K).
  exists cmds, a, b, fuel0, n0, (weight src + 3)%nat. split; [exact AC|]. split; [rewrite ME; exact PC|]. split; [exact ST|]. intros fuel n m rooms LE LN LM RM.
  destruct (K fuel n LE LN) as (p' & F & HF). cbv zeta in *. assert (R0 : forall l, Forall (fun r => 1 <= r) l -> Forall (fun r => 0 <= r) l) by (intros l; apply Forall_impl; lia).
  destruct (HF rooms (R0 _ RM)) as (o & v & E & V1 & V2 & V3).
  destruct (PI fuel n m _ p' LM F rooms [] o v E ltac:(destruct V1 as [->| ->]; discriminate) ltac:(reflexivity) ltac:(rewrite app_nil_r; exact RM)) as (cs & h & RD & C). rewrite app_nil_r in RD. exists cs, h. split; [exact RD|].
  destruct (faulty src) eqn:FA.
  - destruct C as (-> & ->). split; [destruct rooms; auto|]. split; [intros (c1 & c2 & Q); destruct c1; discriminate Q|]. split; [intros c1 c2 Q; destruct c1; discriminate Q|]. intros Q. right. destruct rooms; [|reflexivity]. change (zlen (@nil Z)) with 0 in Q. pose proof (zlen_nonneg a). pose proof (zlen_nonneg b). lia.
  - destruct C as (-> & T). split; [auto|]. split; [auto|]. split.
    + intros c1 c2 Q. destruct V1 as [->| ->]; cbn [told] in T; [|contradiction T; exists c1, c2; exact Q]. destruct T as (T1 & _). destruct (T1 _ _ Q) as (-> & C2). split; [apply V2; reflexivity|exact C2].
    + intros Q. left. destruct (exists_last (l := rooms)) as (rooms1 & r & ER). { intros ->. change (zlen (@nil Z)) with 0 in Q. pose proof (zlen_nonneg a). pose proof (zlen_nonneg b). lia. }
      subst rooms. apply Forall_app in RM. destruct RM as (RM1 & RM2). destruct (HF rooms1 (R0 _ RM1)) as (o1 & v1 & E1 & W1 & W2 & W3). rewrite zlen_app in Q. change (zlen [r]) with 1 in Q. assert (v1 = HFinished) by (apply W3; [exact RM1|lia]). subst v1.
      destruct (PI fuel n m _ p' LM F rooms1 [r] o1 HFinished E1 ltac:(discriminate) ltac:(discriminate) ltac:(apply Forall_app; auto)) as (cs1 & h1 & RD1 & C1). assert (cs1 = cs) by congruence. subst cs1. destruct C1 as (_ & _ & T2). apply T2. discriminate.
Qed.

(** C65, the round trip: what the reader returned up to its end, read through a
    decompressing reader, again with any buffers, gives the bytes of the source. *)
Theorem C65_default_reader_round_trip : forall dict wl D g opt B (fe : frontend B) optimize b0 skip,
  big D -> cfg_ok g -> good_frontend dict wl D g (choose_window opt) fe optimize b0 -> faithful dict (choose_window opt) fe optimize b0 -> greedy fe ->
  forall src cap, Forall honest src -> bytes (content src) -> 1 <= cap ->
  exists fuel0 n0 m0, forall fuel n m rooms c1 c2 h, (fuel0 <= fuel)%nat -> (n0 <= n)%nat -> (m0 <= m)%nat -> Forall (fun r => 1 <= r) rooms ->
  reads (hybrid_processor dict wl D g fe optimize n fuel) cap m (greader_new (hybrid_new D b0 opt) src true) rooms = (c1 ++ [] :: c2, h) ->
  forall src2 cap2, Forall honest src2 -> content src2 = concat c1 -> faulty src2 = false -> 1 <= cap2 ->
  exists m1, forall m2 rooms2, (m1 <= m2)%nat -> Forall (fun r => 1 <= r) rooms2 -> zlen (content src) < zlen rooms2 ->
  exists d1 d2, reads (decompressing dict wl D skip fuel) cap2 m2 (greader_new decompressor_new src2 false) rooms2 = (d1 ++ [] :: d2, Fine) /\ concat d1 = content src /\ concat d2 = [].
Proof.
  intros dict wl D g opt B fe optimize b0 skip BG G GF FF GR src cap HO BX CAP. destruct (C65_default_reader dict wl D g opt B fe optimize b0 BG G GF FF GR src cap HO BX CAP) as (cmds & a & b & fuel0 & n0 & m0 & AC & ME & ST & K).
  destruct (C38_decompressing_reader dict wl D g (choose_window opt) cmds a b skip BG G ltac:(unfold choose_window; lia) AC ST) as (f2 & H2).
  exists (Nat.max fuel0 f2), n0, m0. intros fuel n m rooms c1 c2 h LE LN LM RM E src2 cap2 HO2 C2 FA2 CAP2. destruct (K fuel n m rooms ltac:(lia) LN LM RM) as (cs & h' & E' & _ & _ & FI & _). assert (cs = c1 ++ [] :: c2) by congruence. destruct (FI _ _ H) as (IF & _).
  destruct (H2 fuel (concat c1) src2 [] cap2 ltac:(lia) IF HO2 ltac:(rewrite app_nil_r; exact C2) CAP2) as (m1 & H3). exists m1. intros m2 rooms2 LM2 RM2 LL. destruct (H3 m2 rooms2 LM2 RM2) as (ds & h2 & E2 & _ & HH & _ & SP & EN). rewrite ME in *.
  assert (h2 = Fine). { destruct HH as [->|(_ & [Q|Q])]; [reflexivity|contradiction Q; reflexivity|congruence]. } subst h2. destruct (EN LL) as [(d1 & d2 & ->)|Q]; [|discriminate Q]. destruct (SP _ _ eq_refl) as (S1 & S2). exists d1, d2. auto.
Qed.

(** C65, the writer: buffers of any sizes, then flush.  An error is one of the inner
    writer, which then holds a beginning of the file; otherwise it holds the file. *)
Theorem C65_default_writer : forall dict wl D g opt B (fe : frontend B) optimize b0,
  big D -> cfg_ok g -> good_frontend dict wl D g (choose_window opt) fe optimize b0 -> faithful dict (choose_window opt) fe optimize b0 -> greedy fe ->
  forall bufs cap, bytes (concat bufs) -> 1 <= cap ->
  exists cmds a b fuel0 n0 m0, acceptable dict wl D g (choose_window opt) cmds /\ meaning dict (window (choose_window opt)) cmds = concat bufs /\ streams_of dict wl D g (choose_window opt) cmds a b /\
  forall fuel n m k, (fuel0 <= fuel)%nat -> (n0 <= n)%nat -> (m0 <= m)%nat -> k_got k = [] ->
  exists w h T more, let pr := hybrid_processor dict wl D g fe optimize n fuel in
    flushed pr cap m (writes pr cap m (gwriter_new (hybrid_new D b0 opt) k true) bufs) = (w, h) /\ is_file (choose_window opt) a b T /\
    k_got (gw_sink w) ++ more = T /\ (h = Fine /\ more = [] \/ h = Failed /\ k_faults k <> []).
Proof.
  intros dict wl D g opt B fe optimize b0 BG G GF FF GR bufs cap BX CAP. destruct (greedy_file dict wl D g opt fe optimize b0 BG G GF FF GR bufs BX) as (cmds & a & b & fuel0 & n0 & AC & ME & ST & K).
  set (m0 := Z.to_nat (4 * (zlen a + zlen b) + 28)). exists cmds, a, b, fuel0, n0, (m0 + 1)%nat. split; [exact AC|]. split; [exact ME|]. split; [exact ST|]. intros fuel n m k LE LN LM KG. destruct (K fuel n LE LN) as (p' & F & HF). cbv zeta in *.
  assert (RM : Forall (fun r => 1 <= r) (repeat cap m0)) by (apply Forall_forall; intros z Q; apply repeat_spec in Q; lia).
  destruct (HF (repeat cap m0) ltac:(eapply Forall_impl; [|exact RM]; cbn beta; lia)) as (o & v & E & _ & V2 & V3). pose proof (zlen_nonneg a). pose proof (zlen_nonneg b).
  assert (v = HFinished) by (apply V3; [exact RM|]; unfold zlen at 3; rewrite repeat_length; unfold m0; lia). subst v. unfold gwriter_new. cbn [negb]. rewrite (greedy_writes _ _ m CAP ltac:(lia) _ _ _ false k F). cbn [flushed].
  destruct (greedy_flush _ cap m0 p' k o E m LM) as (w & [(W1 & W2)|(W0 & W1 & more & W2)]).
  - rewrite W2. exists w, Fine, o, []. split; [reflexivity|]. split; [apply V2; reflexivity|]. rewrite KG in W1. split; [rewrite app_nil_r; exact W1|auto].
  - rewrite W1. exists w, Failed, o, more. split; [reflexivity|]. split; [apply V2; reflexivity|]. rewrite KG in W2. split; [symmetry; exact W2|auto].
Qed.

(** ** A greedy encoder that keeps the contract: it collects everything and hands it over,
    one byte per command, when it is finished. *)
Definition hoard_step (s : list Z * bool) (fin : bool) (input : list Z) (room : Z) : option (Z * Z * list metablock * (list Z * bool)) :=
  if fin then Some (0, 0, [(raw_pm real_dims, map (fun z => Literal [z] false) (fst s))], (fst s, true))
  else Some (zlen input, 0, [], (fst s ++ input, false)).
Definition hoard : frontend (list Z * bool) := FE hoard_step snd.
Lemma hoard_greedy : greedy hoard.
Proof. intros b input room k w ms b' E. cbn [hoard b_step] in E. unfold hoard_step in E. congruence. Qed.
Lemma hoard_reaches b x cs : reaches hoard Some ([], false) b x cs ->
  fst b = x /\ bytes x /\ cs = if snd b then PredictionMode (raw_pm real_dims) :: map (fun z => Literal [z] false) x else [].
Proof.
  induction 1 as [|b x cs fin input room k w ms b' R IH NF FI BI RM ST]; [repeat split; constructor|]. destruct IH as (IX & IF & IC). cbn [hoard b_finished] in NF. rewrite NF in IC. cbn [hoard b_step] in ST. unfold hoard_step in ST. destruct fin.
  - specialize (FI eq_refl). subst input. assert (Q : k = 0 /\ ms = [(raw_pm real_dims, map (fun z => Literal [z] false) (fst b))] /\ b' = (fst b, true)) by (repeat split; congruence). destruct Q as (-> & -> & ->). cbn [fst snd]. change (zfirst 0 (@nil Z)) with (@nil Z). rewrite app_nil_r, IC. cbn [map concat block app]. rewrite app_nil_r, IX. auto.
  - assert (Q : k = zlen input /\ ms = [] /\ b' = (fst b ++ input, false)) by (repeat split; congruence). destruct Q as (-> & -> & ->). cbn [fst snd map concat]. rewrite zfirst_all by lia. rewrite IC, IX. split; [reflexivity|]. split; [apply Forall_app; auto|reflexivity].
Qed.
Lemma hoard_meaning dict : forall l h, meaning dict h (map (fun z => Literal [z] false) l) = l.
Proof. induction l as [|z l IH]; intros h; [reflexivity|]. cbn [map meaning meaning1]. rewrite IH. reflexivity. Qed.
Lemma hoard_good dict wl g ws : cfg_ok g -> good_frontend dict wl real_dims g ws hoard Some ([], false).
Proof.
  intros G. split.
  - reflexivity.
  - intros b x cmds fin input room R NF FI BI RM. cbn [hoard b_step]. unfold hoard_step. pose proof (zlen_nonneg input). destruct fin.
    + eexists 0, 0, _, _. split; [reflexivity|]. split; [lia|]. split; [lia|]. split; [constructor; [discriminate|constructor]|]. split; [discriminate|left; reflexivity].
    + eexists _, _, _, _. split; [reflexivity|]. split; [lia|]. split; [lia|]. split; [constructor|]. split; [|discriminate]. intros _. split; [reflexivity|left; reflexivity].
  - intros b x cmds R. destruct (hoard_reaches _ _ _ R) as (_ & IF & ->). destruct (snd b); [|split; constructor]. split.
    + constructor; [cbn [encodable]; apply raw_pm_ok, G|]. apply Forall_forall. intros c IN. apply in_map_iff in IN. destruct IN as (d & <- & IN). unfold bytes in IF. rewrite Forall_forall in IF. cbn [encodable]. split; [constructor; [exact (IF d IN)|constructor]|]. change (zlen [d]) with 1. lia.
    + cbn [coded_all coded]. constructor; [exact Logic.I|]. assert (TL : forall ds pm, Forall (replayable dict (2 ^ ws)) (coded_all wl real_dims g pm (map (fun d => Literal [d] false) ds))); [|apply TL].
      induction ds as [|d ds IH]; intros pm; cbn [map coded_all coded]; constructor; [exact Logic.I|apply IH].
  - intros b x cmds R. exists 1%nat. right. intros room k w ms b' RM ST. cbn [hoard b_step] in ST. unfold hoard_step in ST. left. assert (Q : b' = (fst b, true)) by congruence. rewrite Q. reflexivity.
Qed.
Lemma hoard_faithful dict ws : faithful dict ws hoard Some ([], false).
Proof. intros b x cmds R F. destruct (hoard_reaches _ _ _ R) as (<- & _ & ->). cbn [hoard b_finished] in F. rewrite F. cbn [meaning meaning1 app]. apply hoard_meaning. Qed.

(** A case: five bytes from a source that is interrupted, through a buffer of two bytes,
    into buffers of three: the end is reached, with a file. *)
Example C65_case : forall dict wl, exists fuel n m rooms c1 c2 cmds a b,
  reads (hybrid_processor dict wl real_dims demo_cfg hoard Some n fuel) 2 m (greader_new (hybrid_new real_dims ([], false) None) [SData [104; 101; 108]; SIntr; SData [108; 111]] true) rooms = (c1 ++ [] :: c2, Fine) /\
  meaning dict (window 22) cmds = [104; 101; 108; 108; 111] /\ is_file 22 a b (concat c1) /\ concat c2 = [].
Proof.
  intros dict wl. assert (G : cfg_ok demo_cfg) by apply C20_case. set (src := [SData [104; 101; 108]; SIntr; SData [108; 111]]).
  destruct (C65_default_reader dict wl real_dims demo_cfg None _ hoard Some ([], false) ltac:(vm_compute; intuition congruence) G (hoard_good dict wl demo_cfg 22 G) (hoard_faithful dict 22) hoard_greedy src 2) as (cmds & a & b & fuel & n & m & _ & ME & _ & K); [repeat constructor|repeat constructor; unfold byte; lia|lia|].
  set (rooms := repeat 3 (Z.to_nat (4 * (zlen a + zlen b) + 29))). destruct (K fuel n m rooms (le_n _) (le_n _) (le_n _) ltac:(apply Forall_forall; intros z Q; apply repeat_spec in Q; lia)) as (cs & h & E & HH & RE & SP & EN).
  assert (h = Fine) by (destruct HH as [Q|(_ & Q)]; [exact Q|discriminate Q]). subst h. destruct EN as [(c1 & c2 & ->)|Q]; [unfold rooms, zlen at 3; rewrite repeat_length; pose proof (zlen_nonneg a); pose proof (zlen_nonneg b); lia| |discriminate Q].
  destruct (SP _ _ eq_refl) as (S1 & S2). exists fuel, n, m, rooms, c1, c2, cmds, a, b. auto.
Qed.

(** ** Where the expectation fails *)
(** Without greed the reader can report the end of the file before it has returned a
    single byte, though there is a file to come: the encoder leaves a byte, the source is
    found to have ended while that byte is still waiting, and once it is consumed the read
    returns without having flushed. *)
Theorem C65_premature_end_refuted : forall dict wl g opt n fuel m room cap, cfg_ok g -> 1 <= room -> 1001 < cap ->
  good_frontend dict wl real_dims g (choose_window opt) store Some ([], false) /\ faithful dict (choose_window opt) store Some ([], false) /\
  exists r, gread (hybrid_processor dict wl real_dims g store Some n fuel) cap (S (S (S m))) (greader_new (hybrid_new real_dims ([], false) opt) [SData (repeat 65 1001)] true) room = ROk [] r /\ g_src r = [].
Proof.
  intros dict wl g opt n fuel m room cap G R C. split; [apply store_good, G|]. split; [apply store_faithful|]. set (X := repeat 65 1001). assert (ZL : zlen X = 1001) by (unfold X, zlen; rewrite repeat_length; reflexivity).
  unfold gread, greader_new. cbn [g_data g_off negb]. change (zlen (@nil Z) - 0) with 0. rewrite read_loop_eq. change (zlen (@nil Z)) with 0. rewrite Z.sub_0_r, Z.eqb_refl. cbn [negb orb andb g_eof]. unfold fetch. cbn [g_data g_eof g_src g_p g_off g_flushed g_err negb source_read]. change (zlen (@nil Z)) with 0. destruct (Z.ltb_spec 0 cap); [|lia]. cbn [andb]. rewrite Z.sub_0_r, ZL. destruct (Z.ltb_spec cap 1001); [lia|].
  rewrite zfirst_all by lia. rewrite ZL. change (1001 =? 0) with false. cbn beta iota. cbn [app]. change (0 + 1001 - 0) with 1001. unfold after at 1. cbn [g_data g_eof g_src g_p g_off g_flushed g_err]. change (1001 =? 0) with false. cbn iota. change (zskip 0 X) with X. rewrite zfirst_all by lia.
  cbn [process hybrid_processor]. unfold hybrid_encode at 1, internal_encode_stream at 1. cbn [hybrid_new h_b h_cm h_bsize h_bcap h_data h_cap h_off store b_step b_finished snd]. rewrite andb_false_r.
  unfold store_step at 1. cbn [fst]. rewrite ZL. change (Z.min 1000 1001) with 1000. change (1000 <? 1001) with true. change (1000 =? 0) with false. cbn iota. cbn [callbacks bind]. rewrite Z.sub_diag. change (0 =? 0) with true. cbn [negb andb bind].
  change (1001 <? 1000) with false. change (zlen (@nil Z)) with 0. destruct (Z.ltb_spec (room - 0) 0); [lia|]. cbn [orb app g_err]. change (1001 - 1000) with 1. change (1 =? 0) with false. cbn [andb].
  (* the second round: the source has ended, a byte is left *)
  set (st1 := HY _ _ _ _ _ _ _). rewrite read_loop_eq. change (zlen (@nil Z)) with 0. rewrite Z.sub_0_r, Z.eqb_refl. cbn [negb orb andb g_eof]. unfold fetch. cbn [g_data g_eof g_src g_p g_off g_flushed g_err negb source_read]. rewrite ZL. destruct (Z.ltb_spec 1001 cap); [|lia]. cbn [andb]. change (zlen (@nil Z) =? 0) with true. cbn beta iota.
  unfold after. cbn [g_data g_eof g_src g_p g_off g_flushed g_err]. change (1 =? 0) with false. cbn iota. change (0 + 1000) with 1000. assert (ZS : zlen (zskip 1000 X) = 1) by (rewrite zlen_skip, ZL by lia; reflexivity). rewrite zfirst_all by lia.
  assert (HE : exists s1, hybrid_encode dict wl real_dims g store Some n fuel st1 (zskip 1000 X) (room - 0) = Some (1, [], s1, PNeedIn)).
  { unfold hybrid_encode, internal_encode_stream. cbn [h_b h_cm h_bsize h_bcap h_data h_cap h_off store b_step b_finished snd st1]. rewrite andb_false_r.
    unfold store_step. cbn [fst]. rewrite ZS. change (Z.min 1000 1) with 1. change (1 <? 1) with false. change (1 =? 0) with false. cbn iota. cbn [callbacks bind andb snd]. destruct (_ && _); cbn [bind]; eexists; reflexivity. }
  destruct HE as (s1 & HE). cbn [process hybrid_processor]. change (zlen (@nil Z)) with 0. rewrite HE.
  assert (EXIT : exists r, read_loop (hybrid_processor dict wl real_dims g store Some n fuel) cap (S m) (copy_to_front cap (GR s1 X 1001 true false false [])) room 0 true [] = ROk [] r /\ g_src r = []).
  { exists (copy_to_front cap (GR s1 X 1001 true false false [])). assert (Q : g_eof (copy_to_front cap (GR s1 X 1001 true false false [])) = true /\ g_src (copy_to_front cap (GR s1 X 1001 true false false [])) = []) by (unfold copy_to_front; destruct (_ =? cap); [auto|destruct (_ && _); auto]). destruct Q as (Q1 & Q2). split; [|exact Q2]. apply (loop_exit _ cap true true). right. auto. }
  change (1 <? 1) with false. change (zlen (@nil Z)) with 0. destruct (Z.ltb_spec (room - 0) 0); [lia|]. cbn [orb app g_err]. change (1 - 1) with 0. change (0 =? 0) with true. cbn [andb g_eof g_data g_off g_src g_flushed]. apply EXIT.
Qed.
Print Assumptions C65_default_reader.
Print Assumptions C65_default_reader_round_trip.
Print Assumptions C65_default_writer.
Print Assumptions C65_premature_end_refuted.
