(** The decompressor and the compressor on raw bytes keep the contract of ProofIo. *)
From Verif Require Import Prelude ProofList ModelMux ProofZlist ModelAns SpecAns ModelRecode ModelCmd ModelCodec ModelPm ModelTop SpecCodec ModelHeader SpecHeader SpecCrc ProofHeader ProofEnc ModelEnc ProofEnc4 SpecFile ModelDec ProofDec7 ModelRaw ModelRawEnc SpecRawEnc ProofRawEnc ProofRawEnc2 ModelIo SpecIo ProofIo.

Section Dec.
Context (dict : dict_fn) (wl : word_len_fn) (D : dims) (skip : bool) (ws : Z) (WS : 10 <= ws <= 24) (W Tr out : list Z) (N : nat).
Context (TRE : Tr = trailer (crc32c 0 (make_header ws ++ W))) (START : starts dict wl D skip ws W Tr out N) (fuel : nat) (LE : (N <= fuel)%nat).
Local Notation DI := (dinv dict wl D skip ws W Tr out N).
Definition d_inv (d : decompressor) (x o : list Z) : Prop := DI d x o /\ bytes x.
Definition d_done (d : decompressor) (o : list Z) : Prop := DI d [] o /\ o = out.
Definition d_part (o : list Z) : Prop := exists more, out = o ++ more.
Lemma full_nil (l : list Z) : out = out ++ l -> l = [].
Proof. intros E. rewrite <- (app_nil_r out) in E at 1. apply app_inv_head in E. auto. Qed.
Lemma dec_call d x o i f room : d_inv d x o -> x = i ++ f -> 1 <= room ->
  exists pre suf o2 d' r, decode dict wl D skip fuel d i room = Some (zlen pre, o2, d', r) /\ i = pre ++ suf /\ zlen o2 <= room /\ d_inv d' (suf ++ f) (o ++ o2) /\
    match r with DSuccess => suf = [] /\ f = [] /\ d_done d' (o ++ o2) | DNeedIn => suf = [] /\ f <> [] | DNeedOut => zlen o2 = room /\ (suf <> [] -> f = []) | DFail => False end.
Proof.
  intros (I & BX) -> R. apply Forall_app in BX. destruct BX as (BI & BF).
  destruct (decode_good dict wl D skip ws WS W Tr out N TRE START fuel d (i ++ f) o i f [] room I BI ltac:(rewrite app_nil_r; reflexivity) ltac:(lia) LE) as (pre & suf & o2 & d' & r & rest' & E & EI & ER & LO & I' & K).
  assert (RR : rest' = suf ++ f) by (rewrite EI, <- app_assoc in ER; apply app_inv_head in ER; auto). subst rest'.
  exists pre, suf, o2, d', r. split; [exact E|]. split; [exact EI|]. split; [exact LO|].
  assert (BS : bytes (suf ++ f)) by (apply Forall_app; split; [rewrite EI in BI; apply Forall_app in BI; apply BI|exact BF]). split; [split; assumption|].
  destruct r.
  - destruct K as (K1 & K2). rewrite K2 in I'. apply app_eq_nil in K2. destruct K2 as (K2 & K3). split; [exact K2|]. split; [exact K3|]. split; assumption.
  - destruct K as (K1 & ->). cbn [app] in K1. auto.
  - destruct K as (K1 & K2). split; [exact K1|]. intros NS. destruct f as [|z f]; [reflexivity|]. exfalso. apply NS, K2. destruct suf; discriminate.
  - exact K.
Qed.
Lemma dec_contract : contract (decompressing dict wl D skip fuel) d_inv d_inv d_done (fun _ => True) (fun o => o = out) d_part (zlen out) true true.
Proof.
  constructor.
  - intros p x o i f room I EX R. destruct (dec_call p x o i f room I EX R) as (pre & suf & o2 & d' & r & E & EI & LO & I' & K). exists pre, suf, o2, d', (dec_pres r). cbn [process decompressing]. rewrite E. cbn [bind].
    split; [reflexivity|]. split; [exact EI|]. split; [exact LO|]. split; [exact I'|]. split; [destruct r; cbn [dec_pres]; tauto|].
    intros _ -> -> ->. rewrite app_nil_r in *. destruct r; cbn [dec_pres] in K; [tauto|destruct K as (_ & K); contradiction|destruct K as (K & _); change (zlen (@nil Z)) with 0 in K; lia|contradiction].
  - auto.
  - intros p x o room I R. destruct (dec_call p x o [] x room I eq_refl R) as (pre & suf & o2 & d' & r & E & EI & LO & I' & K). symmetry in EI. apply app_eq_nil in EI. destruct EI as (-> & ->). cbn [app] in I'.
    cbn [close decompressing]. rewrite E. cbn [bind]. eexists o2, d', _. split; [reflexivity|]. split; [exact LO|]. split; [exact I'|]. destruct r; cbn [dec_pres]; tauto.
  - intros p o room (I & ->) R. destruct (dec_call p [] out [] [] room (conj I (Forall_nil _)) eq_refl R) as (pre & suf & o2 & d' & r & E & EI & LO & I' & K). symmetry in EI. apply app_eq_nil in EI. destruct EI as (-> & ->).
    destruct (dinv_prefix _ _ _ _ _ _ _ _ _ _ _ _ (proj1 I')) as (y & Y). rewrite <- app_assoc in Y. apply full_nil, app_eq_nil in Y. destruct Y as (-> & _). rewrite app_nil_r in *.
    cbn [close decompressing]. rewrite E. cbn [bind]. change (zlen (@nil Z)) with 0 in K. destruct r; cbn [dec_pres]; [|destruct K as (_ & K); contradiction|destruct K; lia|contradiction]. exists d'. split; [reflexivity|]. apply K.
  - intros p x o H. assert (I : DI p x o) by (destruct H as [(H & _)|(H & _)]; exact H). destruct (dinv_prefix _ _ _ _ _ _ _ _ _ _ _ _ I) as (y & Y). split; [exists y; exact Y|]. rewrite Y, zlen_app. pose proof (zlen_nonneg y). lia.
  - intros p o (_ & ->). split; [reflexivity|]. split; [exists []; rewrite app_nil_r; reflexivity|lia].
Qed.
Lemma dec_self : forall p x o i f room n o2 p', d_inv p x o -> x = i ++ f -> 1 <= room -> process (decompressing dict wl D skip fuel) p i room = Some (n, o2, p', PNeedIn) -> f <> [].
Proof.
  intros p x o i f room n o2 p' I EX R E. destruct (dec_call p x o i f room I EX R) as (pre & suf & o3 & d' & r & E2 & EI & LO & I' & K). cbn [process decompressing] in E. rewrite E2 in E. cbn [bind] in E.
  destruct r; cbn [dec_pres] in E; try discriminate E. apply K.
Qed.
End Dec.

Section Enc.
Context (dict : dict_fn) (wl : word_len_fn) (D : dims) (g : cfg).
Context (ES : list ev) (A B H : list Z) (WR : writable ES)
  (EA : ans_encode (sfs_of CMD ES) = Some A) (EB : ans_encode (sfs_of LIT ES) = Some B) (BH : bytes H) (HL : length H = 16%nat).
Context (ws : Z) (WS : 2 <= 2 ^ ws) (FT : fits D) (X : list Z) (LX : zlen X < 2 * 2 ^ ws - 1).
Context (fuel F : nat) (LE : (fuel <= F)%nat).
Local Notation RINV := (rinv dict wl D g ES A B H ws X fuel).
Local Notation FINV := (finv dict wl D g ES A B H ws X fuel).
Local Notation BD := (bound A B + 16).
Definition e_done (s : rawc) (o : list Z) : Prop := closed s /\ complete A B H o /\ zlen o <= BD.
Definition e_inv (s : rawc) (x o : list Z) : Prop := exists y, y ++ x = X /\ RINV s y o.
Definition e_cinv (s : rawc) (x o : list Z) : Prop := x = [] /\ (FINV s o \/ e_done s o).
Definition e_owes (s : rawc) : Prop := cm_hdr (rw_cm s) <> 16%nat.

Lemma internal_done n f s room dn : ec_phase s = PDone -> internal_flush dict wl D g (S n) f s room dn = Some (dn, s, RSuccess).
Proof. intros E. cbn [internal_flush]. rewrite E. reflexivity. Qed.
Lemma codec_flush_done s room : ec_phase s = PDone -> exists s', codec_flush dict wl D g F s room = Some ([], s', RSuccess) /\ ec_phase s' = PDone.
Proof. intros E. unfold codec_flush. rewrite (internal_done 9 F s room [] E). cbn [bind]. eexists. split; [reflexivity|exact E]. Qed.
Lemma flush_again s room : closed s -> exists s', flush_raw dict wl D g F s room = Some ([], s', RSuccess) /\ closed s'.
Proof.
  intros (ID & FZ & HD & PH). unfold run_ph in PH. destruct (codec_flush_done (cm_codec (rw_cm s)) (room - 0 - 0) PH) as (c & E & PC). unfold flush_raw.
  assert (RS : raw_start dict wl D g F s room = Some ([], s, RSuccess)).
  { unfold raw_start, start_call. rewrite HD. change (Nat.eqb 16 HEADER_LENGTH) with true. cbn [negb]. destruct s as [cm a f]. cbn [rw_frz rw_asm rw_cm] in *. subst f. reflexivity. }
  rewrite RS. cbn [bind]. rewrite (flush_loop_nil dict wl D g F 2 s _ (rw_asm s) (idle_flush D (rw_asm s) ID)). cbn [bind rw_cm]. change (zlen (@nil Z)) with 0. rewrite E. cbn [bind app]. eexists. split; [reflexivity|].
  unfold closed. cbn [rw_asm rw_frz rw_cm cm_hdr]. split; [exact ID|]. split; [exact FZ|]. split; [exact HD|exact PC].
Qed.
(** the header comes first *)
Lemma start_owing s room h s' ok : start_call s room = (h, s', ok) -> (cm_hdr s <= 16)%nat -> cm_hdr s <> 16%nat -> 1 <= room -> h <> [].
Proof.
  unfold start_call. intros E L NE R. destruct (Nat.eqb_spec (cm_hdr s) HEADER_LENGTH) as [Q|_]; [contradiction|]. unfold write_header in E.
  assert (LH : length (skipn (cm_hdr s) (make_header (cm_ws s))) = (16 - cm_hdr s)%nat) by (rewrite skipn_length, make_header_length; reflexivity).
  destruct (Nat.ltb _ _); injection E as <- _ _.
  - intros Q. apply (f_equal (@length Z)) in Q. rewrite firstn_length, LH in Q. cbn [length] in Q. lia.
  - intros Q. rewrite Q in LH. cbn [length] in LH. lia.
Qed.
Lemma start_wants s room h s' : start_call s room = (h, s', false) -> cm_hdr s' <> 16%nat.
Proof.
  unfold start_call. destruct (Nat.eqb_spec (cm_hdr s) HEADER_LENGTH) as [Q|_]; [discriminate|]. unfold write_header. unfold HEADER_LENGTH.
  destruct (Nat.ltb_spec (Z.to_nat room + cm_hdr s) 16); intros E; [|discriminate E]. injection E as _ <-. cbn [cm_hdr]. lia.
Qed.
Lemma hdr_le s y o : RINV s y o -> (cm_hdr (rw_cm s) <= 16)%nat.
Proof. intros (_ & _ & (O & _ & HB & _) & _). exact HB. Qed.
Lemma encode_owing s y o i room n o2 s' r : RINV s y o -> e_owes s -> 1 <= room -> encode_raw dict wl D g F s i room = Some (n, o2, s', r) -> o2 <> [].
Proof.
  intros RI OW R E. unfold encode_raw, raw_start in E. destruct (start_call (rw_cm s) room) as ((h, cm), ok) eqn:SC. pose proof (start_owing _ _ _ _ _ SC (hdr_le _ _ _ RI) OW R) as NH. destruct ok; cbn [negb] in E.
  - destruct (flush_frozen _ _ _ _ _ _ _) as [((o3, s3), r3)|]; [|discriminate E]. cbn [bind] in E. destruct r3.
    + destruct (encode_loop _ _ _ _ _ _ _ _ _) as [(((x4, o4), s4), r4)|]; [|discriminate E]. cbn [bind] in E. injection E as _ <- _ _. intros Q. apply app_eq_nil in Q. destruct Q as (Q & _). apply app_eq_nil in Q. apply NH, Q.
    + injection E as _ <- _ _. intros Q. apply app_eq_nil in Q. apply NH, Q.
    + injection E as _ <- _ _. intros Q. apply app_eq_nil in Q. apply NH, Q.
    + injection E as _ <- _ _. intros Q. apply app_eq_nil in Q. apply NH, Q.
  - cbn [bind] in E. injection E as _ <- _ _. exact NH.
Qed.
Lemma encode_wants s y o i f room n o2 s' : zlen X < 2 ^ ws -> RINV s y o -> y ++ i ++ f = X -> encode_raw dict wl D g F s i room = Some (n, o2, s', RNeedsMoreOutput) -> e_owes s'.
Proof.
  intros SM RI EX E. pose proof (f_equal zlen EX) as ZX. rewrite !zlen_app in ZX. pose proof (zlen_nonneg i). pose proof (zlen_nonneg f). pose proof (zlen_nonneg y). pose proof RI as (RL & AS & I & P & TH & FR). destruct (FR ltac:(lia)) as (FZ & _).
  unfold encode_raw, raw_start in E. destruct (start_call (rw_cm s) room) as ((h, cm), ok) eqn:SC. destruct ok; cbn [negb] in E; cycle 1.
  { cbn [bind] in E. injection E as _ _ <-. unfold e_owes. cbn [rw_cm]. exact (start_wants _ _ _ _ SC). }
  unfold flush_frozen in E. cbn [rw_frz] in E. rewrite FZ in E. cbn [bind] in E. replace (length i + 3)%nat with (S (length i + 2)) in E by lia. cbn [encode_loop] in E. cbn [rw_asm] in E.
  destruct (asm_stream D ws WS (rw_asm s) y i RL AS ltac:(lia)) as (a' & _ & [(_ & Q & _)|(Q & _)]); [|lia]. rewrite Q in E. cbn [bind] in E. discriminate E.
Qed.
Lemma enc_contract (small : bool) : (small = true -> zlen X < 2 ^ ws) ->
  contract (compressing dict wl D g F) e_inv e_cinv e_done (if small then e_owes else fun _ => False) (complete A B H) (fun _ => True) BD false small.
Proof.
  intros SM. constructor.
  - intros s x o i f room (y & EY & RI) -> R. destruct (encode_raw_spec dict wl D g ES A B H WR EA EB BH HL ws WS FT X LX fuel F LE s y o i f room RI EY ltac:(lia)) as (n & o2 & s' & r & i' & pre & E & EI & -> & LO & RI' & K).
    exists pre, i', o2, s', (enc_pres r). cbn [process compressing]. rewrite E. cbn [bind]. split; [reflexivity|]. split; [exact EI|]. split; [exact LO|]. split; [exists (y ++ pre); split; [rewrite EI in EY; rewrite <- EY, <- !app_assoc; reflexivity|exact RI']|]. split.
    + destruct K as [(-> & K)|(-> & K)]; cbn [enc_pres]; [exact K|]. split; [exact K|]. split; [|discriminate]. intros ->. exact (encode_wants s y o i f room _ o2 s' (SM eq_refl) RI EY E).
    + intros OW _ _ ->. destruct small; [|contradiction]. exfalso. exact (encode_owing s y o i room _ _ _ _ RI OW R E eq_refl).
  - intros s x o (y & EY & RI) [->|Q]; [|discriminate]. rewrite app_nil_r in EY. subst y. split; [reflexivity|]. left. left. exact RI.
  - intros s x o room (-> & K) R. destruct K as [FI|DN].
    + destruct (flush_raw_spec dict wl D g ES A B H WR EA EB BH HL ws WS FT X fuel F LE s o room FI ltac:(lia)) as (o2 & s' & r & E & LO & K). cbn [close compressing]. rewrite E. cbn [bind]. exists o2, s', (enc_pres r). split; [reflexivity|]. split; [exact LO|].
      destruct K as [(-> & I & CL)|(-> & ZL & FI')]; cbn [enc_pres].
      * assert (DN : e_done s' (o ++ o2)). { split; [exact CL|]. split; [exact (done_complete dict wl D g ES A B H HL ws fuel F LE _ _ I (proj2 (proj2 (proj2 CL))))|]. exact (sinv_bounds dict wl D g ES A B H WR EA EB HL fuel _ _ _ I). }
        split; [split; [reflexivity|right; exact DN]|]. auto.
      * split; [split; [reflexivity|left; exact FI']|]. exact ZL.
    + destruct DN as (CL & CM & ZB). destruct (flush_again s room CL) as (s' & E & CL'). cbn [close compressing]. rewrite E. cbn [bind]. exists [], s', PSuccess. rewrite app_nil_r. assert (DN' : e_done s' o) by (split; auto).
      split; [reflexivity|]. change (zlen (@nil Z)) with 0. split; [lia|]. split; [split; [reflexivity|right; exact DN']|]. auto.
  - intros s o room (CL & CM & ZB) R. destruct (flush_again s room CL) as (s' & E & CL'). cbn [close compressing]. rewrite E. cbn [bind]. exists s'. split; [reflexivity|]. split; auto.
  - intros s x o [(y & EY & RI)|(_ & [FI|(_ & _ & ZB)])]; (split; [exact Logic.I|]).
    + destruct RI as (_ & _ & I & _). exact (sinv_bounds dict wl D g ES A B H WR EA EB HL fuel _ _ _ I).
    + exact (finv_bounds dict wl D g ES A B H WR EA EB HL ws X fuel s o FI).
    + exact ZB.
  - intros s o (_ & CM & ZB). auto.
Qed.
End Enc.
