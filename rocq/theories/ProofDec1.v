(** Decompressor: the demultiplexer on a well-formed file, and the entropy decoder fed
    piecewise. *)
From Verif Require Import Prelude ProofList ModelAns SpecAns ProofAns ProofAnsRt ProofAnsDec ModelMux SpecMux ProofZlist ProofMux ProofMuxW ProofMuxR ProofEnc3 ModelDec.

(** ** Demultiplexer *)
Fixpoint sread (d : dst) (R : list Z) : option (list Z * list Z) :=
  match R with
  | [] => match d with (BNone, EofDone) => Some ([], []) | _ => None end
  | b :: R =>
      match sstep d b with
      | None => None
      | Some (d', o) => let? '(p, q) := sread d' R in Some (pushed o 0 b ++ p, pushed o 1 b ++ q)
      end
  end.
Lemma sread_hdr s n hdr : strm s -> frame_ok s n hdr -> forall R, sread (BNone, Running) (hdr ++ R) = sread (BSome s n, Running) R.
Proof.
  intros SS [(lo & hi & L & H & -> & ->)|[(-> & ->)|[(-> & ->)|(-> & ->)]]] R.
  - unfold byte in *. cbn [app sread sstep dstep].
    assert (E1 : (s =? 255) = false) by (destruct SS as [->| ->]; reflexivity). rewrite E1.
    assert (E2 : hdr_step Running s = (BHeader0 s, Running)) by (destruct SS as [->| ->]; reflexivity). rewrite E2.
    cbn [sstep dstep pushed]. rewrite lor_shift_add by lia. rewrite nrm_pos by lia.
    replace (lo + hi * 2 ^ 8 + 1) with (lo + 256 * hi + 1) by lia.
    destruct (sread _ R) as [(p, q)|]; reflexivity.
  - destruct SS as [->| ->]; [change (0 + 16) with 16|change (1 + 16) with 17]; cbn [app sread]; [change (sstep (BNone, Running) 16) with (Some ((BSome 0 4096, Running), @None Z))|change (sstep (BNone, Running) 17) with (Some ((BSome 1 4096, Running), @None Z))]; cbv iota beta; cbn [pushed]; destruct (sread _ R) as [(p, q)|]; reflexivity.
  - destruct SS as [->| ->]; [change (0 + 32) with 32|change (1 + 32) with 33]; cbn [app sread]; [change (sstep (BNone, Running) 32) with (Some ((BSome 0 16384, Running), @None Z))|change (sstep (BNone, Running) 33) with (Some ((BSome 1 16384, Running), @None Z))]; cbv iota beta; cbn [pushed]; destruct (sread _ R) as [(p, q)|]; reflexivity.
  - destruct SS as [->| ->]; [change (0 + 48) with 48|change (1 + 48) with 49]; cbn [app sread]; [change (sstep (BNone, Running) 48) with (Some ((BSome 0 65536, Running), @None Z))|change (sstep (BNone, Running) 49) with (Some ((BSome 1 65536, Running), @None Z))]; cbv iota beta; cbn [pushed]; destruct (sread _ R) as [(p, q)|]; reflexivity.
Qed.
Lemma sread_payload s R : forall data c, zlen data <= c -> 1 <= zlen data -> forall p q,
  sread (nrm (BSome s (c - zlen data)), Running) R = Some (p, q) ->
  sread (BSome s c, Running) (data ++ R) = Some (sel s 0 data ++ p, sel s 1 data ++ q).
Proof.
  induction data as [|b data IH]; intros c C L p q E; [change (zlen (@nil Z)) with 0 in L; lia|].
  rewrite zlen_cons in *. cbn [app sread sstep dstep]. pose proof (zlen_nonneg data).
  assert (G : sread (nrm (BSome s (c - 1)), Running) (data ++ R) = Some (sel s 0 data ++ p, sel s 1 data ++ q)).
  { destruct data as [|b2 data].
    - change (zlen (@nil Z)) with 0 in *. cbn [app]. replace (c - 1) with (c - (1 + 0)) by lia. rewrite E. unfold sel. destruct (s =? 0), (s =? 1); reflexivity.
    - pose proof (zlen_nonneg data). rewrite zlen_cons in *. rewrite nrm_pos by lia. apply IH; [rewrite ?zlen_cons; lia|rewrite ?zlen_cons; lia|].
      rewrite ?zlen_cons. replace (c - 1 - (1 + zlen data)) with (c - (1 + (1 + zlen data))) by lia. exact E. }
  rewrite G. cbn [bind]. unfold pushed, sel. destruct (s =? 0), (s =? 1); reflexivity.
Qed.
Lemma sread_framed a b W : framed a b W -> sread (BNone, Running) W = Some (a, b).
Proof.
  intros (fs & G & -> & <- & <-). induction G as [|f fs (SS & F) G IH]; [reflexivity|]. cbn [enc payl]. rewrite <- !app_assoc.
  rewrite (sread_hdr _ _ _ SS F). pose proof (frame_ok_len _ _ _ F) as (_ & N).
  apply (sread_payload (f_s f) (enc fs ++ EOF_MARKER) (f_data f) (zlen (f_data f))); [lia|lia|]. rewrite Z.sub_diag. exact IH.
Qed.

Lemma sread_drun : forall pre d R d' p0 q0 p q x tail, drun d pre = (d', p0, q0, []) -> sread d R = Some (p, q) -> pre ++ x = R ++ tail ->
  exists R' p' q', R = pre ++ R' /\ sread d' R' = Some (p', q') /\ p = p0 ++ p' /\ q = q0 ++ q'.
Proof.
  induction pre as [|b pre IH]; intros d R d' p0 q0 p q x tail DR SR E; cbn [drun] in DR.
  - injection DR as <- <- <-. exists R, p, q. auto.
  - destruct R as [|b2 R].
    { cbn [sread] in SR. destruct d as [[] []]; try discriminate SR. cbn [dstep] in DR. discriminate DR. }
    cbn [app] in E. injection E as <- E. cbn [sread] in SR. destruct (sstep d b) as [(d1, o)|] eqn:SS; [|discriminate SR].
    rewrite (sstep_some _ _ _ SS) in DR. destruct (sread d1 R) as [(p1, q1)|] eqn:S1; [|discriminate SR]. cbn [bind] in SR. injection SR as <- <-.
    destruct (drun d1 pre) as [[[d2 a0] a1] rr] eqn:D1. injection DR as -> <- <- ->.
    destruct (IH d1 R d' a0 a1 p1 q1 x tail D1 S1 E) as (R' & p' & q' & -> & S' & -> & ->).
    exists R', p', q'. rewrite <- !app_assoc. auto.
Qed.
Lemma deser_file m input R tail future p q : rinv m -> bytes input -> sread (st m) R = Some (p, q) -> input ++ future = R ++ tail ->
  exists pre R' suf p0 q0 p' q' m', deserialize m input = Some (zlen pre, m') /\ input = pre ++ suf /\ R = pre ++ R' /\ rinv m' /\
    sread (st m') R' = Some (p', q') /\ p = p0 ++ p' /\ q = q0 ++ q' /\
    mb_data (buf0 m') = mb_data (buf0 m) ++ p0 /\ mb_data (buf1 m') = mb_data (buf1 m) ++ q0 /\ (R' = [] \/ suf = []) /\ (is_done (eof m') = true <-> R' = []).
Proof.
  intros I B SR E. destruct (deserialize_ref m input I B) as (n & m' & DE & pre & suf & p0 & q0 & -> & -> & D & I' & M0 & M1 & _ & ST).
  rewrite <- app_assoc in E. destruct (sread_drun _ _ _ _ _ _ _ _ _ _ D SR E) as (R' & p' & q' & -> & S' & -> & ->).
  exists pre, R', suf, p0, q0, p', q', m'. repeat (split; [first [assumption|reflexivity]|]). split.
  - destruct R' as [|b R']; [left; reflexivity|right]. destruct suf as [|c suf]; [reflexivity|exfalso].
    rewrite <- app_assoc in E. apply app_inv_head in E. cbn [app] in E. injection E as -> E. cbn [sread] in S'. rewrite ST in S'. discriminate S'.
  - unfold st in S'. split.
    + intros X. destruct (eof m'); try discriminate X. destruct R' as [|b R']; [reflexivity|]. cbn [sread sstep dstep] in S'. destruct (nrm (to_deser m')); discriminate S'.
    + intros ->. cbn [sread] in S'. destruct (nrm (to_deser m')), (eof m'); try discriminate S'. reflexivity.
Qed.
Lemma sread_done m p q : sread (st m) [] = Some (p, q) -> p = [] /\ q = [].
Proof. unfold st. cbn [sread]. destruct (nrm (to_deser m)), (eof m); try discriminate. intros [= <- <-]. auto. Qed.

(** ** Entropy decoder *)
Notation feed := ProofAns.feed.
(** [d] has absorbed [pre], part of the bytes it asked for *)
Definition arel (d : decoder) (sfs : list (Z * Z)) (data : list Z) : Prop :=
  exists d0 pre, srel d0 sfs (pre ++ data) /\ (length pre <= need d0)%nat /\ (a_req d0 = 8 -> sym_count d0 = 0) /\
    (d = d0 /\ pre = [] \/ d = feed (norm d0) pre).

Lemma srel_valid d sfs data : srel d sfs data -> dvalid d.
Proof.
  intros [chunks V H1 H2 H3 H4 H5 H6|r others inp H1 H2 H3 H4 H5 H6 H7 H8]; [exact V|].
  apply (mid_valid d r inp); [|exact H7]. subst sfs. apply Forall_app in H5. apply H5.
Qed.
Lemma srel_req d sfs data : srel d sfs data -> (a_req d = 8 /\ b_req d = 0) \/ a_req d = 0 \/ a_req d = 1.
Proof.
  intros [chunks V H1 H2 H3 H4 H5 H6|r others inp H1 H2 H3 H4 H5 H6 H7 H8]; [left; auto|right].
  unfold mid in H7. destruct (epure r) as [[a b] q]. destruct H7 as (wa & wb & [(X & _)|(X & _)] & _); auto.
Qed.
Lemma srel_need d sf sfs data : srel d (sf :: sfs) data -> (need d <= length data)%nat.
Proof.
  intros [chunks V H1 H2 H3 H4 H5 H6|r others inp H1 H2 H3 H4 H5 H6 H7 H8].
  - rewrite (need_8 d H1). destruct chunks as [|l ls]; [discriminate H5|]. subst data. cbn [map concat]. rewrite app_length.
    unfold chunk_bytes. destruct (epure l) as [[a b] q]. rewrite !app_length, !le_length. lia.
  - unfold mid in H7. destruct (epure r) as [[a b] q]. destruct H7 as (wa & wb & [(X & _)|(X & _ & W & _)] & _ & E).
    + rewrite (need_0 d X). lia.
    + rewrite (need_1 d X). subst data inp wb. rewrite !app_length, le_length. lia.
Qed.
Lemma feed_b l : forall d, b_req (feed d l) = b_req d.
Proof.
  induction l as [|x l IH]; intros d; [reflexivity|]. change (feed d (x :: l)) with (feed (feed1 d x) l). rewrite IH. unfold feed1.
  repeat match goal with |- context [if ?c then _ else _] => destruct c end; reflexivity.
Qed.
Lemma feed_count l : forall d, sym_count (feed d l) = sym_count d.
Proof.
  induction l as [|x l IH]; intros d; [reflexivity|]. change (feed d (x :: l)) with (feed (feed1 d x) l). rewrite IH. unfold feed1.
  repeat match goal with |- context [if ?c then _ else _] => destruct c end; reflexivity.
Qed.
Lemma norm_b d : b_req (norm d) = b_req d.
Proof. unfold norm. destruct (_ && _); reflexivity. Qed.

Lemma arel_valid d sfs data : arel d sfs data -> dvalid d.
Proof.
  intros (d0 & pre & S & L & C & [(-> & _)| ->]); [apply (srel_valid _ _ _ S)|]. pose proof (srel_valid _ _ _ S) as V.
  apply feed_valid; [apply dvalid_norm; exact V|apply norm_norm|rewrite need_norm by exact V; exact L].
Qed.
(** bytes still asked for *)
Lemma arel_need d sf sfs data : arel d (sf :: sfs) data -> (need d <= length data)%nat.
Proof.
  intros (d0 & pre & S & L & C & [(-> & ->)| ->]); pose proof (srel_need _ _ _ _ S) as N; [exact N|].
  pose proof (srel_valid _ _ _ S) as V. pose proof (feed_valid (norm d0) pre (dvalid_norm _ V) (norm_norm _) ltac:(rewrite need_norm by exact V; exact L)) as (_ & _ & E).
  rewrite E, need_norm by exact V. rewrite app_length in N. lia.
Qed.
Lemma need_16 d : dvalid d -> (need d <= 16)%nat.
Proof. intros (H & _). unfold need, num_push_bytes_avail. repeat match goal with |- context [if ?c then _ else _] => destruct c eqn:? end; lia. Qed.
Lemma norm_count d : (a_req d = 8 -> sym_count d = 0) -> (a_req d = 8 \/ a_req d = 0 \/ a_req d = 1) -> sym_count (norm d) = sym_count d.
Proof. intros C [H|[H|H]]; unfold norm; rewrite H; cbn; auto. rewrite (C H). reflexivity. Qed.
Lemma arel_big d sfs data : arel d sfs data -> (4 < need d)%nat -> b_req d = 0.
Proof.
  intros (d0 & pre & S & L & C & X) N. pose proof (srel_valid _ _ _ S) as V.
  assert (B : b_req d = b_req d0) by (destruct X as [(-> & _)| ->]; [reflexivity|rewrite feed_b; apply norm_b]). rewrite B.
  destruct (srel_req _ _ _ S) as [(_ & E)|E]; [exact E|exfalso].
  assert (ND : (need d0 <= 4)%nat) by (destruct E as [E|E]; [rewrite (need_0 _ E)|rewrite (need_1 _ E)]; lia).
  destruct X as [(-> & _)| ->]; [lia|]. pose proof (feed_valid (norm d0) pre (dvalid_norm _ V) (norm_norm _) ltac:(rewrite need_norm by exact V; exact L)) as (_ & _ & E2).
  rewrite E2, need_norm in N by exact V. lia.
Qed.
Lemma arel_fill d sfs avail future : arel d sfs (avail ++ future) ->
  exists d', ModelAns.push_data d avail = Some (d', Nat.min (length avail) (need d)) /\ arel d' sfs (skipn (need d) avail ++ future) /\
    sym_count d' = sym_count d /\ b_req d' = b_req d /\ need d' = (need d - length avail)%nat.
Proof.
  intros A. pose proof (arel_valid _ _ _ A) as V. rewrite (push_feed d avail V). eexists. split; [reflexivity|].
  destruct A as (d0 & pre & S & L & C & X). pose proof (srel_valid _ _ _ S) as V0.
  pose proof (feed_valid (norm d0) pre (dvalid_norm _ V0) (norm_norm _) ltac:(rewrite need_norm by exact V0; exact L)) as (V1 & N1 & E1). rewrite (need_norm d0 V0) in E1.
  assert (RQ : a_req d0 = 8 \/ a_req d0 = 0 \/ a_req d0 = 1) by (destruct (srel_req _ _ _ S) as [(? & _)|]; tauto).
  assert (ND : need d = (need d0 - length pre)%nat) by (destruct X as [(-> & ->)| ->]; [cbn [length]; lia|exact E1]).
  assert (NM : norm d = feed (norm d0) pre) by (destruct X as [(-> & ->)| ->]; [reflexivity|exact N1]).
  assert (F : feed (norm d) (firstn (need d) avail) = feed (norm d0) (pre ++ firstn (need d) avail)) by (rewrite NM, feed_app; reflexivity).
  assert (VD : dvalid (norm d)) by (rewrite NM; exact V1).
  split; [|split; [|split]].
  - exists d0, (pre ++ firstn (need d) avail). split; [rewrite <- app_assoc, (app_assoc (firstn _ _)), firstn_skipn; exact S|]. split; [rewrite app_length, firstn_length; lia|]. split; [exact C|]. right. exact F.
  - rewrite F, feed_count. rewrite (norm_count d0 C RQ). destruct X as [(-> & _)| ->]; [reflexivity|]. rewrite feed_count, (norm_count d0 C RQ). reflexivity.
  - rewrite F, feed_b, norm_b. destruct X as [(-> & _)| ->]; [reflexivity|]. rewrite feed_b, norm_b. reflexivity.
  - destruct (feed_valid (norm d) (firstn (need d) avail) VD (norm_norm _)) as (_ & _ & E2); [rewrite need_norm by exact V; rewrite firstn_length; lia|].
    rewrite E2, need_norm by exact V. rewrite firstn_length. lia.
Qed.
Lemma arel_avail d sfs data : arel d sfs data -> (num_push_bytes_avail d =? 0) = Nat.eqb (need d) 0.
Proof. intros A. apply avail_zero, (arel_valid _ _ _ A). Qed.
Lemma arel_sym {A} d (qy : query A) sym sf sfs data : arel d (sf :: sfs) data -> need d = 0%nat -> codes qy sym sf ->
  exists d2, get_sym d qy = Some (sym, d2) /\ arel d2 sfs data /\ sym_count d2 = u16 (sym_count d + 1) /\
    a_req d2 = Z.lor (b_req d) (if sym_count d =? 65535 then 8 else 0).
Proof.
  intros AR N HC. pose proof (arel_valid _ _ _ AR) as V. pose proof AR as (d0 & pre & S & L & C & X). pose proof (srel_valid _ _ _ S) as V0.
  assert (A0 : a_req d = 0) by (apply need_zero; assumption).
  destruct (srel_step d0 qy sym sf sfs (pre ++ data) [] [pre ++ data] S HC eq_refl) as (d1 & rest & data' & d2 & FI & GS & S2 & RE).
  rewrite app_nil_r in RE. cbn [fill] in FI.
  assert (D1 : d1 = d /\ data' = data).
  { destruct (Z.eqb_spec (a_req d0) 0) as [Z0|Z0].
    - injection FI as <- <-. cbn [concat] in RE. rewrite app_nil_r in RE. subst data'.
      assert (pre = []) by (rewrite (need_0 d0 Z0) in L; destruct pre; [reflexivity|cbn [length] in L; lia]). subst pre. cbn [app].
      split; [|reflexivity]. destruct X as [(-> & _)| ->]; [reflexivity|]. cbn [feed fold_left]. rewrite (norm_zero d0 Z0). reflexivity.
    - assert (ND0 : need d0 <> 0%nat) by (rewrite need_zero; assumption).
      assert (LP : length pre = need d0).
      { destruct X as [(-> & ->)|EX]; [lia|]. pose proof (feed_valid (norm d0) pre (dvalid_norm _ V0) (norm_norm _) ltac:(rewrite need_norm by exact V0; exact L)) as (_ & _ & E1).
        rewrite <- EX, N, (need_norm d0 V0) in E1. lia. }
      rewrite (push_feed d0 _ V0) in FI. rewrite (firstn_app_exact (need d0) pre data LP) in FI.
      assert (EX : d = feed (norm d0) pre) by (destruct X as [(-> & ->)|EX]; [cbn [length] in LP; lia|exact EX]).
      rewrite <- EX in FI. rewrite (avail_zero d V), N in FI. cbn [Nat.eqb] in FI. injection FI as <- <-.
      split; [reflexivity|]. cbn [concat] in RE. rewrite app_nil_r in RE. rewrite app_length, Nat.min_r in RE by lia. rewrite (skipn_app_exact (need d0) pre data LP) in RE. congruence. }
  destruct D1 as (-> & ->). clear FI. exists d2. split; [exact GS|].
  unfold get_sym, get_cdf_value in GS. rewrite A0 in GS. unfold assert in GS. change (0 =? 0) with true in GS. cbv iota in GS. cbn [bind] in GS.
  destruct (qy (Z.land (state_a d) SCALE_MASK)) as [[y start] freq]. unfold advance_sym, assert in GS.
  destruct (_ <? 2 ^ 64); [|discriminate GS]. destruct (_ <? 2 ^ 64); [|discriminate GS]. destruct (0 <=? _); [|discriminate GS].
  cbn [bind] in GS. injection GS as _ GS.
  assert (SC : sym_count d2 = u16 (sym_count d + 1)) by (rewrite <- GS; reflexivity).
  assert (AQ : a_req d2 = Z.lor (b_req d) (if sym_count d =? 65535 then 8 else 0)) by (rewrite <- GS; reflexivity).
  split; [|split; [exact SC|exact AQ]].
  exists d2, []. cbn [app length]. split; [exact S2|]. split; [lia|]. split; [|left; auto].
  intros E8. rewrite AQ in E8. destruct (Z.eqb_spec (sym_count d) 65535) as [E|E]; [rewrite SC, E; reflexivity|].
  exfalso. destruct V as (_ & _ & _ & [B|B]); rewrite B in E8; discriminate E8.
Qed.
Lemma arel_init sfs : Forall lsf sfs -> exists out, ans_encode sfs = Some out /\ arel dec_new sfs out.
Proof.
  intros F. destruct (srel_init sfs F) as (out & E & S). exists out. split; [exact E|]. exists dec_new, []. cbn [app length]. split; [exact S|]. split; [lia|]. auto.
Qed.
Lemma arel_nil d data : arel d [] data -> data = [].
Proof. intros (d0 & pre & S & _). apply srel_nil in S. destruct pre; [exact S|discriminate S]. Qed.
