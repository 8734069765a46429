(** Multiplexer: reader side, as a byte-at-a-time automaton. *)
From Verif Require Import Prelude ProofList ModelMux SpecMux ProofZlist ProofMux ProofMuxW.

Definition nrm (t : btd) : btd := match t with BSome _ 0 => BNone | _ => t end.
Definition dst : Type := btd * eofst.
Definition hdr_step (e : eofst) (b : Z) : dst :=
  if b <? 16 then (BHeader0 (Z.land b 1), e)
  else (nrm (BSome (Z.land b 1) (Z.shiftl 1024 (Z.shiftl (Z.shiftr b 4) 1) mod 2 ^ 32)), e).
(** next state and the stream the byte is delivered to, [None] if it is refused *)
Definition dstep (d : dst) (b : Z) : option (dst * option Z) :=
  match d with
  | (_, EofDone) => None
  | (BHeader0 s, e) => Some ((BHeader1 s b, e), None)
  | (BHeader1 s lsb, e) => Some ((nrm (BSome s (Z.lor lsb (Z.shiftl b 8) + 1)), e), None)
  | (BSome s c, e) => Some ((nrm (BSome s (c - 1)), e), Some s)
  | (BNone, Running) => if b =? 255 then Some ((BNone, EofStart), None) else Some (hdr_step Running b, None)
  | (BNone, EofStart) =>
      if b =? 254 then Some ((BNone, EofMid), None) else if b =? 255 then None else Some (hdr_step EofStart b, None)
  | (BNone, EofMid) =>
      if b =? 255 then Some ((BNone, EofDone), None) else if b =? 254 then None else Some (hdr_step EofMid b, None)
  end.
(** as [dstep], but an end marker once begun must continue *)
Definition sstep (d : dst) (b : Z) : option (dst * option Z) :=
  match d with
  | (BNone, EofStart) => if b =? 254 then Some ((BNone, EofMid), None) else None
  | (BNone, EofMid) => if b =? 255 then Some ((BNone, EofDone), None) else None
  | _ => dstep d b
  end.
Lemma sstep_none d b : dstep d b = None -> sstep d b = None.
Proof.
  destruct d as [[|s c|s|s l] []]; cbn [dstep sstep]; auto; intros E.
  - destruct (b =? 254); [discriminate E|reflexivity].
  - destruct (b =? 255); [discriminate E|reflexivity].
Qed.
Lemma sstep_some d b r : sstep d b = Some r -> dstep d b = Some r.
Proof.
  destruct d as [[|s c|s|s l] []]; cbn [dstep sstep]; auto.
  - destruct (b =? 254); [auto|discriminate].
  - destruct (b =? 255); [auto|discriminate].
Qed.
Definition pushed (o : option Z) (s b : Z) : list Z :=
  match o with Some t => if t =? s then [b] else [] | None => [] end.
Fixpoint drun (d : dst) (l : list Z) : dst * list Z * list Z * list Z :=
  match l with
  | [] => (d, [], [], [])
  | b :: r =>
      match dstep d b with
      | None => (d, [], [], l)
      | Some (d', o) =>
          let '(d'', p0, p1, rest) := drun d' r in (d'', pushed o 0 b ++ p0, pushed o 1 b ++ p1, rest)
      end
  end.

Lemma drun_app d l1 l2 d' p0 p1 : drun d l1 = (d', p0, p1, []) ->
  forall d'' q0 q1 r, drun d' l2 = (d'', q0, q1, r) -> drun d (l1 ++ l2) = (d'', p0 ++ q0, p1 ++ q1, r).
Proof.
  revert d p0 p1. induction l1 as [|b l IH]; intros d p0 p1 E d'' q0 q1 r E2; cbn [drun app] in *.
  - injection E as <- <- <-. exact E2.
  - destruct (dstep d b) as [[d1 o]|]; [|discriminate].
    destruct (drun d1 l) as [[[d2 a0] a1] rr] eqn:E1. injection E as -> <- <- ->.
    rewrite (IH _ _ _ E1 _ _ _ _ E2), <- !app_assoc. reflexivity.
Qed.
Lemma drun_split d l d' p0 p1 r : drun d l = (d', p0, p1, r) ->
  exists c, l = c ++ r /\ drun d c = (d', p0, p1, []) /\ (forall x, match r with b :: _ => dstep d' b = None | [] => x end -> match r with b :: _ => dstep d' b = None | [] => x end) /\ (match r with b :: _ => dstep d' b = None | [] => True end).
Proof.
  revert d p0 p1. induction l as [|b l IH]; intros d p0 p1 E; cbn [drun] in *.
  - injection E as <- <- <- <-. exists []. cbn. auto.
  - destruct (dstep d b) as [[d1 o]|] eqn:D.
    + destruct (drun d1 l) as [[[d2 a0] a1] rr] eqn:E1. injection E as -> <- <- ->.
      destruct (IH _ _ _ E1) as (c & -> & Ec & X & Y). exists (b :: c). split; [reflexivity|]. split; [|auto].
      cbn [drun]. rewrite D, Ec. reflexivity.
    + injection E as <- <- <- <-. exists []. split; [reflexivity|]. cbn [drun]. auto.
Qed.

(** ** Payload and frames *)
Lemma nrm_pos s c : c <> 0 -> nrm (BSome s c) = BSome s c.
Proof. destruct c; auto. contradiction. Qed.
Definition sel (s t : Z) (l : list Z) : list Z := if s =? t then l else [].
Lemma drun_payload e s : forall data c, e <> EofDone -> 1 <= zlen data -> zlen data <= c ->
  drun (BSome s c, e) data = ((nrm (BSome s (c - zlen data)), e), sel s 0 data, sel s 1 data, []).
Proof.
  induction data as [|b data IH]; intros c E L C; [rewrite zlen_nil in L; lia|].
  rewrite zlen_cons in *. cbn [drun]. assert (DS : dstep (BSome s c, e) b = Some ((nrm (BSome s (c - 1)), e), Some s)).
  { cbn [dstep]. destruct e; auto. contradiction. }
  rewrite DS. destruct data as [|b2 data].
  - change (zlen (@nil Z)) with 0. cbn [drun]. rewrite !app_nil_r. replace (c - (1 + 0)) with (c - 1) by lia. unfold sel, pushed.
    destruct (s =? 0), (s =? 1); reflexivity.
  - pose proof (zlen_nonneg data). rewrite nrm_pos by (rewrite zlen_cons in C; lia).
    rewrite IH; auto; [|rewrite zlen_cons; lia|lia].
    replace (c - 1 - zlen (b2 :: data)) with (c - (1 + zlen (b2 :: data))) by lia.
    unfold sel, pushed. destruct (s =? 0), (s =? 1); reflexivity.
Qed.

Lemma drun_hdr s n hdr : strm s -> frame_ok s n hdr -> drun (BNone, Running) hdr = ((BSome s n, Running), [], [], []).
Proof.
  intros S [(lo & hi & L & H & -> & ->)|[(-> & ->)|[(-> & ->)|(-> & ->)]]].
  - unfold byte in *. cbn [drun dstep].
    assert (E1 : (s =? 255) = false) by (destruct S as [->| ->]; reflexivity). rewrite E1.
    assert (E2 : hdr_step Running s = (BHeader0 s, Running)) by (destruct S as [->| ->]; reflexivity). rewrite E2.
    cbn [dstep]. rewrite lor_shift_add by lia. rewrite nrm_pos by lia.
    replace (lo + hi * 2 ^ 8 + 1) with (lo + 256 * hi + 1) by lia. reflexivity.
  - destruct S as [->| ->]; vm_compute; reflexivity.
  - destruct S as [->| ->]; vm_compute; reflexivity.
  - destruct S as [->| ->]; vm_compute; reflexivity.
Qed.

Lemma drun_frames fs : Forall frame_good fs ->
  drun (BNone, Running) (enc fs) = ((BNone, Running), payl 0 fs, payl 1 fs, []).
Proof.
  induction 1 as [|f fs (S & F) G IH]; [reflexivity|]. cbn [enc payl].
  pose proof (frame_ok_len _ _ _ F) as (_ & N).
  rewrite (drun_app _ _ (f_data f ++ enc fs) _ _ _ (drun_hdr _ _ _ S F) (BNone, Running) (sel (f_s f) 0 (f_data f) ++ payl 0 fs)
    (sel (f_s f) 1 (f_data f) ++ payl 1 fs) []); [reflexivity|].
  eapply drun_app; [|exact IH]. rewrite drun_payload; try discriminate; try lia.
  rewrite Z.sub_diag. reflexivity.
Qed.

Lemma drun_stuck_done t l : drun (t, EofDone) l = ((t, EofDone), [], [], l).
Proof. destruct l; [reflexivity|]. cbn [drun dstep]. destruct t; reflexivity. Qed.
Lemma drun_closed fs tail : Forall frame_good fs ->
  drun (BNone, Running) ((enc fs ++ EOF_MARKER) ++ tail) = ((BNone, EofDone), payl 0 fs, payl 1 fs, tail).
Proof.
  intros G. rewrite <- app_assoc. pose proof (drun_frames fs G) as D.
  rewrite (drun_app _ _ (EOF_MARKER ++ tail) _ _ _ D (BNone, EofDone) [] [] tail).
  - rewrite !app_nil_r. reflexivity.
  - apply (drun_app (BNone, Running) EOF_MARKER tail (BNone, EofDone) [] []); [reflexivity|]. apply drun_stuck_done.
Qed.

(** ** [deserialize] refines [drun] *)
Definition rbuf (b : mbuf) : Prop := bok b.
Definition td_ok (t : btd) : Prop :=
  match t with
  | BSome s c => strm s /\ 0 <= c
  | BHeader0 s => strm s
  | BHeader1 s lsb => strm s /\ byte lsb
  | BNone => True
  end.
Definition rinv (m : mux) : Prop := rbuf (buf0 m) /\ rbuf (buf1 m) /\ td_ok (to_deser m).
Definition st (m : mux) : dst := (nrm (to_deser m), eof m).

Lemma rpush m s data : rinv m -> strm s ->
  exists m', push_data m s data = Some m' /\ rinv m' /\ to_deser m' = to_deser m /\ eof m' = eof m /\
    mb_data (buf0 m') = mb_data (buf0 m) ++ sel s 0 data /\ mb_data (buf1 m') = mb_data (buf1 m) ++ sel s 1 data.
Proof.
  intros (R0 & R1 & T) S. unfold push_data.
  assert (RB : rbuf (getb m s)) by (destruct S as [->| ->]; assumption).
  destruct (push_buf_spec (getb m s) data RB) as (b' & P & B' & D & X & Y).
  rewrite P. cbn [bind]. eexists. split; [reflexivity|].
  destruct (setb_eof m s b') as (Q1 & Q2).
  split; [|split; [exact Q2|split; [exact Q1|]]].
  - unfold rinv. rewrite Q2. destruct S as [->| ->]; cbn [setb buf0 buf1]; zeqb; cbn [buf0 buf1]; auto.
  - destruct S as [->| ->]; unfold sel; zeqb; rewrite app_nil_r; split; solve [reflexivity|exact D].
Qed.

Definition slack (t : btd) : nat := match t with BSome _ 0 => 1 | _ => 0 end.
Definition refines (m : mux) (input : list Z) (n : Z) (m' : mux) : Prop :=
  exists pre suf p0 p1, input = pre ++ suf /\ n = zlen pre /\ drun (st m) pre = (st m', p0, p1, []) /\
    rinv m' /\ mb_data (buf0 m') = mb_data (buf0 m) ++ p0 /\ mb_data (buf1 m') = mb_data (buf1 m) ++ p1 /\
    (n = 0 -> match suf with [] => True | b :: _ => dstep (st m') b = None end) /\
    match suf with [] => True | b :: _ => sstep (st m') b = None end.

Lemma refines_refl m input : rinv m -> match input with [] => True | b :: _ => dstep (st m) b = None end ->
  refines m input 0 m.
Proof.
  intros R H. exists [], input, [], []. cbn [drun app]. rewrite !app_nil_r. destruct input; auto 10 using sstep_none.
Qed.
(** consume [pre] (non-empty), then continue from [m1] *)
Lemma refines_step m pre rest m1 p0 p1 n m' :
  pre <> [] -> drun (st m) pre = (st m1, p0, p1, []) ->
  mb_data (buf0 m1) = mb_data (buf0 m) ++ p0 -> mb_data (buf1 m1) = mb_data (buf1 m) ++ p1 ->
  refines m1 rest n m' -> refines m (pre ++ rest) (zlen pre + n) m'.
Proof.
  intros N D A0 A1 (pre2 & suf & q0 & q1 & -> & -> & D2 & R & B0 & B1 & X & Y).
  exists (pre ++ pre2), suf, (p0 ++ q0), (p1 ++ q1). rewrite app_assoc. split; [reflexivity|]. split; [rewrite zlen_app; reflexivity|].
  split; [eapply drun_app; eassumption|]. split; [exact R|]. rewrite B0, B1, A0, A1, <- !app_assoc.
  split; [reflexivity|]. split; [reflexivity|]. split; [|exact Y]. intros Z1. exfalso. apply N, zlen_0_nil.
  pose proof (zlen_nonneg pre). pose proof (zlen_nonneg pre2). lia.
Qed.

Lemma td_hdr b : byte b -> strm (Z.land b 1).
Proof.
  intros H. unfold strm. pose proof (land_mask b 1 ltac:(lia)) as E. change (2 ^ 1 - 1) with 1 in E. change (2 ^ 1) with 2 in E. lia.
Qed.

Lemma rinv_btd m t : rinv m -> td_ok t -> rinv (set_btd m t).
Proof. intros (A & B & _) T. split; [exact A|split; [exact B|exact T]]. Qed.
Lemma rinv_eof m e : rinv m -> rinv (set_eof m e).
Proof. intros H. exact H. Qed.

Ltac zb := repeat match goal with |- context [?a =? ?b] => destruct (Z.eqb_spec a b); [first [contradiction|lia|idtac]|] end; try reflexivity.
Lemma eof_refines m input n e : rinv m -> input <> [] -> to_deser m = BNone -> eof m <> EofDone ->
  ((nth 0 input 0 = 255) \/ (nth 0 input 0 = 254 /\ eof m <> Running)) ->
  deserialize_eof (eof m) input = (n, e) -> refines m input n (set_eof m e).
Proof.
  intros R N T D H E.
  assert (G : forall pre suf, input = pre ++ suf -> n = zlen pre -> drun (BNone, eof m) pre = ((BNone, e), [], [], []) ->
     (n = 0 -> match suf with [] => True | b :: _ => dstep (BNone, e) b = None end) ->
     match suf with [] => True | b :: _ => sstep (BNone, e) b = None end -> refines m input n (set_eof m e)).
  { intros pre suf A B C X Y. exists pre, suf, [], []. split; [exact A|]. split; [exact B|]. split.
    { unfold st. cbn [to_deser eof set_eof]. rewrite T. exact C. }
    split; [exact R|]. cbn [buf0 buf1 set_eof]. rewrite !app_nil_r. split; [reflexivity|]. split; [reflexivity|].
    unfold st. cbn [to_deser eof set_eof]. rewrite T. split; [exact X|exact Y]. }
  clear R T. destruct input as [|a input]; [contradiction|]. cbn [nth] in H. clear N.
  unfold deserialize_eof in E. cbn [nth skipn] in E.
  destruct (eof m); [| | |contradiction].
  - destruct H as [->|(_ & H)]; [|contradiction]. zeqb. change (255 =? 255) with true in E. cbv iota in E.
    destruct input as [|b input].
    { cbn in E. injection E as <- <-. apply (G [255] []); auto; try discriminate; try reflexivity; cbn [sstep dstep]; try solve [zb]; destruct input; reflexivity. }
    rewrite zlen_cons in E. pose proof (zlen_nonneg input). destruct (Z.eqb_spec (1 + zlen input) 0); [lia|].
    cbn [nth skipn] in E. destruct (Z.eqb_spec b 254) as [->|Nb].
    2:{ rewrite zlen_cons in E. destruct (Z.eqb_spec (1 + zlen input) 0); [lia|]. injection E as <- <-.
        apply (G [255] (b :: input)); auto; try discriminate; cbn [sstep]; zb. }
    destruct input as [|c input].
    { cbn in E. injection E as <- <-. apply (G [255; 254] []); auto; try discriminate; try reflexivity; cbn [sstep dstep]; try solve [zb]; destruct input; reflexivity. }
    rewrite zlen_cons in E. pose proof (zlen_nonneg input). destruct (Z.eqb_spec (1 + zlen input) 0); [lia|].
    cbn [nth] in E. destruct (Z.eqb_spec c 255) as [->|Nc]; injection E as <- <-.
    + apply (G [255; 254; 255] input); auto; try discriminate; try reflexivity; cbn [sstep dstep]; try solve [zb]; destruct input; reflexivity.
    + apply (G [255; 254] (c :: input)); auto; try discriminate; cbn [sstep]; zb.
  - rewrite zlen_cons in E. pose proof (zlen_nonneg input). destruct (Z.eqb_spec (1 + zlen input) 0); [lia|].
    cbn [nth skipn] in E. destruct (Z.eqb_spec a 254) as [->|Na].
    2:{ rewrite zlen_cons in E. destruct (Z.eqb_spec (1 + zlen input) 0); [lia|]. injection E as <- <-.
        apply (G [] (a :: input)); auto; cbn [sstep dstep]; zb; intros; destruct H as [->|(H & _)]; first [reflexivity|contradiction|lia]. }
    destruct input as [|c input].
    { cbn in E. injection E as <- <-. apply (G [254] []); auto; try discriminate; try reflexivity; cbn [sstep dstep]; try solve [zb]; destruct input; reflexivity. }
    rewrite zlen_cons in E. pose proof (zlen_nonneg input). destruct (Z.eqb_spec (1 + zlen input) 0); [lia|].
    cbn [nth] in E. destruct (Z.eqb_spec c 255) as [->|Nc]; injection E as <- <-.
    + apply (G [254; 255] input); auto; try discriminate; try reflexivity; cbn [sstep dstep]; try solve [zb]; destruct input; reflexivity.
    + apply (G [254] (c :: input)); auto; try discriminate; cbn [sstep]; zb.
  - rewrite zlen_cons in E. pose proof (zlen_nonneg input). destruct (Z.eqb_spec (1 + zlen input) 0); [lia|].
    cbn [nth] in E. destruct (Z.eqb_spec a 255) as [->|Na]; injection E as <- <-.
    + apply (G [255] input); auto; try discriminate; try reflexivity; cbn [sstep dstep]; try solve [zb]; destruct input; reflexivity.
    + apply (G [] (a :: input)); auto; cbn [sstep dstep]; zb; intros; destruct H as [->|(H & _)]; first [reflexivity|contradiction|lia].
Qed.

Lemma bytes_zskip n l : bytes l -> bytes (zskip n l).
Proof. apply bytes_skipn. Qed.

Lemma deserialize_loop_ref : forall fuel m input, rinv m -> bytes input ->
  (2 * length input + 1 + slack (to_deser m) <= fuel)%nat ->
  exists n m', deserialize_loop fuel m input = Some (n, m') /\ refines m input n m'.
Proof.
  induction fuel as [|fuel IH]; intros m input R HB F.
  { exfalso. lia. }
  destruct input as [|b rest]; cbn [deserialize_loop].
  { exists 0, m. split; [reflexivity|]. apply refines_refl; auto. }
  destruct (is_done (eof m)) eqn:ED.
  { exists 0, m. split; [reflexivity|]. apply refines_refl; auto. unfold st. destruct (eof m); try discriminate ED.
    cbn [dstep]. destruct (nrm (to_deser m)); reflexivity. }
  assert (EN : eof m <> EofDone) by (intros X; rewrite X in ED; discriminate).
  apply Forall_cons_iff in HB. destruct HB as (Hb & HB). cbn [length] in F.
  pose proof R as (R0 & R1 & T).
  (* one header byte consumed, switching to [t] *)
  assert (ONE : forall t, td_ok t -> dstep (st m) b = Some ((nrm t, eof m), None) -> (slack t <= 1)%nat -> (1 <= slack t -> slack (to_deser m) = 0%nat)%nat ->
     exists n m', bind (deserialize_loop fuel (set_btd m t) rest) (fun '(n, m') => Some (1 + n, m')) = Some (n, m') /\ refines m (b :: rest) n m').
  { intros t Tt D S1 S2. destruct (IH (set_btd m t) rest) as (n & m' & E & RF).
    - apply rinv_btd; auto.
    - exact HB.
    - cbn [to_deser set_btd]. lia.
    - rewrite E. cbn [bind]. exists (1 + n), m'. split; [reflexivity|].
      change (b :: rest) with ([b] ++ rest). change 1 with (zlen [b]).
      eapply (refines_step m [b] rest (set_btd m t) [] []); auto; try discriminate; try (cbn [buf0 buf1 set_btd]; rewrite app_nil_r; reflexivity).
      cbn [drun]. rewrite D. reflexivity. }
  destruct (to_deser m) as [|s c|s|s lsb] eqn:TD.
  - (* BNone *)
    destruct (((b =? 255) || (b =? 254) || (b =? 255)) && ((b =? 255) || negb (is_running (eof m)))) eqn:C.
    + destruct (deserialize_eof (eof m) (b :: rest)) as [n e] eqn:E. exists n, (set_eof m e). split; [reflexivity|].
      apply eof_refines; auto; [discriminate|]. cbn [nth].
      apply andb_prop in C. destruct C as (C1 & C2).
      destruct (Z.eqb_spec b 255) as [->|Nb]; [left; reflexivity|right]. cbn [orb] in C1, C2. rewrite orb_false_r in C1.
      split; [lia|]. intros X. rewrite X in C2. discriminate.
    + assert (HS : dstep (st m) b = Some (hdr_step (eof m) b, None)).
      { unfold st. rewrite TD. cbn [nrm dstep]. destruct (eof m); [| | |contradiction]; cbn [is_running negb] in C.
        - destruct (b =? 255); [discriminate C|reflexivity].
        - destruct (b =? 254), (b =? 255); try discriminate C; reflexivity.
        - destruct (b =? 255), (b =? 254); try discriminate C; reflexivity. }
      unfold hdr_step in HS. pose proof (td_hdr b Hb) as S. set (sd := Z.land b 1) in *.
      destruct (Z.ltb_spec b 16).
      * destruct rest as [|b1 [|b2 rest]].
        -- apply ONE; auto.
        -- apply ONE; auto.
        -- apply Forall_cons_iff in HB. destruct HB as (Hb1 & HB). apply Forall_cons_iff in HB. destruct HB as (Hb2 & HB).
           set (t := BSome sd (Z.lor b1 (Z.shiftl b2 8) + 1)).
           assert (CP : Z.lor b1 (Z.shiftl b2 8) + 1 = b1 + b2 * 2 ^ 8 + 1) by (unfold byte in *; rewrite lor_shift_add by lia; reflexivity).
           assert (CP1 : 1 <= Z.lor b1 (Z.shiftl b2 8) + 1) by (rewrite CP; unfold byte in *; lia).
           destruct (IH (set_btd m t) rest) as (n & m' & E & RF).
           ++ apply rinv_btd; auto. split; [exact S|lia].
           ++ exact HB.
           ++ cbn [to_deser set_btd length] in *. assert (slack t <= 1)%nat by (unfold t, slack; destruct (Z.lor b1 (Z.shiftl b2 8) + 1); lia). lia.
           ++ rewrite E. cbn [bind]. exists (3 + n), m'. split; [reflexivity|].
              change (b :: b1 :: b2 :: rest) with ([b; b1; b2] ++ rest). change 3 with (zlen [b; b1; b2]).
              eapply (refines_step m [b; b1; b2] rest (set_btd m t) [] []); auto; try discriminate; try (cbn [buf0 buf1 set_btd]; rewrite app_nil_r; reflexivity).
              cbn [drun]. rewrite HS. unfold st. cbn [to_deser eof set_btd]. destruct (eof m); [| | |contradiction]; reflexivity.
      * set (cc := Z.shiftl 1024 (Z.shiftl (Z.shiftr b 4) 1) mod 2 ^ 32) in *.
        assert (CN : 0 <= cc) by (unfold cc; apply Z.mod_pos_bound; lia).
        apply (ONE (BSome sd cc)); auto.
        -- split; assumption.
        -- unfold slack. destruct cc; lia.
  - (* BSome *)
    destruct T as (S & Cn).
    destruct (Z.ltb_spec (zlen (b :: rest)) c) as [L|L].
    + destruct (rpush m s (b :: rest) R S) as (m1 & E & R' & Q1 & Q2 & A0 & A1). rewrite E. cbn [bind].
      eexists _, _. split; [reflexivity|].
      exists (b :: rest), [], (sel s 0 (b :: rest)), (sel s 1 (b :: rest)). rewrite app_nil_r. split; [reflexivity|]. split; [reflexivity|].
      pose proof (zlen_nonneg rest).
      split.
      { unfold st. rewrite TD. cbn [to_deser eof set_btd]. rewrite Q2. rewrite nrm_pos by (rewrite zlen_cons in L; lia).
        apply drun_payload; auto; rewrite ?zlen_cons in *; lia. }
      split; [|auto]. apply rinv_btd; [exact R'|]. split; [exact S|lia].
    + destruct (rpush m s (zfirst c (b :: rest)) R S) as (m1 & E & R' & Q1 & Q2 & A0 & A1). rewrite E. cbn [bind].
      destruct (IH (set_btd m1 BNone) (zskip c (b :: rest))) as (n & m' & E2 & RF).
      * apply rinv_btd; [exact R'|exact Logic.I].
      * apply bytes_zskip. constructor; assumption.
      * cbn [to_deser set_btd slack]. unfold zskip. rewrite skipn_length. cbn [length].
        destruct (Z.eq_dec c 0) as [->|Nc]; [cbn [slack] in F; lia|]. unfold slack in F. destruct c; lia.
      * rewrite E2. cbn [bind]. exists (c + n), m'. split; [reflexivity|].
        destruct (Z.eq_dec c 0) as [->|Nc].
        { rewrite zskip_0 in *. rewrite zfirst_0 in *. cbn [Z.add].
          destruct RF as (pre & suf & q0 & q1 & I1 & I2 & I3 & I4 & I5 & I6 & I7 & I8).
          exists pre, suf, q0, q1. split; [exact I1|]. split; [lia|].
          split. { unfold st in *. rewrite TD. cbn [to_deser eof set_btd] in I3. rewrite Q2 in I3. exact I3. }
          split; [exact I4|]. cbn [buf0 buf1 set_btd] in *. unfold sel in *. rewrite I5, I6, A0, A1.
          split; [destruct (s =? 0); rewrite app_nil_r; reflexivity|]. split; [destruct (s =? 1); rewrite app_nil_r; reflexivity|].
          split; [intros Zn; apply I7; lia|exact I8]. }
        assert (LF : zlen (zfirst c (b :: rest)) = c) by (rewrite zlen_first by lia; lia).
        pose proof (zfirst_skip c (b :: rest)) as SP. rewrite <- SP at 1.
        replace (c + n) with (zlen (zfirst c (b :: rest)) + n) by lia.
        eapply (refines_step _ _ _ (set_btd m1 BNone)); [| |exact A0|exact A1|exact RF].
        { intros X. rewrite X, zlen_nil in LF. lia. }
        unfold st. rewrite TD, nrm_pos by exact Nc. rewrite drun_payload; auto; try lia.
        rewrite LF, Z.sub_diag. cbn [to_deser eof set_btd nrm]. rewrite Q2. reflexivity.
  - (* BHeader0 *)
    apply ONE; [split; [exact T|exact Hb]| |cbn; lia|reflexivity].
    unfold st. rewrite TD. cbn [nrm dstep]. destruct (eof m); try contradiction; reflexivity.
  - (* BHeader1 *)
    destruct T as (S & Hl).
    assert (CP1 : 1 <= Z.lor lsb (Z.shiftl b 8) + 1) by (unfold byte in *; rewrite lor_shift_add by lia; lia).
    apply ONE; [split; [exact S|lia]| | |reflexivity].
    + unfold st. rewrite TD. cbn [nrm dstep]. destruct (eof m); try contradiction; reflexivity.
    + unfold slack. destruct (Z.lor lsb (Z.shiftl b 8) + 1); lia.
Qed.

Lemma deserialize_ref m input : rinv m -> bytes input ->
  exists n m', deserialize m input = Some (n, m') /\ refines m input n m'.
Proof.
  intros R B. apply deserialize_loop_ref; auto.
  assert (slack (to_deser m) <= 1)%nat by (unfold slack; destruct (to_deser m) as [|? []| |]; lia). lia.
Qed.

Lemma feed_ref : forall fuel m input, rinv m -> bytes input -> (length input < fuel)%nat ->
  exists m' rest p0 p1, feed fuel m input = Some (m', rest) /\ drun (st m) input = (st m', p0, p1, rest) /\ rinv m' /\
    mb_data (buf0 m') = mb_data (buf0 m) ++ p0 /\ mb_data (buf1 m') = mb_data (buf1 m) ++ p1.
Proof.
  induction fuel as [|fuel IH]; intros m input R B F; [lia|]. cbn [feed].
  destruct (deserialize_ref m input R B) as (n & m1 & E & (pre & suf & p0 & p1 & -> & -> & D & R1 & A0 & A1 & X & _)).
  rewrite E. cbn [bind]. destruct (Z.eqb_spec (zlen pre) 0) as [Z1|Z1].
  - specialize (X Z1). apply zlen_0_nil in Z1. subst pre. cbn [app] in *. cbn [drun] in D. injection D as D1 D2 D3. subst p0 p1.
    exists m1, suf, [], []. split; [reflexivity|]. split; [|auto]. destruct suf as [|b suf]; cbn [drun].
    + unfold st. rewrite D1, D2. reflexivity.
    + unfold st in *. rewrite D1, D2, X. reflexivity.
  - rewrite zskip_app_exact by reflexivity.
    destruct (IH m1 suf) as (m' & rest & q0 & q1 & E2 & D2 & R2 & B0 & B1); auto.
    + unfold bytes in *. apply Forall_app in B. apply B.
    + rewrite app_length in F. unfold zlen in Z1. lia.
    + exists m', rest, (p0 ++ q0), (p1 ++ q1). split; [exact E2|]. split; [eapply drun_app; eassumption|]. split; [exact R2|].
      rewrite B0, B1, A0, A1, !app_assoc. auto.
Qed.

(** ** The reader *)
Definition rrel (r : reader) (d : dst) (D0 D1 c : list Z) : Prop :=
  rinv (rmux r) /\ st (rmux r) = d /\ delivered r Cmd = D0 /\ delivered r Lit = D1 /\ carry r = c.

Lemma take_data b k : bok b -> (k <= length (mb_data b))%nat ->
  bok (MB (mem b) (rd b + Z.of_nat k) (wr b)) /\
  firstn k (mb_data b) ++ mb_data (MB (mem b) (rd b + Z.of_nat k) (wr b)) = mb_data b.
Proof.
  intros B K. pose proof (mb_data_len b B) as L. unfold zlen in L. destruct B as (B1 & B2 & B3).
  split; [unfold bok; cbn [rd wr mem]; lia|].
  transitivity (firstn k (mb_data b) ++ skipn k (mb_data b)); [f_equal|apply firstn_skipn].
  unfold mb_data. cbn [rd wr mem]. rewrite <- zskip_zskip by lia.
  replace (wr b - (rd b + Z.of_nat k)) with (wr b - rd b - Z.of_nat k) by lia. rewrite <- zskip_zfirst by lia.
  unfold zskip at 1. rewrite Nat2Z.id. reflexivity.
Qed.

Lemma reader_step_ref r op d D0 D1 c F : rrel r d D0 D1 c -> drun (BNone, Running) F = (d, D0, D1, c) ->
  bytes F -> bytes (fed [op]) ->
  exists r' d' D0' D1' c', reader_step r op = Some r' /\ rrel r' d' D0' D1' c' /\
     drun (BNone, Running) (F ++ fed [op]) = (d', D0', D1', c').
Proof.
  intros (R & S & A0 & A1 & C) D HF HP. destruct op as [piece|s n]; cbn [reader_step fed].
  - rewrite app_nil_r. cbn [fed] in HP. rewrite app_nil_r in HP.
    destruct (drun_split _ _ _ _ _ _ D) as (cons & EF & Dc & _ & _). rewrite C.
    assert (HB : bytes (c ++ piece)).
    { apply bytes_app; [|exact HP]. rewrite EF in HF. unfold bytes in *. apply Forall_app in HF. apply HF. }
    destruct (feed_ref (Datatypes.S (length (c ++ piece))) (rmux r) (c ++ piece) R HB ltac:(lia)) as (m' & rest & p0 & p1 & E & D2 & R' & B0 & B1).
    rewrite E. cbn [bind]. eexists _, (st m'), (D0 ++ p0), (D1 ++ p1), rest. split; [reflexivity|]. split.
    + split; [exact R'|]. split; [reflexivity|]. rewrite <- A0, <- A1. unfold delivered. cbn [rmux taken0 taken1 carry sid].
      split; [|split; [|reflexivity]].
      * change (getb m' 0) with (buf0 m'). change (getb (rmux r) 0) with (buf0 (rmux r)). rewrite B0, app_assoc. reflexivity.
      * change (getb m' 1) with (buf1 m'). change (getb (rmux r) 1) with (buf1 (rmux r)). rewrite B1, app_assoc. reflexivity.
    + rewrite EF, <- app_assoc. eapply drun_app; [exact Dc|]. rewrite <- S. exact D2.
  - rewrite app_nil_r. eexists _, d, D0, D1, c. split; [reflexivity|]. split; [|exact D].
    destruct R as (B0 & B1 & T).
    destruct s; cbn [sid].
    + change (getb (rmux r) 0) with (buf0 (rmux r)). set (k := Nat.min n (length (mb_data (buf0 (rmux r))))).
      destruct (take_data (buf0 (rmux r)) k B0 ltac:(unfold k; lia)) as (B' & TD).
      split; [|split; [exact S|split; [|split; [exact A1|exact C]]]].
      * split; [exact B'|split; [exact B1|exact T]].
      * rewrite <- A0. unfold delivered. cbn [taken0 rmux sid]. change (getb (rmux r) 0) with (buf0 (rmux r)).
        rewrite <- app_assoc. f_equal. exact TD.
    + change (getb (rmux r) 1) with (buf1 (rmux r)). set (k := Nat.min n (length (mb_data (buf1 (rmux r))))).
      destruct (take_data (buf1 (rmux r)) k B1 ltac:(unfold k; lia)) as (B' & TD).
      split; [|split; [exact S|split; [exact A0|split; [|exact C]]]].
      * split; [exact B0|split; [exact B'|exact T]].
      * rewrite <- A1. unfold delivered. cbn [taken1 rmux sid]. change (getb (rmux r) 1) with (buf1 (rmux r)).
        rewrite <- app_assoc. f_equal. exact TD.
Qed.

Lemma fed_cons op ops : fed (op :: ops) = fed [op] ++ fed ops.
Proof. destruct op; cbn [fed]; [rewrite app_nil_r|]; reflexivity. Qed.
Lemma run_reader_ref : forall ops r d D0 D1 c F, rrel r d D0 D1 c -> drun (BNone, Running) F = (d, D0, D1, c) ->
  bytes F -> bytes (fed ops) ->
  exists r' d' D0' D1' c', run_reader r ops = Some r' /\ rrel r' d' D0' D1' c' /\
     drun (BNone, Running) (F ++ fed ops) = (d', D0', D1', c').
Proof.
  induction ops as [|op ops IH]; intros r d D0 D1 c F R D HF HP; cbn [run_reader].
  - cbn [fed]. rewrite app_nil_r. exists r, d, D0, D1, c. auto.
  - rewrite fed_cons in HP. unfold bytes in HP. apply Forall_app in HP. destruct HP as (HP1 & HP2).
    destruct (reader_step_ref r op d D0 D1 c F R D HF HP1) as (r1 & d1 & X0 & X1 & c1 & E & R1 & D'). rewrite E. cbn [bind].
    destruct (IH r1 d1 X0 X1 c1 (F ++ fed [op]) R1 D') as (r2 & d2 & Y0 & Y1 & c2 & E2 & R2 & D2).
    + apply bytes_app; assumption.
    + exact HP2.
    + exists r2, d2, Y0, Y1, c2. split; [exact E2|]. split; [exact R2|]. rewrite fed_cons, app_assoc. exact D2.
Qed.

Lemma rrel_new : rrel reader_new (BNone, Running) [] [] [].
Proof.
  split; [|repeat split]. assert (E : rbuf mb_empty) by (split; [|split]; discriminate).
  split; [exact E|]. split; [exact E|exact Logic.I].
Qed.

Theorem reader_total ops : bytes (fed ops) ->
  exists r d D0 D1 c, run_reader reader_new ops = Some r /\ rrel r d D0 D1 c /\
    drun (BNone, Running) (fed ops) = (d, D0, D1, c).
Proof.
  intros B. apply (run_reader_ref ops reader_new (BNone, Running) [] [] [] []); auto.
  - apply rrel_new.
  - constructor.
Qed.
