(** Multiplexer: the writer's loops. *)
From Verif Require Import Prelude ProofList ModelMux SpecMux ProofZlist ProofMux.

Ltac zeqb := change (0 =? 0) with true; change (1 =? 0) with false; change (0 =? 1) with false; change (1 =? 1) with true; cbv iota.
Definition tq (q : Z -> list Z) : Z := zlen (q 0) + zlen (q 1).
Lemma tq_nonneg q : 0 <= tq q.
Proof. unfold tq. pose proof (zlen_nonneg (q 0)). pose proof (zlen_nonneg (q 1)). lia. Qed.

(** outcome of a serialising step *)
Definition step (m : mux) q pend (room : Z) (out : list Z) (m' : mux) q' pend' : Prop :=
  inv m' q' pend' /\ emits q pend q' pend' out /\ zlen out <= room /\
  (pend' <> [] -> zlen out = room) /\ eof m' = eof m /\ tq q' <= tq q.
Lemma step_refl m q pend room : inv m q pend -> 0 <= room -> (pend = [] \/ room = 0) -> step m q pend room [] m q pend.
Proof.
  intros. split; [auto|]. split; [apply emits_refl|]. rewrite zlen_nil. split; [auto|].
  split; [|split; [reflexivity|lia]]. intuition congruence.
Qed.
Lemma step_trans m q p room o1 m1 q1 p1 o2 m2 q2 p2 :
  step m q p room o1 m1 q1 p1 -> step m1 q1 p1 (room - zlen o1) o2 m2 q2 p2 ->
  step m q p room (o1 ++ o2) m2 q2 p2.
Proof.
  intros (A1 & A2 & A3 & A4 & A5 & A6) (B1 & B2 & B3 & B4 & B5 & B6).
  split; [exact B1|]. split; [eapply emits_trans; eassumption|]. rewrite zlen_app. split; [lia|].
  split; [|split; [congruence|lia]]. intros N. specialize (B4 N). lia.
Qed.

Lemma stream_id_step m q s room lag : inv m q [] -> strm s -> q s <> [] -> 0 <= room ->
  exists out m' q' p', serialize_stream_id m s room lag = Some (out, m') /\ step m q [] room out m' q' p' /\
    tq q' < tq q /\ (0 < room -> zlen out <> 0).
Proof.
  intros I S Q R. destruct (stream_id_inv m q s room lag I S Q R) as (o & m' & q' & p' & E & I' & EM & P & L & NZ & EF & QO & QS).
  exists o, m', q', p'. split; [exact E|].
  assert (T : tq q' < tq q).
  { unfold tq. destruct S as [->| ->].
    - rewrite (QO 1); [lia|right; reflexivity|discriminate].
    - rewrite (QO 0); [lia|left; reflexivity|discriminate]. }
  split; [|split; [exact T|]].
  - split; [exact I'|]. split; [exact EM|]. split; [exact L|]. split; [exact P|]. split; [exact EF|lia].
  - intros R0 Z0'. apply (NZ R0), zlen_0_nil, Z0'.
Qed.

Lemma buf_amount m q s : inv m q [] -> strm s -> wr (getb m s) - rd (getb m s) = zlen (q s).
Proof.
  intros (_ & _ & I) S. destruct (I s S) as (B & D & _). rewrite <- (mb_data_len _ B), D.
  destruct (cur_stream m =? s); reflexivity.
Qed.
Lemma chunk_size_pos l g : 16 <= chunk_size l g.
Proof. unfold chunk_size. destruct g; [lia|]. destruct (_ <=? _); [lia|]. destruct (_ <=? _); lia. Qed.

Lemma serialize_try_spec m q s lf mf room : inv m q [] -> strm s -> 0 <= room ->
  exists o m' f q' p', serialize_try m s lf mf room = Some (o, m', f) /\ step m q [] room o m' q' p' /\
    (f = true -> tq q' < tq q) /\ (f = false -> p' = [] /\ o = []).
Proof.
  intros I S R. unfold serialize_try. pose proof (buf_amount m q s I S) as A.
  set (lag := MAX_FLUSH_VARIANCE + getl m s <? mf).
  destruct (Z.leb_spec (chunk_size (getl m s) lag) (wr (getb m s) - rd (getb m s))) as [C|C]; cbn [andb].
  2:{ exists [], m, false, q, []. split; [reflexivity|]. split; [apply step_refl; auto|]. split; [discriminate|auto]. }
  destruct (getl m s <=? lf + MAX_FLUSH_VARIANCE).
  2:{ exists [], m, false, q, []. split; [reflexivity|]. split; [apply step_refl; auto|]. split; [discriminate|auto]. }
  pose proof (chunk_size_pos (getl m s) lag).
  assert (Q : q s <> []) by (intros Q; rewrite Q, zlen_nil in A; lia).
  destruct (stream_id_step m q s room lag I S Q R) as (o & m' & q' & p' & E & ST & T & _).
  rewrite E. cbn [bind]. exists o, m', true, q', p'. split; [reflexivity|]. split; [exact ST|]. split; [auto|discriminate].
Qed.

Lemma cur_avail_inv m q p : inv m q p -> cur_avail m = zlen p.
Proof. intros (_ & H & _). exact H. Qed.

Lemma serialize_loop_spec : forall fuel m q pend room, inv m q pend -> 0 <= room -> (pend = [] \/ room = 0) ->
  (Z.to_nat (tq q) < fuel)%nat ->
  exists o m' q' p', serialize_loop fuel m room = Some (o, m') /\ step m q pend room o m' q' p'.
Proof.
  induction fuel as [|fuel IH]; intros m q pend room I R PR F; [lia|].
  cbn [serialize_loop]. destruct (Z.ltb_spec 0 room) as [R0|R0].
  2:{ exists [], m, q, pend. split; [reflexivity|]. apply step_refl; auto. }
  assert (pend = []) by (destruct PR; [auto|lia]). subst pend. cbv zeta.
  set (lf := Z.min (last0 m) (last1 m)). set (mf := Z.max (last0 m) (last1 m)).
  destruct (serialize_try_spec m q 0 lf mf room I ltac:(left; reflexivity) R) as (o0 & m0 & f0 & q0 & p0 & E0 & S0 & T0 & N0).
  rewrite E0. cbn [bind]. pose proof S0 as (I0 & _ & L0 & P0 & _ & Q0).
  assert (H1 : exists o1 m1 f1 q1 p1,
    (if f0 && negb (cur_avail m0 =? 0) then Some ([], m0, false) else serialize_try m0 1 lf mf (room - zlen o0))
      = Some (o1, m1, f1) /\ step m0 q0 p0 (room - zlen o0) o1 m1 q1 p1 /\
    (f1 = true -> tq q1 < tq q0) /\ (f0 = false -> f1 = false -> p1 = [])).
  { rewrite (cur_avail_inv _ _ _ I0).
    destruct (Z.eqb_spec (zlen p0) 0) as [Zp|Zp].
    - apply zlen_0_nil in Zp. subst p0. rewrite andb_false_r.
      destruct (serialize_try_spec m0 q0 1 lf mf (room - zlen o0) I0 ltac:(right; reflexivity) ltac:(lia))
        as (o1 & m1 & f1 & q1 & p1 & E1 & S1 & T1 & N1).
      exists o1, m1, f1, q1, p1. split; [exact E1|]. split; [exact S1|]. split; [exact T1|]. intros _ X. apply N1, X.
    - destruct f0; cbn [andb negb].
      + exists [], m0, false, q0, p0. split; [reflexivity|]. split.
        * apply step_refl; auto; [lia|]. right. rewrite P0; [lia|]. intros X. subst. apply Zp. reflexivity.
        * split; discriminate.
      + exfalso. destruct (N0 eq_refl) as (-> & _). apply Zp. reflexivity. }
  destruct H1 as (o1 & m1 & f1 & q1 & p1 & E1 & S1 & T1 & N1). rewrite E1. cbn [bind].
  pose proof S1 as (I1 & _ & L1 & P1 & _ & Q1). pose proof (tq_nonneg q1).
  pose proof (step_trans _ _ _ _ _ _ _ _ _ _ _ _ S0 S1) as S01.
  destruct (f0 || f1) eqn:FF.
  - assert (TT : tq q1 < tq q).
    { destruct f0; [specialize (T0 eq_refl); lia|]. destruct f1; [|discriminate FF]. specialize (T1 eq_refl). lia. }
    destruct (IH m1 q1 p1 (room - zlen o0 - zlen o1)) as (o & m' & q' & p' & E & S'); auto; try lia.
    { destruct p1; [left; reflexivity|]. right. rewrite P1 by discriminate. lia. }
    rewrite E. cbn [bind]. exists (o0 ++ o1 ++ o), m', q', p'. split; [reflexivity|].
    rewrite app_assoc. eapply step_trans; [exact S01|]. rewrite zlen_app.
    replace (room - (zlen o0 + zlen o1)) with (room - zlen o0 - zlen o1) by lia. exact S'.
  - exists (o0 ++ o1), m1, q1, p1. split; [reflexivity|exact S01].
Qed.

Lemma loop_fuel_ok m q p : inv m q p -> p = [] -> (Z.to_nat (tq q) < loop_fuel m)%nat.
Proof.
  intros I ->. unfold loop_fuel, tq. pose proof (buf_amount m q 0 I ltac:(left; reflexivity)) as A0.
  pose proof (buf_amount m q 1 I ltac:(right; reflexivity)) as A1.
  change (getb m 0) with (buf0 m) in A0. change (getb m 1) with (buf1 m) in A1.
  pose proof (zlen_nonneg (q 0)). pose proof (zlen_nonneg (q 1)). lia.
Qed.

Lemma leftover_step m q p cap : inv m q p -> 0 <= cap ->
  exists o m' p', (if cur_avail m =? 0 then Some ([], m) else serialize_leftover m cap) = Some (o, m') /\
    step m q p cap o m' q p' /\ (p' = [] \/ cap - zlen o = 0).
Proof.
  intros I C. rewrite (cur_avail_inv _ _ _ I).
  destruct (Z.eqb_spec (zlen p) 0) as [Z1|Z1].
  { apply zlen_0_nil in Z1. subst p. exists [], m, []. split; [reflexivity|]. split; [apply step_refl; auto|auto]. }
  destruct (leftover_inv m q p cap I C) as (o & m' & p' & E & I' & PE & L & EF).
  exists o, m', p'. split; [exact E|].
  assert (X : p' = [] \/ cap - zlen o = 0).
  { pose proof (f_equal zlen PE) as PL. rewrite zlen_app in PL. pose proof (zlen_nonneg p').
    destruct (Z.eq_dec (zlen p') 0) as [Y|Y]; [left; apply zlen_0_nil, Y|right; lia]. }
  split; [|exact X]. split; [exact I'|]. split; [|split; [lia|split; [|split; [exact EF|lia]]]].
  - exists []. split; [constructor|]. cbn [enc payl app]. rewrite app_nil_r. split; [symmetry; exact PE|reflexivity].
  - intros N. destruct X; [contradiction|lia].
Qed.

(** when room is left there is no pending chunk: the loops see an idle state; when
    none is left they return at once whatever the fuel *)
Lemma serialize_loop_noroom fuel m : serialize_loop fuel m 0 = Some ([], m).
Proof. destruct fuel; reflexivity. Qed.
Lemma serialize_spec m q p cap : inv m q p -> 0 <= cap ->
  exists o m' q' p', serialize m cap = Some (o, m') /\ step m q p cap o m' q' p'.
Proof.
  intros I C. unfold serialize.
  destruct (leftover_step m q p cap I C) as (o & m1 & p1 & E & S1 & X). rewrite E. cbn [bind].
  pose proof S1 as (I1 & _ & L1 & _).
  destruct (Z.eq_dec (cap - zlen o) 0) as [Y|Y].
  - rewrite Y, serialize_loop_noroom. cbn [bind]. rewrite app_nil_r. exists o, m1, q, p1. auto.
  - assert (p1 = []) by (destruct X; [auto|lia]). subst p1.
    destruct (serialize_loop_spec (loop_fuel m1) m1 q [] (cap - zlen o) I1 ltac:(lia) (or_introl eq_refl)
       (loop_fuel_ok _ _ _ I1 eq_refl)) as (o2 & m2 & q2 & p2 & E2 & S2).
    rewrite E2. cbn [bind]. exists (o ++ o2), m2, q2, p2. split; [reflexivity|]. eapply step_trans; eassumption.
Qed.

(** ** Closing *)
Lemma flush_try_spec m q s lf room : inv m q [] -> strm s -> 0 <= room ->
  exists o m' q' p', flush_try m s lf room = Some (o, m') /\ step m q [] room o m' q' p' /\
    ((m' = m /\ o = [] /\ q' = q /\ p' = [] /\ (flush_considered m s lf = true -> q s = [])) \/
     (tq q' < tq q /\ (0 < room -> zlen o <> 0) /\ flush_considered m s lf = true)).
Proof.
  intros I S R. unfold flush_try. pose proof (buf_amount m q s I S) as A. fold (flush_considered m s lf).
  destruct (flush_considered m s lf) eqn:FC.
  2:{ exists [], m, q, []. split; [reflexivity|]. split; [apply step_refl; auto|]. left. repeat split; discriminate. }
  destruct (Z.eqb_spec (rd (getb m s)) (wr (getb m s))) as [E|E]; cbn [negb].
  { exists [], m, q, []. split; [reflexivity|]. split; [apply step_refl; auto|]. left. repeat split.
    intros _. apply zlen_0_nil. lia. }
  assert (Q : q s <> []) by (intros Q; rewrite Q, zlen_nil in A; lia).
  destruct (stream_id_step m q s room true I S Q R) as (o & m' & q' & p' & E' & ST & T & NZ).
  exists o, m', q', p'. split; [exact E'|]. split; [exact ST|]. right. auto.
Qed.

Definition drained (q : Z -> list Z) (p : list Z) : Prop := q 0 = [] /\ q 1 = [] /\ p = [].

Lemma flush_loop_spec : forall fuel m q pend room, inv m q pend -> 0 <= room -> (pend = [] \/ room = 0) ->
  (Z.to_nat (tq q) < fuel)%nat ->
  exists o m' q' p', flush_loop fuel m room = Some (o, m') /\ step m q pend room o m' q' p' /\
    (zlen o = room \/ drained q' p').
Proof.
  induction fuel as [|fuel IH]; intros m q pend room I R PR F; [lia|].
  cbn [flush_loop]. destruct (Z.ltb_spec 0 room) as [R0|R0].
  2:{ exists [], m, q, pend. split; [reflexivity|]. split; [apply step_refl; auto|]. left. rewrite zlen_nil. lia. }
  assert (pend = []) by (destruct PR; [auto|lia]). subst pend. cbv zeta.
  match goal with |- context [flush_try m 0 ?l room] => set (lf := l) end.
  assert (LF : q 0 <> [] -> flush_considered m 0 lf = true \/ (q 1 <> [] /\ flush_considered m 1 lf = true)).
  { intros Q0. pose proof (buf_amount m q 0 I ltac:(left; reflexivity)) as A0. pose proof (buf_amount m q 1 I ltac:(right; reflexivity)) as A1.
    change (getb m 0) with (buf0 m) in A0. change (getb m 1) with (buf1 m) in A1.
    unfold lf, flush_considered. change (getl m 0) with (last0 m). change (getl m 1) with (last1 m). unfold MAX_FLUSH_VARIANCE.
    destruct (Z.eqb_spec (rd (buf0 m)) (wr (buf0 m))) as [X|X]; cbn [negb].
    { exfalso. apply Q0, zlen_0_nil. lia. }
    destruct (Z.ltb_spec (last1 m) (last0 m)); cbn [andb]; [|left; lia].
    destruct (Z.eqb_spec (rd (buf1 m)) (wr (buf1 m))) as [Y|Y]; cbn [negb]; [left; lia|].
    right. split; [|lia]. intros Q1. rewrite Q1, zlen_nil in A1. lia. }
  assert (LF1 : q 0 = [] -> q 1 <> [] -> flush_considered m 1 lf = true).
  { intros Q0 Q1. pose proof (buf_amount m q 0 I ltac:(left; reflexivity)) as A0. pose proof (buf_amount m q 1 I ltac:(right; reflexivity)) as A1.
    change (getb m 0) with (buf0 m) in A0. change (getb m 1) with (buf1 m) in A1. rewrite Q0, zlen_nil in A0.
    unfold lf, flush_considered. change (getl m 1) with (last1 m). unfold MAX_FLUSH_VARIANCE.
    destruct (Z.eqb_spec (rd (buf0 m)) (wr (buf0 m))) as [X|X]; cbn [negb]; [|lia].
    destruct (Z.eqb_spec (rd (buf1 m)) (wr (buf1 m))) as [Y|Y]; cbn [negb]; lia. }
  destruct (flush_try_spec m q 0 lf room I ltac:(left; reflexivity) R) as (o0 & m0 & q0 & p0 & E0 & S0 & C0).
  rewrite E0. cbn [bind]. pose proof S0 as (I0 & _ & L0 & P0 & _ & Q0).
  assert (H1 : exists o1 m1 q1 p1,
    (if flush_considered m 0 lf && negb (cur_avail m0 =? 0) then Some ([], m0) else flush_try m0 1 lf (room - zlen o0))
      = Some (o1, m1) /\ step m0 q0 p0 (room - zlen o0) o1 m1 q1 p1 /\
    (tq q0 < tq q /\ zlen o0 <> 0 \/
     tq q1 < tq q /\ zlen o1 <> 0 \/
     drained q1 p1 /\ o0 = [] /\ o1 = [])).
  { destruct C0 as [(-> & -> & -> & -> & C0)|(T0 & NZ0 & C0)].
    - assert (CA : (cur_avail m =? 0) = true) by (apply Z.eqb_eq, (cur_avail_inv _ _ _ I)).
      rewrite CA. cbn [negb]. rewrite andb_false_r.
      replace (room - zlen []) with room by (rewrite zlen_nil; lia).
      destruct (flush_try_spec m q 1 lf room I ltac:(right; reflexivity) R) as (o1 & m1 & q1 & p1 & E1 & S1 & C1).
      exists o1, m1, q1, p1. split; [exact E1|]. split; [exact S1|]. right.
      destruct C1 as [(-> & -> & -> & -> & C1)|(T1 & NZ1 & C1)]; [right|left; auto].
      assert (q 0 = []).
      { destruct (q 0) eqn:Eq; [reflexivity|exfalso]. destruct LF as [X|(X & Y)]; [discriminate| |].
        - specialize (C0 X). discriminate.
        - apply X, C1, Y. }
      assert (q 1 = []).
      { destruct (q 1) eqn:Eq; [reflexivity|exfalso]. assert (Y : z :: l = []); [|discriminate]. apply C1, LF1; [assumption|discriminate]. }
      repeat split; auto.
    - rewrite C0, (cur_avail_inv _ _ _ I0). cbn [andb]. destruct (Z.eqb_spec (zlen p0) 0) as [Zp|Zp]; cbn [negb].
      + apply zlen_0_nil in Zp. subst p0.
        destruct (flush_try_spec m0 q0 1 lf (room - zlen o0) I0 ltac:(right; reflexivity) ltac:(lia)) as (o1 & m1 & q1 & p1 & E1 & S1 & C1).
        exists o1, m1, q1, p1. split; [exact E1|]. split; [exact S1|]. left. auto.
      + exists [], m0, q0, p0. split; [reflexivity|]. split; [|left; auto].
        apply step_refl; auto; [lia|]. right. rewrite P0; [lia|]. intros X. rewrite X in Zp. apply Zp. reflexivity. }
  destruct H1 as (o1 & m1 & q1 & p1 & E1 & S1 & X1). rewrite E1. cbn [bind].
  pose proof S1 as (I1 & _ & L1 & P1 & _ & Q1). pose proof (tq_nonneg q1).
  pose proof (step_trans _ _ _ _ _ _ _ _ _ _ _ _ S0 S1) as S01.
  destruct (negb (zlen o0 =? 0) || negb (zlen o1 =? 0)) eqn:FF.
  - assert (TT : tq q1 < tq q).
    { destruct X1 as [X1|[X1|(_ & -> & ->)]]; [lia|lia|discriminate FF]. }
    destruct (IH m1 q1 p1 (room - zlen o0 - zlen o1)) as (o & m' & q' & p' & E & S' & D'); auto; try lia.
    { destruct p1; [left; reflexivity|]. right. rewrite P1 by discriminate. lia. }
    rewrite E. cbn [bind]. exists (o0 ++ o1 ++ o), m', q', p'. split; [reflexivity|]. split.
    + rewrite app_assoc. eapply step_trans; [exact S01|]. rewrite zlen_app.
      replace (room - (zlen o0 + zlen o1)) with (room - zlen o0 - zlen o1) by lia. exact S'.
    + destruct D' as [D'|D']; [left|right; exact D']. rewrite !zlen_app. lia.
  - exists (o0 ++ o1), m1, q1, p1. split; [reflexivity|]. split; [exact S01|].
    destruct X1 as [(_ & X1)|[(_ & X1)|(X1 & _)]]; [lia|lia|right; exact X1].
Qed.

Lemma flush_loop_noroom fuel m : flush_loop fuel m 0 = Some ([], m).
Proof. destruct fuel; reflexivity. Qed.
Lemma flush_internal_spec m q p cap : inv m q p -> 0 <= cap ->
  exists o m' q' p', flush_internal m cap = Some (o, m') /\ step m q p cap o m' q' p' /\ (zlen o = cap \/ drained q' p').
Proof.
  intros I C. unfold flush_internal.
  destruct (leftover_step m q p cap I C) as (o & m1 & p1 & E & S1 & X). rewrite E. cbn [bind].
  pose proof S1 as (I1 & _ & L1 & _).
  destruct (Z.eq_dec (cap - zlen o) 0) as [Y|Y].
  - rewrite Y, flush_loop_noroom. cbn [bind]. rewrite app_nil_r. exists o, m1, q, p1. split; [reflexivity|]. split; [exact S1|]. left. lia.
  - assert (p1 = []) by (destruct X; [auto|lia]). subst p1.
    destruct (flush_loop_spec (loop_fuel m1) m1 q [] (cap - zlen o) I1 ltac:(lia) (or_introl eq_refl)
       (loop_fuel_ok _ _ _ I1 eq_refl)) as (o2 & m2 & q2 & p2 & E2 & S2 & D2).
    rewrite E2. cbn [bind]. exists (o ++ o2), m2, q2, p2. split; [reflexivity|]. split; [eapply step_trans; eassumption|].
    destruct D2 as [D2|D2]; [left; rewrite zlen_app; lia|right; exact D2].
Qed.

Definition mk (e : eofst) : list Z :=
  match e with Running => [255; 254; 255] | EofStart => [254; 255] | EofMid => [255] | EofDone => [] end.
Lemma close_marker_spec e room : 0 <= room -> e <> EofDone ->
  exists o e', close_marker e room = (o, e') /\ mk e = o ++ mk e' /\ zlen o = Z.min room (zlen (mk e)) /\
    (room = 0 -> e' = e) /\ (e' = Running -> room = 0 /\ e = Running).
Proof.
  intros R N. unfold close_marker.
  destruct e; try contradiction.
  all: repeat match goal with |- context [?x <=? 0] => destruct (Z.leb_spec x 0) end;
    eexists _, _; (split; [reflexivity|]); (split; [reflexivity|]); unfold zlen; cbn [length mk app]; (split; [lia|]); split; try lia; try discriminate; auto; intros; try (split; [lia|reflexivity]).
Qed.

Definition eofinv (e : eofst) (q : Z -> list Z) (p : list Z) : Prop := e = Running \/ drained q p.

Lemma no_frames fs : Forall frame_good fs -> payl 0 fs = [] -> payl 1 fs = [] -> fs = [].
Proof.
  intros G A0 A1. destruct fs as [|f fs]; [reflexivity|exfalso]. apply Forall_inv in G. destruct G as (Sf & Ff).
  apply frame_ok_len in Ff. destruct Ff as (_ & Ff). cbn [payl] in A0, A1.
  apply app_eq_nil in A0, A1. destruct A0 as (A0 & _), A1 as (A1 & _).
  assert (E : f_data f = []) by (destruct Sf as [E|E]; [rewrite E in A0; exact A0|rewrite E in A1; exact A1]).
  rewrite E, zlen_nil in Ff. lia.
Qed.

(** one call of close *)
Lemma close_step m q p cap : inv m q p -> eofinv (eof m) q p -> 0 <= cap ->
  exists o m' q' p', serialize_close m cap = Some (o, m') /\ inv m' q' p' /\ eofinv (eof m') q' p' /\
    zlen o <= cap /\ (zlen o = cap \/ eof m' = EofDone) /\ (eof m' = Running -> eof m = Running) /\
    exists fs, Forall frame_good fs /\ o ++ p' ++ mk (eof m') = p ++ enc fs ++ mk (eof m) /\
      forall s, strm s -> q s = payl s fs ++ q' s.
Proof.
  intros I EI C. unfold serialize_close.
  destruct (is_done (eof m)) eqn:ED.
  { assert (eof m = EofDone) by (destruct (eof m); try discriminate; reflexivity).
    exists [], m, q, p. split; [reflexivity|]. split; [exact I|]. split; [exact EI|]. rewrite zlen_nil.
    split; [lia|]. split; [auto|]. split; [auto|]. exists []. split; [constructor|]. split; [cbn [enc app]; reflexivity|reflexivity]. }
  destruct (flush_internal_spec m q p cap I C) as (o & m1 & q1 & p1 & E & S & D). rewrite E. cbn [bind].
  destruct S as (I1 & (fs & G & OE & QE) & L & _ & EF & T).
  assert (ND : eof m1 <> EofDone) by (rewrite EF; intros X; rewrite X in ED; discriminate).
  destruct (close_marker_spec (eof m1) (cap - zlen o) ltac:(lia) ND) as (o2 & e' & E2 & M & LM & K0 & K1).
  rewrite E2. exists (o ++ o2), (set_eof m1 e'), q1, p1. split; [reflexivity|].
  assert (I2 : inv (set_eof m1 e') q1 p1) by (destruct I1 as (X1 & X2 & X3); split; [exact X1|split; [exact X2|exact X3]]).
  split; [exact I2|]. cbn [eof set_eof].
  assert (D1 : eofinv e' q1 p1).
  { destruct D as [D|D]; [|right; exact D]. rewrite K0 by lia. rewrite EF.
    destruct EI as [EI|(Z0' & Z1' & Z2')]; [left; exact EI|right].
    subst p. pose proof (QE 0 ltac:(left; reflexivity)) as A0. pose proof (QE 1 ltac:(right; reflexivity)) as A1.
    rewrite Z0' in A0. rewrite Z1' in A1. symmetry in A0, A1. apply app_eq_nil in A0, A1. destruct A0 as (A0 & B0), A1 as (A1 & B1).
    split; [exact B0|]. split; [exact B1|].
    assert (fs = []) by (apply no_frames; assumption).
    subst fs. cbn [enc app] in OE. apply app_eq_nil in OE. apply OE. }
  split; [exact D1|]. rewrite zlen_app.
  split; [lia|]. split.
  { destruct (Z.eq_dec (zlen o2) (cap - zlen o)); [left; lia|right].
    assert (zlen o2 = zlen (mk (eof m1))) by lia.
    apply (f_equal zlen) in M. rewrite zlen_app in M. assert (ML : zlen (mk e') = 0) by lia.
    destruct e'; try reflexivity; discriminate ML. }
  split. { intros X. rewrite <- EF. apply K1, X. }
  exists fs. split; [exact G|]. split; [|exact QE].
  rewrite <- EF, M.
  destruct (Z.eq_dec (cap - zlen o) 0) as [Y|Y].
  - rewrite (K0 Y) in M. rewrite (K0 Y). assert (o2 = []) by (apply (f_equal zlen) in M; rewrite zlen_app in M; apply zlen_0_nil; lia).
    subst o2. rewrite app_nil_r. cbn [app]. rewrite !app_assoc, OE. reflexivity.
  - destruct D as [D|(_ & _ & ->)]; [lia|]. cbn [app]. rewrite app_nil_r in OE. rewrite OE, !app_assoc. reflexivity.
Qed.

Definition sumcaps (caps : list nat) : Z := fold_right (fun c a => Z.of_nat c + a) 0 caps.
Lemma sumcaps_nonneg caps : 0 <= sumcaps caps.
Proof. unfold sumcaps. induction caps; cbn [fold_right]; lia. Qed.

Lemma run_close_done m : forall caps o m', eof m = EofDone -> run_close m caps = Some (o, m') -> m' = m.
Proof.
  induction caps as [|c caps IH]; intros o m' D; cbn [run_close].
  - intros H. congruence.
  - unfold serialize_close. rewrite D. cbn [is_done bind].
    destruct (run_close m caps) as [[oo mm]|] eqn:EE; [|discriminate].
    intros H. cbn [bind app] in H. injection H as <- <-. eapply IH; eauto.
Qed.
Lemma run_close_spec : forall caps m q p, inv m q p -> eofinv (eof m) q p ->
  exists o m' q' p', run_close m caps = Some (o, m') /\ inv m' q' p' /\ eofinv (eof m') q' p' /\
    (zlen o = sumcaps caps \/ eof m' = EofDone) /\
    exists fs, Forall frame_good fs /\ o ++ p' ++ mk (eof m') = p ++ enc fs ++ mk (eof m) /\
      forall s, strm s -> q s = payl s fs ++ q' s.
Proof.
  induction caps as [|c caps IH]; intros m q p I EI; cbn [run_close].
  { exists [], m, q, p. split; [reflexivity|]. split; [exact I|]. split; [exact EI|]. split; [left; reflexivity|].
    exists []. split; [constructor|]. split; reflexivity. }
  destruct (close_step m q p (Z.of_nat c) I EI ltac:(lia)) as (o & m1 & q1 & p1 & E & I1 & EI1 & L1 & X1 & R1 & fs & G & OE & QE).
  rewrite E. cbn [bind].
  destruct (IH m1 q1 p1 I1 EI1) as (o2 & m2 & q2 & p2 & E2 & I2 & EI2 & X2 & fs2 & G2 & OE2 & QE2).
  rewrite E2. cbn [bind]. exists (o ++ o2), m2, q2, p2. split; [reflexivity|]. split; [exact I2|]. split; [exact EI2|].
  split.
  { destruct X2 as [X2|X2]; [|right; exact X2]. destruct X1 as [X1|X1].
    - left. rewrite zlen_app, X1, X2. reflexivity.
    - right. rewrite (run_close_done _ _ _ _ X1 E2). exact X1. }
  exists (fs ++ fs2). split; [apply Forall_app; auto|]. split.
  2:{ intros s S. rewrite payl_app, <- app_assoc, <- (QE2 s S). apply QE, S. }
  rewrite <- app_assoc, OE2, enc_app.
  destruct EI1 as [EI1|(Z0' & Z1' & ->)].
  - rewrite EI1, (R1 EI1) in OE. rewrite !app_assoc in OE. apply app_inv_tail in OE. rewrite EI1, (R1 EI1).
    rewrite app_assoc, OE, <- !app_assoc. reflexivity.
  - assert (fs2 = []).
    { pose proof (QE2 0 ltac:(left; reflexivity)) as A0. pose proof (QE2 1 ltac:(right; reflexivity)) as A1.
      rewrite Z0' in A0. rewrite Z1' in A1. symmetry in A0, A1. apply app_eq_nil in A0, A1.
      apply no_frames; [exact G2|apply A0|apply A1]. }
    subst fs2. cbn [enc app] in *. rewrite OE, app_nil_r. reflexivity.
Qed.

(** ** The whole writer *)
Definition wr_of (s : Z) (ops : list wop) : list Z := written (if s =? 0 then Cmd else Lit) ops.
Lemma sid_strm s : strm (sid s).
Proof. destruct s; [left|right]; reflexivity. Qed.
Lemma run_writer_spec : forall ops m q p, inv m q p -> eof m = Running ->
  exists o m' q' p', run_writer m ops = Some (o, m') /\ inv m' q' p' /\ eof m' = Running /\
    exists fs, Forall frame_good fs /\ o ++ p' = p ++ enc fs /\
      forall s, strm s -> q s ++ wr_of s ops = payl s fs ++ q' s.
Proof.
  induction ops as [|op ops IH]; intros m q p I EI; cbn [run_writer].
  { exists [], m, q, p. split; [reflexivity|]. split; [exact I|]. split; [exact EI|]. exists [].
    split; [constructor|]. cbn [enc payl app]. rewrite app_nil_r. split; [reflexivity|]. intros s [->| ->]; apply app_nil_r. }
  destruct op as [s data|cap].
  - destruct (push_inv m q p (sid s) data I (sid_strm s)) as (m1 & E & I1 & EF). rewrite E. cbn [bind].
    destruct (IH m1 _ p I1 ltac:(congruence)) as (o & m' & q' & p' & E2 & I2 & EF2 & fs & G & OE & QE).
    exists o, m', q', p'. split; [exact E2|]. split; [exact I2|]. split; [exact EF2|]. exists fs. split; [exact G|]. split; [exact OE|].
    intros t T. rewrite <- (QE t T). unfold upd, wr_of.
    destruct s, T as [->| ->]; cbn [sid written]; zeqb; cbn [stream_eqb]; rewrite <- ?app_assoc; reflexivity.
  - destruct (serialize_spec m q p (Z.of_nat cap) I ltac:(lia)) as (o & m1 & q1 & p1 & E & S). rewrite E. cbn [bind].
    destruct S as (I1 & (fs & G & OE & QE) & _ & _ & EF & _).
    destruct (IH m1 q1 p1 I1 ltac:(congruence)) as (o2 & m2 & q2 & p2 & E2 & I2 & EF2 & fs2 & G2 & OE2 & QE2).
    rewrite E2. cbn [bind]. exists (o ++ o2), m2, q2, p2. split; [reflexivity|]. split; [exact I2|]. split; [exact EF2|].
    exists (fs ++ fs2). split; [apply Forall_app; auto|]. split.
    + rewrite enc_app, <- app_assoc, OE2, app_assoc, OE, <- app_assoc. reflexivity.
    + intros t T. rewrite payl_app, <- app_assoc, <- (QE2 t T), (QE t T), <- app_assoc. reflexivity.
Qed.

Lemma enc_len fs : Forall frame_good fs -> zlen (enc fs) <= 4 * (zlen (payl 0 fs) + zlen (payl 1 fs)).
Proof.
  induction 1 as [|f fs (S & F) G IH]; cbn [enc payl]; [rewrite zlen_nil; lia|].
  rewrite !zlen_app. apply frame_ok_len in F.
  destruct S as [E|E]; rewrite E in *; zeqb; change (zlen (@nil Z)) with 0; lia.
Qed.

Lemma is_eof_inv m q p : inv m q p -> eofinv (eof m) q p -> (is_eof m = true <-> eof m = EofDone).
Proof.
  intros I EI. unfold is_eof. split.
  - intros H. destruct (eof m); auto; cbn [is_done] in H; rewrite andb_false_r in H; discriminate.
  - intros H. rewrite H in *. destruct EI as [EI|(A & B & ->)]; [discriminate|].
    pose proof (buf_amount m q 0 I ltac:(left; reflexivity)) as A0. pose proof (buf_amount m q 1 I ltac:(right; reflexivity)) as A1.
    change (getb m 0) with (buf0 m) in A0. change (getb m 1) with (buf1 m) in A1. rewrite A, zlen_nil in A0. rewrite B, zlen_nil in A1.
    destruct (Z.eqb_spec (rd (buf0 m)) (wr (buf0 m))); [|lia]. destruct (Z.eqb_spec (rd (buf1 m)) (wr (buf1 m))); [|lia]. reflexivity.
Qed.

Theorem writer_total ops caps :
  exists o1 m1 o2 m2, run_writer mux_new ops = Some (o1, m1) /\ run_close m1 caps = Some (o2, m2) /\
    (is_eof m2 = true ->
       exists fs, Forall frame_good fs /\ o1 ++ o2 = enc fs ++ EOF_MARKER /\
         forall s, strm s -> wr_of s ops = payl s fs) /\
    (4 * (zlen (written Cmd ops) + zlen (written Lit ops)) + 3 <= sumcaps caps -> is_eof m2 = true).
Proof.
  destruct (run_writer_spec ops mux_new (fun _ => []) [] inv_new eq_refl) as (o1 & m1 & q1 & p1 & E1 & I1 & EF1 & f1 & G1 & OE1 & QE1).
  destruct (run_close_spec caps m1 q1 p1 I1 (or_introl EF1)) as (o2 & m2 & q2 & p2 & E2 & I2 & EI2 & X2 & f2 & G2 & OE2 & QE2).
  exists o1, m1, o2, m2. split; [exact E1|]. split; [exact E2|].
  assert (G : Forall frame_good (f1 ++ f2)) by (apply Forall_app; auto).
  assert (O : (o1 ++ o2) ++ p2 ++ mk (eof m2) = enc (f1 ++ f2) ++ EOF_MARKER).
  { rewrite <- app_assoc, OE2, enc_app, EF1. rewrite app_assoc, OE1. cbn [app]. rewrite <- app_assoc. reflexivity. }
  assert (Q : forall s, strm s -> wr_of s ops = payl s (f1 ++ f2) ++ q2 s).
  { intros s S. rewrite payl_app, <- app_assoc, <- (QE2 s S), <- (QE1 s S). reflexivity. }
  split.
  - intros D. apply (is_eof_inv m2 q2 p2 I2 EI2) in D. rewrite D in *. destruct EI2 as [EI2|(A & B & ->)]; [discriminate|].
    exists (f1 ++ f2). split; [exact G|]. cbn [mk app] in O. rewrite app_nil_r in O. split; [exact O|].
    intros s S. rewrite (Q s S). destruct S as [->| ->]; [rewrite A|rewrite B]; apply app_nil_r.
  - intros C. apply (is_eof_inv m2 q2 p2 I2 EI2). destruct X2 as [X2|X2]; [|exact X2].
    pose proof (enc_len _ G) as EL. pose proof (Q 0 ltac:(left; reflexivity)) as Q0. pose proof (Q 1 ltac:(right; reflexivity)) as Q1.
    change (wr_of 0 ops) with (written Cmd ops) in Q0. change (wr_of 1 ops) with (written Lit ops) in Q1.
    rewrite Q0, Q1 in C. rewrite !zlen_app in C. apply (f_equal zlen) in O. rewrite !zlen_app in O.
    change (zlen EOF_MARKER) with 3 in O.
    pose proof (zlen_nonneg (q2 0)). pose proof (zlen_nonneg (q2 1)). pose proof (zlen_nonneg p2). pose proof (zlen_nonneg o1).
    assert (ML : zlen (mk (eof m2)) <= 0) by lia.
    destruct (eof m2); try reflexivity; exfalso; apply ML; reflexivity.
Qed.
