(** Property theorems C09, C10 and the multiplexer half of C28. *)
From Verif Require Import Prelude ProofList ModelMux SpecMux ProofZlist ProofMux ProofMuxW ProofMuxR.

Lemma enc_bytes fs : Forall frame_good fs -> bytes (payl 0 fs) -> bytes (payl 1 fs) -> bytes (enc fs).
Proof.
  unfold bytes. induction 1 as [|f fs (S & F) G IH]; cbn [enc payl]; intros B0 B1; [constructor|].
  apply Forall_app in B0, B1. destruct B0 as (A0 & B0), B1 as (A1 & B1).
  apply Forall_app. split; [|apply Forall_app; split; [|auto]].
  - unfold byte in *. destruct F as [(lo & hi & L & H & -> & _)|[(-> & _)|[(-> & _)|(-> & _)]]]; unfold byte in *;
      repeat constructor; destruct S; lia.
  - destruct S as [E|E]; rewrite E in *; assumption.
Qed.

(** C09.  Whatever the writer interleaves (writes of any size to either stream,
    requests for any amount of output, closing into any sequence of buffers), once it
    reports the end of the file, a reader that is fed the bytes in any pieces and takes
    data in any portions gets back exactly the two streams, sees the end of the file
    and leaves the bytes that follow untouched. *)
Theorem C09_mux_roundtrip : forall ops caps o1 m1 o2 m2,
  bytes (written Cmd ops) -> bytes (written Lit ops) ->
  run_writer mux_new ops = Some (o1, m1) -> run_close m1 caps = Some (o2, m2) -> is_eof m2 = true ->
  forall rops tail, bytes tail -> fed rops = (o1 ++ o2) ++ tail ->
  exists r, run_reader reader_new rops = Some r /\ (forall s, delivered r s = written s ops) /\
    eof (rmux r) = EofDone /\ carry r = tail.
Proof.
  intros ops caps o1 m1 o2 m2 B0 B1 E1 E2 D rops tail BT F.
  destruct (writer_total ops caps) as (x1 & y1 & x2 & y2 & X1 & X2 & X3 & _).
  rewrite E1 in X1. injection X1 as <- <-. rewrite E2 in X2. injection X2 as <- <-.
  destruct (X3 D) as (fs & G & O & Q).
  pose proof (Q 0 ltac:(left; reflexivity)) as Q0. pose proof (Q 1 ltac:(right; reflexivity)) as Q1.
  change (wr_of 0 ops) with (written Cmd ops) in Q0. change (wr_of 1 ops) with (written Lit ops) in Q1.
  assert (BF : bytes (fed rops)).
  { rewrite F, O. apply bytes_app; [|exact BT]. apply bytes_app; [|repeat constructor; unfold byte; lia].
    apply enc_bytes; [exact G|rewrite <- Q0; exact B0|rewrite <- Q1; exact B1]. }
  destruct (reader_total rops BF) as (r & d & D0 & D1 & c & ER & (R & S & A0 & A1 & C) & DR).
  rewrite F, O, (drun_closed fs tail G) in DR. injection DR as <- <- <- <-.
  exists r. split; [exact ER|]. split; [|split; [|exact C]].
  - intros [|]; congruence.
  - unfold st in S. injection S as _ S. exact S.
Qed.
Print Assumptions C09_mux_roundtrip.

(** C09, writer side: the writer never panics, and closing reaches the end of the file
    once enough output room has been offered, in pieces of any sizes. *)
Theorem C09_mux_writer_completes : forall ops caps,
  exists o1 m1 o2 m2, run_writer mux_new ops = Some (o1, m1) /\ run_close m1 caps = Some (o2, m2) /\
    (4 * (length (written Cmd ops) + length (written Lit ops)) + 3 <= list_sum caps -> is_eof m2 = true)%nat.
Proof.
  intros ops caps. destruct (writer_total ops caps) as (o1 & m1 & o2 & m2 & E1 & E2 & _ & L).
  exists o1, m1, o2, m2. split; [exact E1|]. split; [exact E2|]. intros H. apply L.
  assert (S : sumcaps caps = Z.of_nat (list_sum caps)).
  { clear. unfold list_sum. induction caps as [|c caps IH]; [reflexivity|]. unfold sumcaps in *. cbn [fold_right]. lia. }
  rewrite S. unfold zlen. lia.
Qed.
Print Assumptions C09_mux_writer_completes.
(** interleaved writes, a two byte output request in mid-stream, one byte close calls,
    single byte feeds *)
Example C09_example :
  let ops := [Write Cmd [7; 8]; Linearize 2; Write Lit [255; 254; 255]; Write Cmd [9]] in
  match run_writer mux_new ops with
  | Some (o1, m1) =>
      match run_close m1 (repeat 1%nat 20) with
      | Some (o2, m2) => is_eof m2 = true /\ o1 ++ o2 = [0; 2; 0; 7; 8; 9; 1; 2; 0; 255; 254; 255; 255; 254; 255] /\
          match run_reader reader_new (map (fun b => Feed [b]) (o1 ++ o2 ++ [1])) with
          | Some r => delivered r Lit = [255; 254; 255] /\ carry r = [1]
          | None => False
          end
      | None => False
      end
  | None => False
  end.
Proof. vm_compute. repeat split. Qed.

(** C10.  On any bytes at all, how the input is cut into pieces and when data is taken
    out makes no difference to what is delivered, to the end-of-file state or to which
    bytes remain unaccepted. *)
Theorem C10_demux_split_independent : forall rops, bytes (fed rops) ->
  exists r r1, run_reader reader_new rops = Some r /\ run_reader reader_new [Feed (fed rops)] = Some r1 /\
    (forall s, delivered r s = delivered r1 s) /\ eof (rmux r) = eof (rmux r1) /\ carry r = carry r1.
Proof.
  intros rops B. destruct (reader_total rops B) as (r & d & D0 & D1 & c & ER & (_ & S & A0 & A1 & C) & DR).
  assert (F1 : fed [Feed (fed rops)] = fed rops) by (cbn [fed]; apply app_nil_r).
  destruct (reader_total [Feed (fed rops)]) as (r' & d' & D0' & D1' & c' & ER' & (_ & S' & A0' & A1' & C') & DR').
  { rewrite F1. exact B. }
  rewrite F1, DR in DR'. injection DR' as <- <- <- <-.
  exists r, r'. split; [exact ER|]. split; [exact ER'|]. split; [intros [|]; congruence|]. split; [|congruence].
  rewrite <- S in S'. unfold st in S'. injection S' as _ S'. congruence.
Qed.
Print Assumptions C10_demux_split_independent.
(** a malformed input: a chunk header whose length wraps to zero, then a chunk split
    across feeds, then a marker that is not completed *)
Example C10_example :
  match run_reader reader_new [Feed [240; 0]; Feed [1]; Take Cmd 5; Feed [0; 7; 8; 255]; Take Cmd 1; Feed [255; 3]] with
  | Some r => delivered r Cmd = [7; 8] /\ carry r = [255; 3] /\ eof (rmux r) = EofStart
  | None => False
  end.
Proof. vm_compute. repeat split. Qed.

(** C28 at this layer.  The framing itself does depend on the output buffer sizes ... *)
Theorem C28_mux_bytes_refuted :
  ~ (forall ops1 ops2 caps o1 m1 x1 y1 o2 m2 x2 y2,
      filter (fun o => match o with Write _ _ => true | _ => false end) ops1 =
      filter (fun o => match o with Write _ _ => true | _ => false end) ops2 ->
      run_writer mux_new ops1 = Some (o1, m1) -> run_close m1 caps = Some (x1, y1) -> is_eof y1 = true ->
      run_writer mux_new ops2 = Some (o2, m2) -> run_close m2 caps = Some (x2, y2) -> is_eof y2 = true ->
      o1 ++ x1 = o2 ++ x2).
Proof.
  intros H.
  set (a := Write Cmd (repeat 0 (Z.to_nat 4096))). set (b := Write Cmd [0]).
  set (ops1 := [a; Linearize 9; b]). set (ops2 := [a; Linearize 0; b]). set (caps := [Z.to_nat 10000]).
  assert (X : exists o1 m1 x1 y1 o2 m2 x2 y2,
    run_writer mux_new ops1 = Some (o1, m1) /\ run_close m1 caps = Some (x1, y1) /\ is_eof y1 = true /\
    run_writer mux_new ops2 = Some (o2, m2) /\ run_close m2 caps = Some (x2, y2) /\ is_eof y2 = true /\
    hd 0 (o1 ++ x1) = 16 /\ hd 0 (o2 ++ x2) = 0).
  { destruct (writer_total ops1 caps) as (o1 & m1 & x1 & y1 & A1 & A2 & _).
    destruct (writer_total ops2 caps) as (o2 & m2 & x2 & y2 & B1 & B2 & _).
    exists o1, m1, x1, y1, o2, m2, x2, y2.
    assert (T : match run_writer mux_new ops1 with
                | Some (o, m) => match run_close m caps with Some (x, y) => is_eof y && (hd 0 (o ++ x) =? 16) | None => false end
                | None => false end = true) by (vm_compute; reflexivity).
    assert (U : match run_writer mux_new ops2 with
                | Some (o, m) => match run_close m caps with Some (x, y) => is_eof y && (hd 0 (o ++ x) =? 0) | None => false end
                | None => false end = true) by (vm_compute; reflexivity).
    rewrite A1, A2 in T. rewrite B1, B2 in U. apply andb_prop in T, U. destruct T as (T1 & T2), U as (U1 & U2).
    apply Z.eqb_eq in T2, U2. auto 10. }
  destruct X as (o1 & m1 & x1 & y1 & o2 & m2 & x2 & y2 & A1 & A2 & A3 & B1 & B2 & B3 & H1 & H2).
  rewrite (H ops1 ops2 caps o1 m1 x1 y1 o2 m2 x2 y2 eq_refl A1 A2 A3 B1 B2 B3) in H1.
  rewrite H2 in H1. discriminate H1.
Qed.
Print Assumptions C28_mux_bytes_refuted.

(** ... but what comes out of the reader does not. *)
Theorem C28_mux_streams_independent : forall ops1 ops2 caps1 caps2 o1 m1 x1 y1 o2 m2 x2 y2 rops1 rops2 r1 r2,
  (forall s, written s ops1 = written s ops2) -> bytes (written Cmd ops1) -> bytes (written Lit ops1) ->
  run_writer mux_new ops1 = Some (o1, m1) -> run_close m1 caps1 = Some (x1, y1) -> is_eof y1 = true ->
  run_writer mux_new ops2 = Some (o2, m2) -> run_close m2 caps2 = Some (x2, y2) -> is_eof y2 = true ->
  fed rops1 = o1 ++ x1 -> fed rops2 = o2 ++ x2 ->
  run_reader reader_new rops1 = Some r1 -> run_reader reader_new rops2 = Some r2 ->
  forall s, delivered r1 s = delivered r2 s.
Proof.
  intros ops1 ops2 caps1 caps2 o1 m1 x1 y1 o2 m2 x2 y2 rops1 rops2 r1 r2 W B0 B1 A1 A2 A3 C1 C2 C3 F1 F2 R1 R2 s.
  assert (BN : bytes []) by constructor.
  destruct (C09_mux_roundtrip ops1 caps1 o1 m1 x1 y1 B0 B1 A1 A2 A3 rops1 [] BN) as (r & E & D & _).
  { rewrite app_nil_r. exact F1. }
  rewrite (W Cmd) in B0. rewrite (W Lit) in B1.
  destruct (C09_mux_roundtrip ops2 caps2 o2 m2 x2 y2 B0 B1 C1 C2 C3 rops2 [] BN) as (r' & E' & D' & _).
  { rewrite app_nil_r. exact F2. }
  rewrite R1 in E. injection E as <-. rewrite R2 in E'. injection E' as <-. rewrite D, D'. apply W.
Qed.
Print Assumptions C28_mux_streams_independent.
