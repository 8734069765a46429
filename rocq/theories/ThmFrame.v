(** C86: the framing of the two streams. *)
From Verif Require Import Prelude ProofList ModelMux SpecMux ProofZlist ProofMux ProofMuxW ProofMuxR ThmMux ModelCrc SpecCrc ModelHeader SpecHeader SpecFile SpecFrame.

Lemma frame_head s n h : frame_ok (sid s) n h -> head s n h.
Proof.
  intros [(lo & hi & L & H & -> & N)|[(-> & N)|[(-> & N)|(-> & N)]]].
  - unfold byte in *. replace lo with ((n - 1) mod 256) by lia. replace hi with ((n - 1) / 256) by lia. apply head_any. lia.
  - apply head_4096; exact N.
  - apply head_16384; exact N.
  - apply head_65536; exact N.
Qed.
Lemma head_frame s n h : head s n h -> frame_ok (sid s) n h.
Proof.
  intros [N|N|N|N]; unfold frame_ok; [left|right; left; auto|right; right; left; auto|right; right; right; auto].
  exists ((n - 1) mod 256), ((n - 1) / 256). unfold byte. repeat split; lia.
Qed.
Lemma frames_framed fs : Forall frame_good fs -> framed (payl 0 fs) (payl 1 fs) (enc fs ++ EOF_MARKER).
Proof.
  induction 1 as [|f fs (S & F) _ IH]; [exact framed_end|]. cbn [payl enc]. rewrite <- !app_assoc.
  destruct f as [s h data]. cbn [f_s f_hdr f_data] in *. destruct S as [-> | ->].
  - apply framed_cmd; [apply frame_head; exact F|exact IH].
  - apply framed_lit; [apply frame_head; exact F|exact IH].
Qed.
Lemma framed_frames c l b : framed c l b -> exists fs, Forall frame_good fs /\ payl 0 fs = c /\ payl 1 fs = l /\ enc fs ++ EOF_MARKER = b.
Proof.
  induction 1 as [|h data c l b H _ (fs & G & <- & <- & <-)|h data c l b H _ (fs & G & <- & <- & <-)]; [exists []; repeat split; constructor| |].
  - exists (FR 0 h data :: fs). split; [constructor; [split; [left; reflexivity|exact (head_frame Cmd _ _ H)]|exact G]|]. cbn [payl enc f_s f_hdr f_data]. rewrite <- !app_assoc. repeat split.
  - exists (FR 1 h data :: fs). split; [constructor; [split; [right; reflexivity|exact (head_frame Lit _ _ H)]|exact G]|]. cbn [payl enc f_s f_hdr f_data]. rewrite <- !app_assoc. repeat split.
Qed.

(** C86, the writer: whatever is written and however output is asked for, the finished file is
    framed as the format says. *)
Theorem C86_writer : forall ops caps o1 m1 o2 m2,
  run_writer mux_new ops = Some (o1, m1) -> run_close m1 caps = Some (o2, m2) -> is_eof m2 = true ->
  framed (written Cmd ops) (written Lit ops) (o1 ++ o2).
Proof.
  intros ops caps o1 m1 o2 m2 E1 E2 D. destruct (writer_total ops caps) as (x1 & y1 & x2 & y2 & X1 & X2 & X3 & _).
  rewrite E1 in X1. injection X1 as <- <-. rewrite E2 in X2. injection X2 as <- <-. destruct (X3 D) as (fs & G & O & Q).
  pose proof (Q 0 ltac:(left; reflexivity)) as Q0. pose proof (Q 1 ltac:(right; reflexivity)) as Q1.
  change (wr_of 0 ops) with (written Cmd ops) in Q0. change (wr_of 1 ops) with (written Lit ops) in Q1. rewrite Q0, Q1, O. apply frames_framed. exact G.
Qed.
Print Assumptions C86_writer.

(** C86, the reader: bytes framed by hand, with chunks cut and ordered in any way, are taken
    apart into the two streams, in whatever pieces they arrive; what follows is left alone. *)
Theorem C86_reader : forall c l b rops tail,
  framed c l b -> bytes c -> bytes l -> bytes tail -> fed rops = b ++ tail ->
  exists r, run_reader reader_new rops = Some r /\ delivered r Cmd = c /\ delivered r Lit = l /\ eof (rmux r) = EofDone /\ carry r = tail.
Proof.
  intros c l b rops tail H BC BL BT F. destruct (framed_frames c l b H) as (fs & G & <- & <- & <-).
  assert (BF : bytes (fed rops)).
  { rewrite F. apply bytes_app; [|exact BT]. apply bytes_app; [|repeat constructor; unfold byte; lia]. apply enc_bytes; assumption. }
  destruct (reader_total rops BF) as (r & d & D0 & D1 & cr & ER & (R & S & A0 & A1 & C) & DR).
  rewrite F, (drun_closed fs tail G) in DR. injection DR as <- <- <- <-.
  exists r. split; [exact ER|]. split; [exact A0|]. split; [exact A1|]. split; [|exact C]. unfold st in S. injection S as _ S. exact S.
Qed.
Print Assumptions C86_reader.

(** C86: framed bytes tell the two streams and their own end. *)
Theorem C86_unambiguous : forall c1 l1 b1 t1 c2 l2 b2 t2,
  framed c1 l1 b1 -> framed c2 l2 b2 -> b1 ++ t1 = b2 ++ t2 -> c1 = c2 /\ l1 = l2 /\ b1 = b2 /\ t1 = t2.
Proof.
  intros c1 l1 b1 t1 c2 l2 b2 t2 H1 H2 E. destruct (framed_frames _ _ _ H1) as (f1 & G1 & <- & <- & <-). destruct (framed_frames _ _ _ H2) as (f2 & G2 & <- & <- & <-).
  pose proof (drun_closed f1 t1 G1) as D1. rewrite E, (drun_closed f2 t2 G2) in D1.
  assert (T : t2 = t1) by congruence. subst t2. apply app_inv_tail in E. split; [|split; [|split; [exact E|reflexivity]]]; congruence.
Qed.
Print Assumptions C86_unambiguous.

(** C86, files: the files the compressors of C27, C46 and C61 make and the decompressors read
    are exactly the framed streams between header and trailer. *)
Lemma framing_framed a b W : framing a b W <-> framed a b W.
Proof.
  split.
  - induction 1 as [|s lo hi d a b W L H N _ IH|s j d a b W J N _ IH]; [exact framed_end| |].
    + assert (F : head s (Z.of_nat (length d)) [sid s; lo; hi]). { apply frame_head. left. exists lo, hi. unfold zlen in N. auto. }
      destruct s; cbn [payload stream_eqb app]; [apply (framed_cmd [_; lo; hi])|apply (framed_lit [_; lo; hi])]; assumption.
    + assert (F : head s (Z.of_nat (length d)) [sid s + 16 * j]). { unfold zlen in N. assert (C : j = 1 \/ j = 2 \/ j = 3) by lia. destruct C as [->|[->| ->]]; [apply head_4096|apply head_16384|apply head_65536]; exact N. }
      destruct s; cbn [payload stream_eqb]; [apply (framed_cmd [_])|apply (framed_lit [_])]; assumption.
  - assert (P : forall s h d a b W, head s (Z.of_nat (length d)) h -> framing a b W -> framing (payload s Cmd d a) (payload s Lit d b) (h ++ d ++ W)).
    { clear. intros s h d a b W [N|N|N|N] F.
      - apply frame_short; [unfold byte; lia|unfold byte; lia|unfold zlen; lia|exact F].
      - apply (frame_long s 1); [lia|exact N|exact F].
      - apply (frame_long s 2); [lia|exact N|exact F].
      - apply (frame_long s 3); [lia|exact N|exact F]. }
    induction 1 as [|h d c l W H _ IH|h d c l W H _ IH]; [exact frame_end|exact (P Cmd h d c l W H IH)|exact (P Lit h d c l W H IH)].
Qed.
Theorem C86_file : forall ws a b T, bytes a -> bytes b ->
  (is_file ws a b T <-> exists W, framed a b W /\ T = make_header ws ++ W ++ trailer (crc32c 0 (make_header ws ++ W))).
Proof.
  intros ws a b T BA BB. split.
  - intros (W & F & _ & E). exists W. split; [apply framing_framed; exact F|exact E].
  - intros (W & F & E). exists W. split; [apply framing_framed; exact F|]. split; [|exact E].
    intros rops tail BT FD. exact (C86_reader a b W rops tail F BA BB BT FD).
Qed.
Print Assumptions C86_file.

(** "ab" and "c" of the commands around "xyz" of the literals. *)
Example C86_case :
  framed [97; 98; 99] [120; 121; 122] [0; 1; 0; 97; 98;  1; 2; 0; 120; 121; 122;  0; 0; 0; 99;  255; 254; 255] /\
  exists r, run_reader reader_new [Feed [0; 1]; Feed [0; 97; 98; 1; 2]; Take Cmd 1; Feed [0; 120; 121; 122; 0; 0; 0; 99; 255]; Feed [254; 255; 7]] = Some r /\
    delivered r Cmd = [97; 98; 99] /\ delivered r Lit = [120; 121; 122] /\ carry r = [7].
Proof.
  assert (F : framed [97; 98; 99] [120; 121; 122] [0; 1; 0; 97; 98;  1; 2; 0; 120; 121; 122;  0; 0; 0; 99;  255; 254; 255]).
  { refine (framed_cmd [0; 1; 0] [97; 98] [99] _ _ _ _). { apply (head_any Cmd 2). lia. }
    refine (framed_lit [1; 2; 0] [120; 121; 122] _ [] _ _ _). { apply (head_any Lit 3). lia. }
    refine (framed_cmd [0; 0; 0] [99] [] _ _ _ framed_end). apply (head_any Cmd 1). lia. }
  split; [exact F|].
  destruct (C86_reader _ _ _ [Feed [0; 1]; Feed [0; 97; 98; 1; 2]; Take Cmd 1; Feed [0; 120; 121; 122; 0; 0; 0; 99; 255]; Feed [254; 255; 7]] [7] F) as (r & A & B & C & _ & E).
  - repeat constructor; unfold byte; lia.
  - repeat constructor; unfold byte; lia.
  - repeat constructor; unfold byte; lia.
  - reflexivity.
  - exists r. auto.
Qed.
