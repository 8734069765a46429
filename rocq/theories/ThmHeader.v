(** Property theorems C13-C15 (file header and trailer). *)
From Verif Require Import Prelude ModelCrc SpecCrc ModelHeader SpecHeader ProofCrc ProofHeader.

Lemma choose_window_range opt : 10 <= choose_window opt <= 24.
Proof. unfold choose_window. destruct opt; lia. Qed.
Lemma choose_window_byte opt : byte (choose_window opt).
Proof. pose proof (choose_window_range opt). unfold byte. lia. Qed.

(** C13, writing: whatever the buffer sizes, the bytes are a prefix of one fixed
    16 byte header, success is reported once 16 bytes of room were offered, and
    the running checksum is that of the bytes written. *)
Theorem C13_header_written : forall opt caps,
  write_header_all 0 (choose_window opt) crc32c_init caps =
    (firstn (total_cap caps) (make_header (choose_window opt)),
     crc32c_update crc32c_init (firstn (total_cap caps) (make_header (choose_window opt))),
     (16 <=? total_cap caps)%nat).
Proof.
  intros opt caps.
  rewrite (write_header_all_ok _ (choose_window_byte opt) caps 0 crc32c_init ltac:(lia) ltac:(unfold crc32c_init; lia)).
  cbn [skipn Nat.add]. destruct caps; [reflexivity|now rewrite andb_true_r].
Qed.
Print Assumptions C13_header_written.

(** C13, reading back: however the header (followed by anything) is cut. *)
Theorem C13_header_roundtrip : forall opt pieces rest,
  concat pieces = make_header (choose_window opt) ++ rest ->
  parse_all hp_new pieces = (HOk (choose_window opt), 16%nat).
Proof.
  intros opt pieces rest E. rewrite (parse_all_ok pieces hp_new [] hp_new_inv). cbn [app length]. rewrite E.
  rewrite app_length, make_header_length.
  destruct (Nat.leb_spec 16 (16 + length rest)); [|lia].
  rewrite firstn_app, firstn_all2 by (rewrite make_header_length; lia). rewrite make_header_length, Nat.sub_diag, firstn_O, app_nil_r.
  replace (parse_header (make_header (choose_window opt))) with (HOk (choose_window opt)); [reflexivity|].
  symmetry. apply parse_header_ok; [apply make_header_length|]. pose proof (choose_window_range opt).
  repeat split; lia.
Qed.
Print Assumptions C13_header_roundtrip.
Example C13_example :
  write_header_all 0 (choose_window (Some 99)) crc32c_init [3; 0; 9; 7]%nat =
    ([255; 229; 140; 159; 0; 24; 0; 0; 0; 0; 0; 0; 0; 0; 0; 0], 3670302831, true) /\
  parse_all hp_new [[255]; [229; 140; 159; 0; 24; 0; 0; 0]; []; [0; 0; 0; 0; 0; 0; 0; 1; 2; 3]] = (HOk 24, 16%nat).
Proof. vm_compute. split; reflexivity. Qed.

(** C14.  Acceptance is exact, for every input however it is cut. *)
Theorem C14_header_acceptance : forall pieces ws,
  fst (parse_all hp_new pieces) = HOk ws <->
  (16 <= length (concat pieces))%nat /\ firstn 4 (concat pieces) = [255; 229; 140; 159] /\
  nth 5 (concat pieces) 0 = ws /\ 10 <= ws <= 24.
Proof.
  intros pieces ws. rewrite (parse_all_ok pieces hp_new [] hp_new_inv). cbn [app length].
  set (l := concat pieces). destruct (Nat.leb_spec 16 (length l)) as [G|G]; cbn [fst].
  - rewrite parse_header_ok by (rewrite firstn_length; lia).
    rewrite firstn_firstn. change (Nat.min 4 16) with 4%nat. change MAGIC_NUMBER with [255; 229; 140; 159].
    replace (nth 5 (firstn 16 l) 0) with (nth 5 l 0).
    + tauto.
    + rewrite <- (firstn_skipn 16 l) at 1. rewrite app_nth1; [reflexivity|]. rewrite firstn_length. lia.
  - split; [discriminate|]. intros (H & _). lia.
Qed.
Print Assumptions C14_header_acceptance.

(** ... and a rejected header is reported with the reason that applies. *)
Theorem C14_header_errors : forall h e, length h = 16%nat -> parse_header h = HErr e ->
  match e with
  | MagicNumberWrongA a b => a = nth 0 h 0 /\ b = nth 1 h 0 /\ firstn 2 h <> [255; 229]
  | MagicNumberWrongB a b => firstn 2 h = [255; 229] /\ a = nth 2 h 0 /\ b = nth 3 h 0 /\ [a; b] <> [140; 159]
  | BadWindowSize w => firstn 4 h = [255; 229; 140; 159] /\ w = nth 5 h 0 /\ ~ (10 <= w <= 24)
  end.
Proof. exact parse_header_err. Qed.
Print Assumptions C14_header_errors.
Example C14_example :
  parse_all hp_new [[255; 229]; [140; 159; 77; 25; 1; 1; 1; 1; 1; 1; 1; 1; 1; 1]] = (HErr (BadWindowSize 25), 16%nat).
Proof. vm_compute. reflexivity. Qed.

(** C15, writing. *)
Theorem C15_trailer_written : forall crc caps,
  write_trailer_all crc 0 caps = (firstn (total_cap caps) (trailer crc), (8 <=? total_cap caps)%nat).
Proof. exact (fun crc caps => write_trailer_all_ok crc caps 0 ltac:(lia)). Qed.
Print Assumptions C15_trailer_written.

(** C15, verification: success iff the first eight bytes after the end marker
    are the trailer (only its tail when verification is off); fewer bytes: needs
    more input; anything else is an error. *)
Theorem C15_trailer_verified : forall skip crc pieces,
  let got := firstn 8 (concat pieces) in
  let verdict := process_eof skip crc (read_trailer_all pieces) in
  (verdict = EofSuccess <->
     length got = 8%nat /\ if skip then skipn 4 got = [97; 110; 115; 126] else got = trailer crc) /\
  (verdict = EofNeedsMoreInput <-> (length (concat pieces) < 8)%nat).
Proof.
  intros skip crc pieces got verdict.
  assert (E : read_trailer_all pieces = got) by exact (read_trailer_ok pieces [] ltac:(cbn; lia)).
  unfold verdict. rewrite E. split; [apply process_eof_success|].
  rewrite process_eof_needs. unfold got. rewrite firstn_length. lia.
Qed.
Print Assumptions C15_trailer_verified.
Example C15_example :
  process_eof false 3808858755 (read_trailer_all [[131; 146]; []; [6; 227; 97; 110; 115]; [126; 9; 9]]) = EofSuccess /\
  process_eof false 3808858755 (read_trailer_all [[131; 146; 6; 226; 97; 110; 115; 126]]) = EofBadChecksum 227 226 /\
  process_eof true 3808858755 (read_trailer_all [[131; 146; 6; 226; 97; 110; 115; 126]]) = EofSuccess.
Proof. vm_compute. repeat split; reflexivity. Qed.
