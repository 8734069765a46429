(** Model of the file header (src/divans_compressor.rs, src/divans_decompressor.rs)
    and of the 8 byte trailer (src/codec/mod.rs, src/codec/decoder.rs). *)
From Verif Require Import Prelude ModelCrc.

(** HEADER_LENGTH, MAGIC_NUMBER, src/interface.rs:163-164 *)
Definition HEADER_LENGTH : nat := 16.
Definition MAGIC_NUMBER : list Z := [255; 229; 140; 159].

(** Window size chosen by the compressor factory, src/divans_compressor.rs:90
    ([None]: option not given) *)
Definition choose_window (opt : option Z) : Z :=
  Z.min 24 (Z.max 10 (match opt with Some w => w | None => 22 end)).

(** make_header, src/divans_compressor.rs:126-131 *)
Definition make_header (window_size : Z) : list Z :=
  MAGIC_NUMBER ++ [0; window_size] ++ repeat 0 10.

Inductive out_result := OSuccess | ONeedsMoreOutput.

(** write_header, src/divans_compressor.rs:150-174.  [avail] is the free space in
    the caller's buffer; returns the bytes stored, the new header_progress, the
    new running checksum and the result. *)
Definition write_header (header_progress : nat) (window_size : Z) (avail : nat) (crc : Z)
  : list Z * nat * Z * out_result :=
  if (avail + header_progress <? HEADER_LENGTH)%nat then
    let to_write := firstn avail (skipn header_progress (make_header window_size)) in
    (to_write, (header_progress + avail)%nat, crc32c_update crc to_write, ONeedsMoreOutput)
  else
    let to_write := skipn header_progress (make_header window_size) in
    (to_write, HEADER_LENGTH, crc32c_update crc to_write, OSuccess).

(** Errors of parse_header, src/interface.rs:28-64 (subset) *)
Inductive hdr_error := MagicNumberWrongA (a b : Z) | MagicNumberWrongB (a b : Z) | BadWindowSize (w : Z).
Inductive hdr_result := HNeedsMoreInput | HErr (e : hdr_error) | HOk (window : Z).

(** parse_header, src/divans_decompressor.rs:38-52 *)
Definition parse_header (h : list Z) : hdr_result :=
  let at_ i := nth i h 0 in
  let m i := nth i MAGIC_NUMBER 0 in
  if negb (at_ 0%nat =? m 0%nat) || negb (at_ 1%nat =? m 1%nat) then HErr (MagicNumberWrongA (at_ 0%nat) (at_ 1%nat))
  else if negb (at_ 2%nat =? m 2%nat) || negb (at_ 3%nat =? m 3%nat) then HErr (MagicNumberWrongB (at_ 2%nat) (at_ 3%nat))
  else let window_size := at_ 5%nat in
  if (window_size <? 10) || (25 <=? window_size) then HErr (BadWindowSize window_size)
  else HOk window_size.

(** HeaderParser { header, read_offset }, src/divans_decompressor.rs:22-33 *)
Record hdr_parser := { hp_header : list Z; hp_read_offset : nat }.
(** src/divans_decompressor.rs (new): zeroed array *)
Definition hp_new : hdr_parser := {| hp_header := repeat 0 HEADER_LENGTH; hp_read_offset := 0 |}.
(** overwrite [length src] entries of [dst] from [off] (clone_from_slice) *)
Definition overwrite (dst : list Z) (off : nat) (src : list Z) : list Z :=
  firstn off dst ++ src ++ skipn (off + length src) dst.
(** HeaderParser::decode, src/divans_decompressor.rs:53-81; [input] is the part of
    the caller's buffer after *input_offset; returns state, consumed, result *)
Definition hp_decode (p : hdr_parser) (input : list Z) : hdr_parser * nat * hdr_result :=
  let remaining := length input in
  let header_left := (length (hp_header p) - hp_read_offset p)%nat in
  if (header_left <=? remaining)%nat then
    let h := overwrite (hp_header p) (hp_read_offset p) (firstn header_left input) in
    ({| hp_header := h; hp_read_offset := hp_read_offset p |}, header_left, parse_header h)
  else
    ({| hp_header := overwrite (hp_header p) (hp_read_offset p) input;
        hp_read_offset := hp_read_offset p + remaining |}, remaining, HNeedsMoreInput).

(** The trailer array, src/codec/mod.rs:532-539 and src/codec/decoder.rs:196-203 *)
Definition checksum_bytes (crc : Z) : list Z :=
  [as_u8 crc; as_u8 (Z.shiftr crc 8); as_u8 (Z.shiftr crc 16); as_u8 (Z.shiftr crc 24); 97; 110; 115; 126].
(** CHECKSUM_LENGTH, src/codec/mod.rs *)
Definition CHECKSUM_LENGTH : nat := 8.

(** state WriteChecksum(count), src/codec/mod.rs:514-553 *)
Definition write_checksum (crc : Z) (count : nat) (avail : nat) : list Z * nat * out_result :=
  let bytes_needed := (CHECKSUM_LENGTH - count)%nat in
  let count_to_copy := Nat.min avail bytes_needed in
  let out := firstn count_to_copy (skipn count (checksum_bytes crc)) in
  (out, (count + count_to_copy)%nat, if (bytes_needed <=? avail)%nat then OSuccess else ONeedsMoreOutput).

(** The trailer part of decode_process_input, src/codec/decoder.rs:135-143:
    [got] are the trailer bytes received so far (deserialized_crc[..count]) *)
Definition read_trailer (got input : list Z) : list Z * nat :=
  let amt := Nat.min (length input) (8 - length got) in
  (got ++ firstn amt input, amt).

Inductive eof_result := EofNeedsMoreInput | EofBadChecksum (expected found : Z) | EofSuccess.
(** the comparison loop of process_eof, src/codec/decoder.rs:204-211 *)
Fixpoint compare_trailer (skip : bool) (index : nat) (chk fil : list Z) : eof_result :=
  match chk, fil with
  | c :: chk, f :: fil =>
      if negb (c =? f) && ((4 <=? index)%nat || negb skip) then EofBadChecksum c f
      else compare_trailer skip (S index) chk fil
  | _, _ => EofSuccess
  end.
(** process_eof after the recoder flush succeeded, src/codec/decoder.rs:192-213 *)
Definition process_eof (skip_checksum : bool) (crc : Z) (got : list Z) : eof_result :=
  if negb (Nat.eqb (length got) 8) then EofNeedsMoreInput
  else compare_trailer skip_checksum 0 (checksum_bytes crc) got.
