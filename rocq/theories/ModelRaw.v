(** Model of src/raw_to_cmd/mod.rs: turning raw input into literal commands, and of the
    loops of DivansCompressor::encode/flush that call it.  The codec behind it is taken
    to accept every command it is given (a full output buffer freezes the commands and
    hands them over later; that part is C36). *)
From Verif Require Import Prelude ModelMux ModelCmd ModelRecode.

(** RawToCmdState, src/raw_to_cmd/mod.rs:23-30 (the hash_match member is never read) *)
Record raws := RAW { rring : list Z; rdi : Z; roi : Z; produced_header : bool }.
(** new, src/raw_to_cmd/mod.rs:33-41 *)
Definition raw_new (rb : list Z) : raws := RAW rb 0 0 false.
(** ring_buffer_full, src/raw_to_cmd/mod.rs:52-54 *)
Definition ring_full (s : raws) : bool := (rdi s =? zlen (rring s)) || (rdi s + 1 =? roi s).

(** the second half of flush, src/raw_to_cmd/mod.rs:143-179; [cap] = free command slots *)
Definition raw_flush2 (s : raws) (cap : Z) : option (ores * list command * raws) :=
  let len := zlen (rring s) in
  let? '(cs, s) :=
    if rdi s <? roi s then
      let max_copy := len - roi s in
      let? cs := if negb (max_copy =? 0) then let? d := slice (rring s) (roi s) max_copy in Some [Literal d false] else Some [] in
      Some (cs, RAW (rring s) (if rdi s =? len then 0 else rdi s) 0 (produced_header s))
    else Some ([], s) in
  if negb (rdi s =? roi s) then
    if zlen cs =? cap then Some (ONeedsMoreOutput, cs, s) else
    let? d := slice (rring s) (roi s) (rdi s - roi s) in
    assert (roi s <=? len) (assert (rdi s <=? len) (
    Some (OSuccess, cs ++ [Literal d false], RAW (rring s) (rdi s) (rdi s) (produced_header s))))
  else Some (OSuccess, cs, s).
(** flush, src/raw_to_cmd/mod.rs:105-181.  [pm0] is the default prediction mode command
    built at lines 117-135 (its layout constants belong to the brotli crate). *)
Definition raw_flush (pm0 : predmode) (s : raws) (cap : Z) : option (ores * list command * raws) :=
  if cap =? 0 then Some (ONeedsMoreOutput, [], s) else
  if negb (produced_header s) then
    let s := RAW (rring s) (rdi s) (roi s) true in
    if cap =? 1 then Some (ONeedsMoreOutput, [PredictionMode pm0], s) else
    let? '(res, cs, s) := raw_flush2 s (cap - 1) in Some (res, PredictionMode pm0 :: cs, s)
  else raw_flush2 s cap.

Inductive sres := SNeedsMoreInput | SNeedsMoreOutput.
(** stream, src/raw_to_cmd/mod.rs:55-104; returns the result, the commands, the state
    and the unread input *)
Definition raw_stream (pm0 : predmode) (s : raws) (input : list Z) (cap : Z) : option (sres * list command * raws * list Z) :=
  let len := zlen (rring s) in
  let '(s, input) :=
    if roi s <=? rdi s then
      let n := Z.min (len - rdi s) (zlen input) in
      (RAW (put_at (rring s) (rdi s) (zfirst n input)) (if negb (roi s =? 0) then 0 else rdi s + n) (roi s) (produced_header s), zskip n input)
    else (s, input) in
  let '(s, input) :=
    if rdi s <? roi s then
      let n := Z.min (roi s - 1 - rdi s) (zlen input) in
      (RAW (put_at (rring s) (rdi s) (zfirst n input)) (rdi s + n) (roi s) (produced_header s), zskip n input)
    else (s, input) in
  let fin cs s := assert (zlen input =? 0) (Some (SNeedsMoreInput, cs, s, input)) in
  if (0 <? cap) && ring_full s then
    let? '(res, cs, s) := raw_flush pm0 s cap in
    match res with
    | OSuccess => if negb (zlen input =? 0) then Some (SNeedsMoreOutput, cs, s, input) else fin cs s
    | _ => Some (SNeedsMoreOutput, cs, s, input)
    end
  else if cap =? 0 then Some (SNeedsMoreOutput, [], s, input)
  else fin [] s.

(** COMPRESSOR_CMD_BUFFER_SIZE, src/divans_compressor.rs:53 *)
Definition CMD_BUFFER : Z := 16.
(** the loop of DivansCompressor::encode, src/divans_compressor.rs:296-337 *)
Fixpoint raw_encode (fuel : nat) (pm0 : predmode) (s : raws) (input : list Z) : option (list command * raws) :=
  match fuel with
  | O => None
  | S fuel =>
      let? '(res, cs, s, input) := raw_stream pm0 s input CMD_BUFFER in
      match res with
      | SNeedsMoreInput => Some (cs, s)
      | SNeedsMoreOutput => let? '(cs2, s) := raw_encode fuel pm0 s input in Some (cs ++ cs2, s)
      end
  end.
(** the loop of DivansCompressor::flush, src/divans_compressor.rs:378-424 *)
Fixpoint raw_finish (fuel : nat) (pm0 : predmode) (s : raws) : option (list command * raws) :=
  match fuel with
  | O => None
  | S fuel =>
      let? '(res, cs, s) := raw_flush pm0 s CMD_BUFFER in
      match res with
      | OSuccess => Some (cs, s)
      | _ => let? '(cs2, s) := raw_finish fuel pm0 s in Some (cs ++ cs2, s)
      end
  end.
