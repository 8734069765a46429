(** Model of src/mux.rs: the two-stream multiplexer / demultiplexer.
    Memory is explicit (the header of a chunk is written in place in front of the
    data); allocation hands out zeroed memory.  Sizes are unbounded integers (usize
    overflow is not modelled); [None] is a panic. *)
From Verif Require Import Prelude.

Definition zlen {A} (l : list A) : Z := Z.of_nat (length l).
Definition zfirst {A} (n : Z) (l : list A) : list A := firstn (Z.to_nat n) l.
Definition zskip {A} (n : Z) (l : list A) : list A := skipn (Z.to_nat n) l.
(** slice copy into [mem] at [off] *)
Definition put_at (mem : list Z) (off : Z) (data : list Z) : list Z :=
  zfirst off mem ++ data ++ zskip (off + zlen data) mem.

(** MAX_HEADER_SIZE, MAX_FLUSH_VARIANCE, src/mux.rs:22-23 *)
Definition MAX_HEADER_SIZE : Z := 3.
Definition MAX_FLUSH_VARIANCE : Z := 131073.

(** AllocatedMemoryRange (src/slice_util.rs): memory, read cursor, write cursor *)
Record mbuf := MB { mem : list Z; rd : Z; wr : Z }.
Definition mb_empty : mbuf := MB [] 0 0.
(** AllocatedMemoryRange::slice, src/slice_util.rs: the bytes between the cursors *)
Definition mb_data (b : mbuf) : list Z := zfirst (wr b - rd b) (zskip (rd b) (mem b)).

(** enum BytesToDeserialize, enum StreamState, src/mux.rs:9-20 *)
Inductive btd := BNone | BSome (stream count : Z) | BHeader0 (stream : Z) | BHeader1 (stream lsb : Z).
Inductive eofst := Running | EofStart | EofMid | EofDone.
Definition is_done (e : eofst) : bool := match e with EofDone => true | _ => false end.
Definition is_running (e : eofst) : bool := match e with Running => true | _ => false end.

(** struct Mux, src/mux.rs:27-35 *)
Record mux := MX {
  buf0 : mbuf; buf1 : mbuf;
  cur_avail : Z; cur_stream : Z;
  last0 : Z; last1 : Z; flushed : Z;
  to_deser : btd; eof : eofst }.
(** default, src/mux.rs:86-115 *)
Definition mux_new : mux := MX mb_empty mb_empty 0 0 0 0 0 BNone Running.

Definition getb (m : mux) (s : Z) : mbuf := if s =? 0 then buf0 m else buf1 m.
Definition setb (m : mux) (s : Z) (b : mbuf) : mux :=
  if s =? 0 then MX b (buf1 m) (cur_avail m) (cur_stream m) (last0 m) (last1 m) (flushed m) (to_deser m) (eof m)
  else MX (buf0 m) b (cur_avail m) (cur_stream m) (last0 m) (last1 m) (flushed m) (to_deser m) (eof m).
Definition set_cur (m : mux) (avail stream : Z) : mux :=
  MX (buf0 m) (buf1 m) avail stream (last0 m) (last1 m) (flushed m) (to_deser m) (eof m).
Definition getl (m : mux) (s : Z) : Z := if s =? 0 then last0 m else last1 m.
Definition set_flushed (m : mux) (s f : Z) : mux :=
  MX (buf0 m) (buf1 m) (cur_avail m) (cur_stream m)
     (if s =? 0 then f else last0 m) (if s =? 0 then last1 m else f) f (to_deser m) (eof m).
Definition set_btd (m : mux) (d : btd) : mux :=
  MX (buf0 m) (buf1 m) (cur_avail m) (cur_stream m) (last0 m) (last1 m) (flushed m) d (eof m).
Definition set_eof (m : mux) (e : eofst) : mux :=
  MX (buf0 m) (buf1 m) (cur_avail m) (cur_stream m) (last0 m) (last1 m) (flushed m) (to_deser m) e.

(** chunk_size, src/mux.rs:37-48 *)
Definition chunk_size (last_flushed : Z) (lagging : bool) : Z :=
  if lagging then 16
  else if last_flushed <=? 1024 then 4096
  else if last_flushed <=? 65536 then 16384
  else 65536.

(** get_code, src/mux.rs:55-78; header bytes and number of payload bytes *)
Definition get_code_var (stream_id bytes_to_write : Z) : option (list Z * Z) :=
  assert (bytes_to_write <? 65536)
  (assert (1 <=? bytes_to_write)
  (Some ([stream_id; (bytes_to_write - 1) mod 256; ((bytes_to_write - 1) / 256) mod 256], bytes_to_write))).
Definition get_code (stream_id bytes_to_write : Z) (is_lagging : bool) : option (list Z * Z) :=
  if negb is_lagging || (bytes_to_write =? 4096) || (bytes_to_write =? 16384) || (65536 <=? bytes_to_write) then
    if bytes_to_write <? 4096 then get_code_var stream_id bytes_to_write
    else if bytes_to_write <? 16384 then Some ([Z.lor stream_id 16], 4096)
    else if bytes_to_write <? 65536 then Some ([Z.lor stream_id 32], 16384)
    else Some ([Z.lor stream_id 48], 65536)
  else get_code_var stream_id bytes_to_write.

(** prep_push_for_n_bytes, src/mux.rs:246-285 *)
Definition prep_push (b : mbuf) (data_len : Z) : option mbuf :=
  let len := zlen (mem b) in
  let amount := wr b - rd b in
  assert (wr b <=? len) (assert (rd b <=? wr b) (
  if data_len <=? len - wr b then Some b
  else if (amount + data_len + MAX_HEADER_SIZE <=? len) &&
          ((rd b =? wr b) || ((16384 <=? rd b) && (amount + MAX_HEADER_SIZE <? rd b))) then
    (* split_at_mut(read).0.split_at_mut(3).1.split_at_mut(amount) *)
    assert (MAX_HEADER_SIZE + amount <=? rd b)
    (Some (MB (put_at (mem b) MAX_HEADER_SIZE (mb_data b)) MAX_HEADER_SIZE (MAX_HEADER_SIZE + amount)))
  else
    let desired_size := MAX_HEADER_SIZE + data_len + amount in
    let log_desired_size := (Z.log2 desired_size + 1) + 1 in
    let new_buf := repeat 0 (Z.to_nat (2 ^ Z.max log_desired_size 9)) in
    Some (MB (put_at new_buf MAX_HEADER_SIZE (mb_data b)) MAX_HEADER_SIZE (MAX_HEADER_SIZE + amount)))).

(** push_data with unchecked_push, src/mux.rs:224-227, 240-243 *)
Definition push_buf (b : mbuf) (data : list Z) : option mbuf :=
  let? b := prep_push b (zlen data) in
  assert (wr b + zlen data <=? zlen (mem b))
  (Some (MB (put_at (mem b) (wr b) data) (rd b) (wr b + zlen data))).
Definition push_data (m : mux) (s : Z) (data : list Z) : option mux :=
  let? b := push_buf (getb m s) data in Some (setb m s b).

(** consume_data, src/mux.rs:210-212 *)
Definition consume_data (m : mux) (s count : Z) : mux :=
  let b := getb m s in setb m s (MB (mem b) (rd b + count) (wr b)).

(** is_eof (wrote_eof), src/mux.rs:213-223 *)
Definition is_eof (m : mux) : bool :=
  (rd (buf0 m) =? wr (buf0 m)) && (rd (buf1 m) =? wr (buf1 m)) && is_done (eof m).

(** serialize_leftover, src/mux.rs:287-294 *)
Definition serialize_leftover (m : mux) (room : Z) : option (list Z * mux) :=
  let to_copy := Z.min (cur_avail m) room in
  let b := getb m (cur_stream m) in
  assert (rd b + to_copy <=? zlen (mem b))
  (Some (zfirst to_copy (zskip (rd b) (mem b)),
         set_cur (setb m (cur_stream m) (MB (mem b) (rd b + to_copy) (wr b)))
                 (cur_avail m - to_copy) (cur_stream m))).

(** serialize_stream_id, src/mux.rs:295-342; [room] = output.len() - output_offset *)
Definition serialize_stream_id (m : mux) (s room : Z) (is_lagging : bool) : option (list Z * mux) :=
  let b := getb m s in
  let? '(hdr, n) := get_code s (wr b - rd b) is_lagging in
  let m := set_flushed m s (flushed m + n) in
  assert (MAX_HEADER_SIZE <=? rd b) (
  let num := n + zlen hdr in
  let r := rd b - zlen hdr in
  let mem' := put_at (mem b) r hdr in
  let to_write := Z.min num room in
  let out := zfirst to_write (zskip r mem') in
  let r' := r + to_write in
  let b' := if r' =? wr b then MB mem' MAX_HEADER_SIZE MAX_HEADER_SIZE else MB mem' r' (wr b) in
  let m := setb m s b' in
  Some (out, if to_write =? num then m else set_cur m (num - to_write) s)).

(** the body of the for loop of serialize for one stream, src/mux.rs:462-472;
    [lastf], [maxf] computed before the loop; returns output, state, whether
    something was flushed *)
Definition serialize_try (m : mux) (s lastf maxf room : Z) : option (list Z * mux * bool) :=
  let is_lagging := MAX_FLUSH_VARIANCE + getl m s <? maxf in
  let b := getb m s in
  if (chunk_size (getl m s) is_lagging <=? wr b - rd b) && (getl m s <=? lastf + MAX_FLUSH_VARIANCE) then
    let? '(o, m) := serialize_stream_id m s room is_lagging in Some (o, m, true)
  else Some ([], m, false).

(** the while loop of serialize, src/mux.rs:450-476 ([fuel] bounds the number of
    iterations; exhausting it is treated as a panic and proved impossible) *)
Fixpoint serialize_loop (fuel : nat) (m : mux) (room : Z) : option (list Z * mux) :=
  if 0 <? room then
    match fuel with
    | O => None
    | S fuel =>
        let lastf := Z.min (last0 m) (last1 m) in
        let maxf := Z.max (last0 m) (last1 m) in
        let? '(o0, m, f0) := serialize_try m 0 lastf maxf room in
        let? '(o1, m, f1) :=
          if f0 && negb (cur_avail m =? 0) then Some ([], m, false)
          else serialize_try m 1 lastf maxf (room - zlen o0) in
        if f0 || f1 then
          let? '(o, m) := serialize_loop fuel m (room - zlen o0 - zlen o1) in
          Some (o0 ++ o1 ++ o, m)
        else Some (o0 ++ o1, m)
    end
  else Some ([], m).

Definition loop_fuel (m : mux) : nat :=
  Z.to_nat ((wr (buf0 m) - rd (buf0 m)) + (wr (buf1 m) - rd (buf1 m)) + 1).

(** serialize (linearize), src/mux.rs:445-478 *)
Definition serialize (m : mux) (cap : Z) : option (list Z * mux) :=
  let? '(o0, m) := if cur_avail m =? 0 then Some ([], m) else serialize_leftover m cap in
  let? '(o1, m) := serialize_loop (loop_fuel m) m (cap - zlen o0) in
  Some (o0 ++ o1, m).

(** the body of the for loop of flush_internal, src/mux.rs:540-555 *)
Definition flush_try (m : mux) (s : Z) (lastf : option Z) (room : Z) : option (list Z * mux) :=
  if match lastf with None => true | Some lf => getl m s <=? lf + MAX_FLUSH_VARIANCE end then
    let b := getb m s in
    if negb (rd b =? wr b) then serialize_stream_id m s room true else Some ([], m)
  else Some ([], m).
(** whether the for loop reaches the [break] test in this iteration *)
Definition flush_considered (m : mux) (s : Z) (lastf : option Z) : bool :=
  match lastf with None => true | Some lf => getl m s <=? lf + MAX_FLUSH_VARIANCE end.

(** flush_internal's while loop, src/mux.rs:525-559 *)
Fixpoint flush_loop (fuel : nat) (m : mux) (room : Z) : option (list Z * mux) :=
  if 0 <? room then
    match fuel with
    | O => None
    | S fuel =>
        let ne b := negb (rd b =? wr b) in
        let lf0 := if ne (buf0 m) then Some (last0 m) else None in
        let lastf := match lf0 with
                     | None => if ne (buf1 m) then Some (last1 m) else None
                     | Some l => if (last1 m <? l) && ne (buf1 m) then Some (last1 m) else Some l
                     end in
        let c0 := flush_considered m 0 lastf in
        let? '(o0, m) := flush_try m 0 lastf room in
        let? '(o1, m) :=
          if c0 && negb (cur_avail m =? 0) then Some ([], m)
          else flush_try m 1 lastf (room - zlen o0) in
        if negb (zlen o0 =? 0) || negb (zlen o1 =? 0) then
          let? '(o, m) := flush_loop fuel m (room - zlen o0 - zlen o1) in
          Some (o0 ++ o1 ++ o, m)
        else Some (o0 ++ o1, m)
    end
  else Some ([], m).
(** flush_internal, src/mux.rs:520-561 *)
Definition flush_internal (m : mux) (cap : Z) : option (list Z * mux) :=
  let? '(o0, m) := if cur_avail m =? 0 then Some ([], m) else serialize_leftover m cap in
  let? '(o1, m) := flush_loop (loop_fuel m) m (cap - zlen o0) in
  Some (o0 ++ o1, m).

(** EOF_MARKER, src/mux.rs:54 *)
Definition EOF_MARKER : list Z := [255; 254; 255].
(** the marker-writing tail of serialize_close, src/mux.rs:488-518, with [room] left *)
Definition close_marker (e : eofst) (room : Z) : list Z * eofst :=
  if room <=? 0 then ([], e) else
  let '(o, e, room) := match e with Running => ([255], EofStart, room - 1) | _ => ([], e, room) end in
  if room <=? 0 then (o, e) else
  let '(o, e, room) := match e with EofStart => (o ++ [254], EofMid, room - 1) | _ => (o, e, room) end in
  if room <=? 0 then (o, e) else
  match e with EofMid => (o ++ [255], EofDone) | _ => (o, e) end.
(** serialize_close (flush), src/mux.rs:479-519 *)
Definition serialize_close (m : mux) (cap : Z) : option (list Z * mux) :=
  if is_done (eof m) then Some ([], m) else
  let? '(o, m) := flush_internal m cap in
  let '(o2, e) := close_marker (eof m) (cap - zlen o) in
  Some (o ++ o2, set_eof m e).

(** deserialize_eof, src/mux.rs:343-383 (of a non-empty input); consumed count and state *)
Definition deserialize_eof (e : eofst) (input : list Z) : Z * eofst :=
  let hd l := nth 0 l 0 in
  let '(ret, e, input) := match e with
    | Running => if hd input =? 255 then (1, EofStart, skipn 1 input) else (0, e, input)
    | _ => (0, e, input) end in
  if zlen input =? 0 then (ret, e) else
  let '(ret, e, input) := match e with
    | EofStart => if hd input =? 254 then (ret + 1, EofMid, skipn 1 input) else (ret, e, input)
    | _ => (ret, e, input) end in
  if zlen input =? 0 then (ret, e) else
  match e with
  | EofMid => if hd input =? 255 then (ret + 1, EofDone) else (ret, e)
  | _ => (ret, e)
  end.

(** deserialize (write_linear), src/mux.rs:384-444.  The Rust mixes a loop and tail
    recursion; both become the same fuel recursion (two steps per input byte). *)
Fixpoint deserialize_loop (fuel : nat) (m : mux) (input : list Z) : option (Z * mux) :=
  match input with
  | [] => Some (0, m)
  | b0 :: rest =>
    if is_done (eof m) then Some (0, m) else
    match fuel with
    | O => None
    | S fuel =>
      match to_deser m with
      | BHeader0 s =>
          let? '(n, m) := deserialize_loop fuel (set_btd m (BHeader1 s b0)) rest in Some (1 + n, m)
      | BHeader1 s lsb =>
          let? '(n, m) := deserialize_loop fuel (set_btd m (BSome s (Z.lor lsb (Z.shiftl b0 8) + 1))) rest in
          Some (1 + n, m)
      | BSome s count =>
          if zlen input <? count then
            let? m := push_data m s input in
            Some (zlen input, set_btd m (BSome s (count - zlen input)))
          else
            let? m := push_data m s (zfirst count input) in
            let? '(n, m) := deserialize_loop fuel (set_btd m BNone) (zskip count input) in
            Some (count + n, m)
      | BNone =>
          if ((b0 =? 255) || (b0 =? 254) || (b0 =? 255)) && ((b0 =? 255) || negb (is_running (eof m))) then
            let '(n, e) := deserialize_eof (eof m) input in Some (n, set_eof m e)
          else
            let stream_id := Z.land b0 1 in
            if b0 <? 16 then
              match rest with
              | b1 :: b2 :: rest =>
                  let? '(n, m) := deserialize_loop fuel
                     (set_btd m (BSome stream_id (Z.lor b1 (Z.shiftl b2 8) + 1))) rest in
                  Some (3 + n, m)
              | _ =>
                  let? '(n, m) := deserialize_loop fuel (set_btd m (BHeader0 stream_id)) rest in Some (1 + n, m)
              end
            else
              let? '(n, m) := deserialize_loop fuel
                 (set_btd m (BSome stream_id (Z.shiftl 1024 (Z.shiftl (Z.shiftr b0 4) 1) mod 2 ^ 32))) rest in
              Some (1 + n, m)
      end
    end
  end.
Definition deserialize (m : mux) (input : list Z) : option (Z * mux) :=
  deserialize_loop (2 * length input + 2) m input.
