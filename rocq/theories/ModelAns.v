(** Model of the interleaved ANS entropy coder, /repo/src/ans.rs.
    Bytes, u64 states and i16 probabilities are all [Z]; [None] is a Rust
    panic (assertions, debug assertions, arithmetic overflow, division by 0). *)
From Verif Require Import Prelude.

(** src/ans.rs:57 *)
Definition MAX_BUFFER_SIZE : Z := 256 * 1024.
(** src/probability/interface.rs: LOG2_SCALE = 15; src/ans.rs:135-139 *)
Definition LOG2_SCALE : Z := 15.
Definition NORMALIZATION_INTERVAL : Z := 2 ^ 31.
Definition ENC_START_STATE : Z := NORMALIZATION_INTERVAL.
Definition NUM_SYMBOLS_BEFORE_FLUSH : Z := 65536.
Definition SCALE_MASK : Z := 2 ^ LOG2_SCALE - 1.

Definition u64 (x : Z) : Z := x mod 2 ^ 64.
Definition u16 (x : Z) : Z := x mod 2 ^ 16.
(** reinterpretation of the low 16 bits as i16 *)
Definition i16 (x : Z) : Z := (x + 2 ^ 15) mod 2 ^ 16 - 2 ^ 15.

(** ByteStack, src/ans.rs:59-130.  [content] is [bytes()], i.e.
    data[nbytes..]; the bytes below the cursor are never read, so they are not
    kept.  [nbytes] is the cursor (free space). *)
Record bstack := BS { content : list Z; nbytes : Z }.
(** src/ans.rs:64-68 *)
Definition bs_new : bstack := BS [] MAX_BUFFER_SIZE.
(** src/ans.rs:81-83 *)
Definition bs_reset (q : bstack) : bstack := BS [] MAX_BUFFER_SIZE.
(** src/ans.rs:91-93 *)
Definition bs_is_empty (q : bstack) : bool := nbytes q =? MAX_BUFFER_SIZE.
(** length of [bytes()], src/ans.rs:84-87 *)
Definition bs_len (q : bstack) : Z := MAX_BUFFER_SIZE - nbytes q.
(** src/ans.rs:99-103 *)
Definition stack_byte (q : bstack) (b : Z) : option bstack :=
  assert (0 <? nbytes q) (Some (BS (b :: content q) (nbytes q - 1))).
(** src/ans.rs:94-98; pushes the source from its last byte to its first *)
Fixpoint stack_data_rev (q : bstack) (src : list Z) : option bstack :=
  match src with
  | [] => Some q
  | b :: src => let? q := stack_byte q b in stack_data_rev q src
  end.
Definition stack_data (q : bstack) (src : list Z) : option bstack :=
  stack_data_rev q (rev src).
(** src/ans.rs:104-107 *)
Definition stack_u16 (q : bstack) (s : Z) : option bstack :=
  let? q := stack_byte q (Z.land (Z.shiftr s 8) 255) in
  stack_byte q (Z.land s 255).
(** src/ans.rs:121-129; [cap] is the length of the destination *)
Definition pop_data (q : bstack) (cap : nat) : list Z * bstack :=
  let n := Nat.min cap (Z.to_nat (bs_len q)) in
  (firstn n (content q), BS (skipn n (content q)) (nbytes q + Z.of_nat n)).

(** ANSEncoder, src/ans.rs:254-257 *)
Record encoder := Enc { q : bstack; start_freq : bstack }.
(** src/ans.rs:258-264 *)
Definition enc_new : encoder := Enc bs_new bs_new.

(** src/ans.rs:302-329.  The two states are returned. *)
Definition reverse_put_sym (q : bstack) (state_a state_b start freq : Z)
  : option (bstack * Z * Z) :=
  assert (0 <=? start) (assert (0 <? freq) (
  let rescale_lim := Z.shiftl (Z.shiftr NORMALIZATION_INTERVAL LOG2_SCALE) 32 * freq in
  assert (rescale_lim <? 2 ^ 64) (
  let? '(q, state) :=
    if rescale_lim <=? state_a then
      let? q := stack_data q [Z.land state_a 255;
                              Z.land (Z.shiftr state_a 8) 255;
                              Z.land (Z.shiftr state_a 16) 255;
                              Z.land (Z.shiftr state_a 24) 255] in
      let state := Z.shiftr state_a 32 in
      assert (state <? rescale_lim) (Some (q, state))
    else Some (q, state_a) in
  let x := u64 (Z.shiftl (state / freq) LOG2_SCALE) + state mod freq + start in
  assert (x <? 2 ^ 64) (Some (q, state_b, x))))).

(** the while loop of flush_chunk, src/ans.rs:342-353 *)
Fixpoint flush_loop (sf : list Z) (q : bstack) (state_a state_b : Z)
  : option (bstack * Z * Z) :=
  match sf with
  | [] => Some (q, state_a, state_b)
  | s0 :: s1 :: f0 :: f1 :: sf =>
      let start := i16 (Z.lor s0 (i16 (Z.shiftl s1 8))) in
      let freq := i16 (Z.lor f0 (i16 (Z.shiftl f1 8))) in
      let? '(q, state_a, state_b) := reverse_put_sym q state_a state_b start freq in
      flush_loop sf q state_a state_b
  | _ => None (* assert_eq!(len & 3, 0) *)
  end.

(** the 16 byte array, src/ans.rs:357-374 *)
Definition state_bytes (s : Z) : list Z :=
  [Z.land s 255; Z.land (Z.shiftr s 8) 255; Z.land (Z.shiftr s 16) 255;
   Z.land (Z.shiftr s 24) 255; Z.land (Z.shiftr s 32) 255;
   Z.land (Z.shiftr s 40) 255; Z.land (Z.shiftr s 48) 255;
   Z.land (Z.shiftr s 56) 255].

(** src/ans.rs:331-378 *)
Definition flush_chunk (e : encoder) : option encoder :=
  let len := bs_len (start_freq e) in
  if len =? 0 then Some e else
  assert (Z.land len 3 =? 0) (
  assert (Z.shiftr len 2 <=? NUM_SYMBOLS_BEFORE_FLUSH) (
  let? '(q, state_a, state_b) :=
    flush_loop (content (start_freq e)) (q e) ENC_START_STATE ENC_START_STATE in
  (* mem::swap(state_a, state_b), then state_a before state_b *)
  let? q := stack_data q (state_bytes state_b ++ state_bytes state_a) in
  Some (Enc q (bs_reset (start_freq e))))).

(** src/ans.rs:289-301 *)
Definition put_start_freq (e : encoder) (start freq : Z) : option encoder :=
  assert (negb (freq =? 0)) (
  assert (bs_is_empty (q e)) (
  let? sf := stack_u16 (start_freq e) (u16 freq) in
  let? sf := stack_u16 sf (u16 start) in
  let e := Enc (q e) sf in
  if bs_len sf =? Z.shiftl NUM_SYMBOLS_BEFORE_FLUSH 2 then flush_chunk e
  else Some e)).

(** EntropyEncoder::flush, src/ans.rs:402-404 *)
Definition enc_flush (e : encoder) : option encoder := flush_chunk e.

(** EntropyEncoder::put_bit, src/ans.rs:391-397 *)
Definition bit_start_freq (bit : bool) (prob_of_false : Z) : Z * Z :=
  let p := if prob_of_false =? 0 then 1 else prob_of_false in
  (if bit then Z.shiftl p (LOG2_SCALE - 8) else 0,
   Z.shiftl (if bit then 256 - p else p) (LOG2_SCALE - 8)).
Definition put_bit (e : encoder) (bit : bool) (prob_of_false : Z) : option encoder :=
  let '(s, f) := bit_start_freq bit prob_of_false in put_start_freq e s f.

(** ANSDecoder, src/ans.rs:142-148 *)
Record decoder := Dec {
  state_a : Z; state_b : Z; sym_count : Z;
  a_req : Z;   (* buffer_a_bytes_required *)
  b_req : Z    (* buffer_b_bytes_required *) }.
(** src/ans.rs:150-162 *)
Definition dec_new : decoder := Dec 0 0 0 8 0.

(** num_push_bytes_avail, src/ans.rs:408-422 *)
Definition num_push_bytes_avail (d : decoder) : Z :=
  if a_req d =? 0 then 0
  else if a_req d =? 1 then 4
  else if a_req d <=? 5 then 5 - a_req d
  else if 16 <=? a_req d then 32 - a_req d
  else 16.

(** loop at src/ans.rs:199-201: [sh] is the running shift *)
Fixpoint or_at (st sh : Z) (data : list Z) : Z :=
  match data with
  | [] => st
  | b :: data => or_at (Z.lor st (u64 (Z.shiftl b sh))) (sh + 8) data
  end.
(** loop at src/ans.rs:210-217 *)
Fixpoint or_ab (a b sh : Z) (data : list Z) : Z * Z :=
  match data with
  | [] => (a, b)
  | x :: data =>
      if sh <? 64 then or_ab (Z.lor a (u64 (Z.shiftl x sh))) b (sh + 8) data
      else or_ab a (Z.lor b (u64 (Z.shiftl x (sh - 64)))) (sh + 8) data
  end.

(** src/ans.rs:193-223; also returns the number of consumed bytes *)
Definition push_really_rare (d : decoder) (data : list Z) : option (decoder * nat) :=
  if a_req d <=? 4 then
    let st := if (a_req d =? 1) && negb (Nat.eqb (length data) 0)
              then u64 (Z.shiftl (state_a d) 32) else state_a d in
    let n := Nat.min (length data) (Z.to_nat (5 - a_req d)) in
    let st := or_at st (Z.shiftl (a_req d - 1) 3) (firstn n data) in
    let r := a_req d + Z.of_nat n in
    let r := if r =? 5 then 0 else r in
    Some (Dec st (state_b d) (sym_count d) r (b_req d), n)
  else
    assert (16 <=? a_req d) (
    let n := Nat.min (length data) (Z.to_nat (32 - a_req d)) in
    let '(a, b) := or_ab (state_a d) (state_b d) (Z.shiftl (a_req d - 16) 3) (firstn n data) in
    let r := a_req d + Z.of_nat n in
    let r := if r =? 32 then 0 else r in
    Some (Dec a b (sym_count d) r (b_req d), n)).

(** src/ans.rs:173-191 *)
Definition push_rare (d : decoder) (data : list Z) : option (decoder * nat) :=
  if (a_req d <? 16) && (4 <? a_req d) then
    if Nat.leb 16 (length data) then
      Some (Dec (or_at 0 0 (firstn 8 data)) (or_at 0 0 (firstn 8 (skipn 8 data))) 0 0 (b_req d), 16%nat)
    else push_really_rare (Dec 0 0 0 16 (b_req d)) data
  else push_really_rare d data.

(** src/ans.rs:428-442 *)
Definition push_data (d : decoder) (data : list Z) : option (decoder * nat) :=
  if a_req d =? 0 then Some (d, 0%nat)
  else if (a_req d =? 1) && Nat.leb 4 (length data) then
    let old := u64 (Z.shiftl (state_a d) 32) in
    let new := Z.lor old (or_at 0 0 (firstn 4 data)) in
    assert (old <=? new) (
    Some (Dec new (state_b d) (sym_count d) 0 (b_req d), 4%nat))
  else push_rare d data.

(** src/ans.rs:225-228 *)
Definition get_cdf_value (d : decoder) : option Z :=
  assert (a_req d =? 0) (Some (Z.land (state_a d) SCALE_MASK)).

(** src/ans.rs:230-244 *)
Definition advance_sym (d : decoder) (start freq : Z) : option decoder :=
  let a_req' := Z.lor (b_req d)
     (if sym_count d =? NUM_SYMBOLS_BEFORE_FLUSH - 1 then 8 else 0) in
  let x0 := u64 freq * Z.shiftr (state_a d) LOG2_SCALE in
  assert (x0 <? 2 ^ 64) (
  let x1 := x0 + Z.land (state_a d) SCALE_MASK in
  assert (x1 <? 2 ^ 64) (
  let x := x1 - u64 start in
  assert (0 <=? x) (
  Some (Dec (state_b d) x (u16 (sym_count d + 1)) a_req'
            (if x <? NORMALIZATION_INTERVAL then 1 else 0))))).

(** A symbol lookup: offset in [0, 2^15) to (symbol, start, freq).
    get_nibble_internal (src/ans.rs:246-252) instantiates it with
    cdf_offset_to_sym_start_and_freq, get_bit (src/ans.rs:462-473) with
    [bit_query] below. *)
Definition query (A : Type) := Z -> A * Z * Z.
Definition get_sym {A} (d : decoder) (qy : query A) : option (A * decoder) :=
  let? off := get_cdf_value d in
  let '(a, start, freq) := qy off in
  let? d := advance_sym d start freq in
  Some (a, d).
(** src/ans.rs:463-472 *)
Definition bit_query (prob_of_false : Z) : query bool := fun off =>
  let p := if prob_of_false =? 0 then 1 else prob_of_false in
  let rescaled := Z.shiftl p (LOG2_SCALE - 8) in
  let inv := Z.shiftl (256 - p) (LOG2_SCALE - 8) in
  let bit := rescaled <=? off in
  (bit, if bit then rescaled else 0, if bit then inv else rescaled).

(** ** Drivers: the way the codec uses the coder.

    Encoder: put a symbol, then drain the internal queue to the output
    (arithmetic_coder.rs:229-240); finally close() = flush and drain. *)
Definition drain (e : encoder) : list Z * encoder :=
  let '(o, q') := pop_data (q e) (Z.to_nat (bs_len (q e))) in
  (o, Enc q' (start_freq e)).
Fixpoint ans_put_all (e : encoder) (sfs : list (Z * Z)) : option (list Z * encoder) :=
  match sfs with
  | [] => Some ([], e)
  | (s, f) :: sfs =>
      let? e := put_start_freq e s f in
      let '(o, e) := drain e in
      let? '(os, e) := ans_put_all e sfs in
      Some (o ++ os, e)
  end.
Definition ans_encode (sfs : list (Z * Z)) : option (list Z) :=
  let? '(o1, e) := ans_put_all enc_new sfs in
  let? e := enc_flush e in
  let '(o2, e) := drain e in
  Some (o1 ++ o2).

(** Decoder: before each symbol, if the decoder wants bytes, push input
    (arithmetic_coder.rs:189-200), failing with NeedsMoreInput when they do
    not suffice; then read the symbol.  Input comes as a list of pieces. *)
Inductive fill_res :=
| FPanic
| FNeed (d : decoder)
| FOk (d : decoder) (rest : list (list Z)).
Fixpoint fill (d : decoder) (pieces : list (list Z)) : fill_res :=
  if a_req d =? 0 then FOk d pieces else
  match pieces with
  | [] => FNeed d
  | p :: ps =>
      match push_data d p with
      | None => FPanic
      | Some (d, n) =>
          if num_push_bytes_avail d =? 0 then FOk d (skipn n p :: ps)
          else fill d ps
      end
  end.
Inductive dec_res (A : Type) :=
| DPanic
| DNeed (got : list A) (d : decoder)
| DOk (got : list A) (d : decoder) (rest : list (list Z)).
Arguments DPanic {A}. Arguments DNeed {A}. Arguments DOk {A}.
Fixpoint ans_decode {A} (d : decoder) (qs : list (query A)) (pieces : list (list Z)) : dec_res A :=
  match qs with
  | [] => DOk [] d pieces
  | qy :: qs =>
      match fill d pieces with
      | FPanic => DPanic
      | FNeed d => DNeed [] d
      | FOk d rest =>
          match get_sym d qy with
          | None => DPanic
          | Some (a, d) =>
              match ans_decode d qs rest with
              | DPanic => DPanic
              | DNeed l d => DNeed (a :: l) d
              | DOk l d rest => DOk (a :: l) d rest
              end
          end
      end
  end.
