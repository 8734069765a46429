(** Model of src/debug_encoder.rs: the debugging bit coder, one byte per bit, over the eight
    byte register queue; and of the filling and draining of its buffers. *)
From Verif Require Import Prelude ModelBits.

(** DebugEncoder::put_bit, src/debug_encoder.rs:38-43.  [None]: an assertion fails. *)
Definition debug_put (q : regq) (bit : bool) (prob_of_false : Z) : option regq :=
  if 0 <? rq_space q then
    let '(cnt, q) := rq_push q [Z.lxor prob_of_false (b2z bit)] in
    if cnt =? 1 then Some q else None
  else None.
(** DebugDecoder::get_bit, src/debug_encoder.rs:62-72.  [debug]: a build with overflow checks. *)
Definition debug_get (debug : bool) (q : regq) (prob_of_false : Z) : option (bool * regq) :=
  if 0 <? rq_avail q then
    let? '(popped, q) := rq_pop debug q 1 in
    match popped with
    | [x] =>
        let v := Z.lxor x prob_of_false in
        if negb (v =? 0) then if v =? 1 then Some (true, q) else None else Some (false, q)
    | _ => None
    end
  else None.
(** drain_or_fill_internal_buffer_unchecked of an encoder with [room] bytes of output left,
    src/arithmetic_coder.rs:228-239: the bytes written *)
Definition debug_drain (debug : bool) (q : regq) (room : Z) : option (list Z * regq) := rq_pop debug q room.
(** drain_or_fill_internal_buffer_unchecked of a decoder given [input],
    src/arithmetic_coder.rs:189-200: the bytes consumed *)
Definition debug_fill (q : regq) (input : list Z) : Z * regq := rq_push q input.

(** A caller that puts bits, drains the encoder to a file, fills the decoder from the file
    and gets bits, in any order. *)
Inductive link_op := Put (bit : bool) (prob : Z) | Drain (room : Z) | Fill (offered : Z) | Get (prob : Z).
(** buffers of the encoder and the decoder, and the bytes of the file not read yet *)
Record link := Link { l_enc : regq; l_file : list Z; l_dec : regq }.
Definition link_new : link := Link rq_new [] rq_new.
(** [None]: panic.  The bits got. *)
Fixpoint link_run (debug : bool) (s : link) (ops : list link_op) : option (list bool) :=
  match ops with
  | [] => Some []
  | Put b p :: ops => let? e := debug_put (l_enc s) b p in link_run debug (Link e (l_file s) (l_dec s)) ops
  | Drain room :: ops =>
      let? '(out, e) := debug_drain debug (l_enc s) room in link_run debug (Link e (l_file s ++ out) (l_dec s)) ops
  | Fill n :: ops =>
      let '(used, d) := debug_fill (l_dec s) (firstn (Z.to_nat n) (l_file s)) in
      link_run debug (Link (l_enc s) (skipn (Z.to_nat used) (l_file s)) d) ops
  | Get p :: ops =>
      let? '(b, d) := debug_get debug (l_dec s) p in
      let? bs := link_run debug (Link (l_enc s) (l_file s) d) ops in Some (b :: bs)
  end.
