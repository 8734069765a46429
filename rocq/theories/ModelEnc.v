(** Model of the compressor above the command coder: draining the two entropy coders into
    the multiplexer and the multiplexer into the caller's buffer, the checksum, the
    shutdown sequence and the header.  src/codec/mod.rs, src/codec/interface.rs:867-917,
    src/codec/io.rs:115-150, src/cmd_to_divans/mod.rs, src/divans_compressor.rs:126-426.
    [None] is a panic or an exhausted loop bound.  [room] is the free space in the
    caller's output buffer; every function returns the bytes it stored there. *)
From Verif Require Import Prelude ModelAns ModelCdf ModelMux ModelCmd ModelCrc ModelHeader ModelRecode ModelPriors ModelCodec ModelLit ModelPm ModelTop SpecLz.

(** ** The replay buffer of the encoder *)
(** PopulateRingBuffer with push_cmd of DemuxerAndRingBuffer, src/codec/mod.rs:732-797 and
    src/codec/io.rs:115-150: encode_cmd writes to a 128 byte scratch buffer
    (EncoderSpecialization, src/cmd_to_divans/mod.rs:21-24, 84-95) and is repeated until
    it succeeds; the scratch output is thrown away. *)
Fixpoint scratch_pop (rounds : nat) (dict : dict_fn) (r : rcs) (c : command) : outcome rcs :=
  match rounds with
  | O => Panic
  | S rounds =>
      match encode_cmd (cmd_fuel dict c) dict r c 128 with
      | None => Panic
      | Some (ModelRecode.OSuccess, _, r) => Next r
      | Some (ModelRecode.ONeedsMoreOutput, _, r) => scratch_pop rounds dict r c
      | Some (ModelRecode.OFailure, _, r) => Err ReplayFailure
      end
  end.
(** more rounds than any replayable command needs (each emits 128 bytes) *)
Definition pop_rounds (dict : dict_fn) (r : rcs) (c : command) : nat :=
  (Z.to_nat (2 * zlen (ring r)) + cmd_fuel dict c + 2)%nat.
(** last_8_literals packed little endian, src/codec/mod.rs:776-785 (a panic of the slice
    is mapped to 0; C18 excludes it) *)
Definition pack8 (r : rcs) : Z := match last_8_literals r with Some l => unle l | None => 0 end.
Definition rcs_replayer (dict : dict_fn) : replayer rcs :=
  RP rcs (fun r c => scratch_pop (pop_rounds dict r c) dict r c) pack8.

(** ** The two coders and the multiplexer *)
Record eparts := EP { x_cmd : encoder; x_lit : encoder; x_mux : mux }.
Definition sidx (st : stream) : Z := match st with CMD => 0 | LIT => 1 end.
Definition coder (p : eparts) (st : stream) : encoder := match st with CMD => x_cmd p | LIT => x_lit p end.
Definition set_coder (p : eparts) (st : stream) (e : encoder) : eparts :=
  match st with CMD => EP e (x_lit p) (x_mux p) | LIT => EP (x_cmd p) e (x_mux p) end.
Definition set_mux (p : eparts) (m : mux) : eparts := EP (x_cmd p) (x_lit p) m.
Definition eparts_new : eparts := EP enc_new enc_new mux_new.

(** Mux::write_buffer, src/mux.rs:169-187: at least 16 free bytes in both buffers *)
Definition write_buffer (m : mux) : option mux :=
  let? b0 := prep_push (buf0 m) 16 in
  let? b1 := prep_push (buf1 m) 16 in
  Some (setb (setb m 0 b0) 1 b1).
(** the coder's pop_data into the free space of its stream (arithmetic_coder.rs:229-246
    on the WritableBytes that write_buffer returns) *)
Definition pop_into (m : mux) (s : Z) (q : bstack) : mux * bstack :=
  let b := getb m s in
  let '(bytes, q) := pop_data q (Z.to_nat (zlen (mem b) - wr b)) in
  (setb m s (MB (put_at (mem b) (wr b) bytes) (rd b) (wr b + zlen bytes)), q).

(** drain_or_fill_static_buffer for an encoder, src/codec/interface.rs:879-896;
    [false] = NeedsMoreOutput *)
Fixpoint drain_static (fuel : nat) (st : stream) (p : eparts) (room : Z) : option (list Z * eparts * bool) :=
  let e := coder p st in
  if bs_is_empty (q e) then Some ([], p, true) else
  match fuel with
  | O => None
  | S fuel =>
      let? '(o, m) := serialize (x_mux p) room in
      let? m := write_buffer m in
      let '(m, q') := pop_into m (sidx st) (q e) in
      let p := set_mux (set_coder p st (Enc q' (start_freq e))) m in
      if bs_is_empty q' then Some (o, p, true)
      else if room - zlen o =? 0 then Some (o, p, false)
      else let? '(o2, p, ok) := drain_static fuel st p (room - zlen o) in Some (o ++ o2, p, ok)
  end.
(** rounds: each pops at least 16 bytes *)
Definition drain_fuel (p : eparts) (st : stream) : nat := S (Z.to_nat (bs_len (q (coder p st)))).
Definition drain1 (st : stream) (p : eparts) (room : Z) := drain_static (drain_fuel p st) st p room.

(** Which coders are drained before the work of a state is done.  CMD: src/codec/mod.rs:663,
    copy.rs:74 and 259, dict.rs:68, block_type.rs:63 and 172, context_map.rs:148,
    literal.rs:536-556; LIT: literal.rs:309, 368 and 426.  The code drains a literal
    nibble right after coding it and again on re-entry; that is the same as draining
    before the next nibble.  After the last nibble of a literal a full output buffer is
    ignored (literal.rs:381-383): the second component says whether NeedsMoreOutput is
    returned. *)
Definition drains (t : top) : list (stream * bool) :=
  match t with
  | TPop _ | TEnd | TBsl (LbFully _ _) => []
  | TDict s => match d_sub s with DFully => [] | _ => [(CMD, true)] end
  | TLit s => match l_sub s with
              | LNibble _ | LLower _ _ => [(CMD, true); (LIT, true)]
              | LFully => [(LIT, false)]
              | _ => [(CMD, true)]
              end
  | _ => [(CMD, true)]
  end.
Fixpoint drain_list (l : list (stream * bool)) (p : eparts) (room : Z) : option (list Z * eparts * bool) :=
  match l with
  | [] => Some ([], p, true)
  | (st, strict) :: l =>
      let? '(o, p, ok) := drain1 st p room in
      if strict && negb ok then Some (o, p, false)
      else let? '(o2, p, ok2) := drain_list l p (room - zlen o) in Some (o ++ o2, p, ok2)
  end.

(** ** One command *)
Inductive one_res := Advanced | NeedOut | Failed (e : err) | Ended.
Section Enc.
Context (dict : dict_fn) (wl : word_len_fn) (D : dims) (g : cfg).
Let RR := rcs_replayer dict.
(** put_nibble, src/arithmetic_coder.rs and src/interface.rs: the interval of the symbol
    goes to the coder *)
Definition put_nibble (p : eparts) (st : stream) (cdf : list Z) (v : Z) : option eparts :=
  let '(start, freq) := ref_interval cdf v in
  let? e := put_start_freq (coder p st) start freq in Some (set_coder p st e).
(** encode_or_decode_one_command of the encoder, src/codec/mod.rs:652-940, one coded
    nibble (or one silent transition) per round.  A refused value (distance 0) is
    detected before draining, copy.rs:70-72. *)
Fixpoint one_command (fuel : nat) (cmd : command) (is_end : bool) (c : codec rcs) (p : eparts) (room : Z)
  : option (list Z * codec rcs * eparts * one_res) :=
  match fuel with
  | O => None
  | S fuel =>
      match top_want g cmd is_end c with
      | WPanic => None
      | Refuse e => Some ([], c, p, Failed e)
      | Put v =>
          let? '(o, p, ok) := drain_list (drains (k_st c)) p room in
          if negb ok then Some (o, c, p, NeedOut) else
          match top_node RR wl D c with
          | NCode st d k =>
              if (0 <=? v) && (v <? 16) then
                let? p := put_nibble p st d v in
                match k v with
                | Next c => let? '(o2, c, p, r) := one_command fuel cmd is_end c p (room - zlen o) in Some (o ++ o2, c, p, r)
                | Err e => Some (o, c, p, Failed e)
                | Panic => None
                end
              else None
          | NSilent (Next c) => let? '(o2, c, p, r) := one_command fuel cmd is_end c p (room - zlen o) in Some (o ++ o2, c, p, r)
          | NSilent (Err e) => Some (o, c, p, Failed e)
          | NSilent Panic => None
          | NAdvance c _ => Some (o, c, p, Advanced)
          | NEnd => Some (o, c, p, Ended)
          end
      end
  end.

(** ** The codec: commands, then the shutdown sequence *)
(** EncodeOrDecodeState beyond the command states, src/codec/mod.rs:114-130 *)
Inductive phase := PRun | PNode | PShut (i : Z) | PCoders | PMux | PSum (count : nat) | PDone.
Record ecodec := EC { ec_codec : codec rcs; ec_parts : eparts; ec_crc : Z; ec_frozen : option Z; ec_phase : phase }.
(** DivansResult and DivansOutputResult, src/interface.rs:103-143 *)
Inductive cres := RSuccess | RNeedsMoreInput | RNeedsMoreOutput | RFailure (e : err).

(** e_or_d_specialize and the loop of encode_or_decode, src/codec/mod.rs:582-651, in the
    command states; the commands not yet finished are returned.  An empty array is
    indexed out of range. *)
Fixpoint run_commands (fuel : nat) (cmds : list command) (c : codec rcs) (p : eparts) (room : Z)
  : option (list Z * codec rcs * eparts * list command * cres) :=
  match cmds with
  | [] => None
  | cmd :: rest =>
      let? '(o, c, p, r) := one_command fuel cmd false c p room in
      match r with
      | Advanced =>
          match rest with
          | [] => Some (o, c, p, [], RNeedsMoreInput)
          | _ => let? '(o2, c, p, rest', r) := run_commands fuel rest c p (room - zlen o) in Some (o ++ o2, c, p, rest', r)
          end
      | NeedOut => Some (o, c, p, cmds, RNeedsMoreOutput)
      | Failed e => Some (o, c, p, cmds, RFailure e)
      | Ended => Some (o, c, p, cmds, RSuccess)
      end
  end.
(** DivansCodec::encode_or_decode for an encoder, src/codec/mod.rs:562-614, with the
    refusals of 903-912 and the assertion of 914: in state DivansSuccess the call reports
    success without looking at the commands. *)
Definition codec_encode (fuel : nat) (cmds : list command) (s : ecodec) (room : Z)
  : option (list Z * ecodec * list command * cres) :=
  match ec_phase s with
  | PRun =>
      let? '(o, c, p, rest, r) := run_commands fuel cmds (ec_codec s) (ec_parts s) room in
      Some (o, EC c p (match ec_frozen s with None => crc32c_update (ec_crc s) o | Some _ => ec_crc s end) (ec_frozen s) PRun, rest, r)
  | PSum _ => None
  | PDone => match cmds with [] => None | _ => Some ([], s, cmds, RSuccess) end
  | _ => match cmds with [] => None | _ => Some ([], s, cmds, RFailure NotAllowedToEncodeAfterFlush) end
  end.

(** state MuxDrain, src/codec/mod.rs:500-513; [false] = NeedsMoreOutput *)
Fixpoint mux_drain (fuel : nat) (m : mux) (room : Z) : option (list Z * mux * bool) :=
  match fuel with
  | O => None
  | S fuel =>
      if room =? 0 then Some ([], m, false) else
      let? '(o, m) := serialize_close m room in
      if is_eof m then Some (o, m, true)
      else let? '(o2, m, ok) := mux_drain fuel m (room - zlen o) in Some (o ++ o2, m, ok)
  end.
(** internal_flush, src/codec/mod.rs:424-560.  [done] are the bytes this call has stored
    so far; the result holds all of them. *)
Fixpoint internal_flush (steps fuel : nat) (s : ecodec) (room : Z) (done : list Z) : option (list Z * ecodec * cres) :=
  match steps with
  | O => None
  | S steps =>
      let spare := room - zlen done in
      let p := ec_parts s in
      let go c p ph o := internal_flush steps fuel (EC c p (ec_crc s) (ec_frozen s) ph) room (done ++ o) in
      let stop c p o r := Some (done ++ o, EC c p (ec_crc s) (ec_frozen s) (ec_phase s), r) in
      match ec_phase s with
      | PRun =>
          match k_st (ec_codec s) with
          | TBegin =>
              let? '(o, c, p, r) := one_command fuel (Copy 1 0) true (ec_codec s) p spare in
              match r with
              | Ended => go c p PNode o
              | NeedOut => stop c p o RNeedsMoreOutput
              | Failed e => stop c p o (RFailure e)
              | Advanced => stop c p o (RFailure ReplayFailure) (* UnintendedCodecState(3) *)
              end
          | _ => stop (ec_codec s) p [] (RFailure NotAllowedToEncodeAfterFlush) (* NotAllowedToFlushIfPreviousCommandPartial *)
          end
      | PNode =>
          let? '(o, p, ok) := drain_list [(CMD, true); (LIT, true)] p spare in
          if ok then go (ec_codec s) p (PShut 0) o else stop (ec_codec s) p o RNeedsMoreOutput
      | PShut i =>
          let st := if i =? 0 then CMD else LIT in
          let? e := enc_flush (coder p st) in
          go (ec_codec s) (set_coder p st e) (if i =? 0 then PShut 1 else PCoders) []
      | PCoders =>
          let? '(o, p, ok) := drain_list [(CMD, true); (LIT, true)] p spare in
          if ok then go (ec_codec s) p PMux o else stop (ec_codec s) p o RNeedsMoreOutput
      | PMux =>
          let? '(o, m, ok) := mux_drain (S (Z.to_nat spare)) (x_mux p) spare in
          if ok then go (ec_codec s) (set_mux p m) (PSum 0) o else stop (ec_codec s) (set_mux p m) o RNeedsMoreOutput
      | PSum count =>
          let '(crc, frozen) := match ec_frozen s with
                                | None => let x := crc32c_update (ec_crc s) done in (x, x)
                                | Some x => (ec_crc s, x) end in
          let '(o, n, r) := write_checksum frozen count (Z.to_nat spare) in
          Some (done ++ o, EC (ec_codec s) p crc (Some frozen) (match r with ModelHeader.OSuccess => PDone | _ => PSum n end),
                match r with ModelHeader.OSuccess => RSuccess | _ => RNeedsMoreOutput end)
      | PDone => Some (done, s, RSuccess)
      end
  end.
(** flush, src/codec/mod.rs:409-423 *)
Definition codec_flush (fuel : nat) (s : ecodec) (room : Z) : option (list Z * ecodec * cres) :=
  let? '(o, s, r) := internal_flush 10 fuel s room [] in
  Some (o, EC (ec_codec s) (ec_parts s) (match ec_frozen s with None => crc32c_update (ec_crc s) o | Some _ => ec_crc s end)
              (ec_frozen s) (ec_phase s), r).

(** ** DivansCompressor used through encode_commands and flush *)
(** src/divans_compressor.rs:64-81; the assembler of raw input is in IR mode and empty *)
Record compressor := CM { cm_hdr : nat; cm_ws : Z; cm_codec : ecodec }.
(** DivansCodec::new and DivansCompressorFactory::new, src/divans_compressor.rs:87-123 *)
Definition ecodec_new (ws : Z) : ecodec :=
  EC (codec_new D (rc_new (repeat 0 (Z.to_nat (2 ^ ws))))) eparts_new 0 None PRun.
Definition compressor_new (window_option : option Z) : compressor :=
  let ws := choose_window window_option in CM 0 ws (ecodec_new ws).
(** write_header on the compressor's fields, src/divans_compressor.rs:150-174 *)
Definition start_call (s : compressor) (room : Z) : list Z * compressor * bool :=
  if Nat.eqb (cm_hdr s) HEADER_LENGTH then ([], s, true) else
  let c := cm_codec s in
  let '(o, n, crc, r) := write_header (cm_hdr s) (cm_ws s) (Z.to_nat room) (ec_crc c) in
  (o, CM n (cm_ws s) (EC (ec_codec c) (ec_parts c) crc (ec_frozen c) (ec_phase c)), match r with ModelHeader.OSuccess => true | _ => false end).
(** encode_commands, src/divans_compressor.rs:338-362 *)
Definition encode_commands (fuel : nat) (s : compressor) (cmds : list command) (room : Z)
  : option (list Z * compressor * list command * cres) :=
  let '(h, s, ok) := start_call s room in
  if negb ok then Some (h, s, cmds, RNeedsMoreOutput) else
  let? '(o, c, rest, r) := codec_encode fuel cmds (cm_codec s) (room - zlen h) in
  Some (h ++ o, CM (cm_hdr s) (cm_ws s) c, rest, match r with RNeedsMoreInput => RSuccess | r => r end).
(** flush, src/divans_compressor.rs:363-426 (no frozen commands, empty assembler) *)
Definition flush (fuel : nat) (s : compressor) (room : Z) : option (list Z * compressor * cres) :=
  let '(h, s, ok) := start_call s room in
  if negb ok then Some (h, s, RNeedsMoreOutput) else
  let? '(o, c, r) := codec_flush fuel (cm_codec s) (room - zlen h) in
  Some (h ++ o, CM (cm_hdr s) (cm_ws s) c, r).
End Enc.
