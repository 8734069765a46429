(** The default compressor: brotli's encoder in front of the codec.  src/brotli_ir_gen.rs,
    src/resizable_buffer.rs.  Brotli itself is a dependency and not part of the code base:
    it is a parameter here, any program with the interface of its streaming encoder. *)
From Verif Require Import Prelude ModelMux ModelCmd ModelHeader ModelRecode ModelPriors ModelCodec ModelPm ModelTop ModelEnc ModelIo.

(** A metablock as handed to the callback: the context map and the commands, already
    thawed (ThawingSliceArray, src/brotli_ir_gen.rs:446-456). *)
Definition metablock := (predmode * list command)%type.
(** BrotliEncoderCompressStream and BrotliEncoderIsFinished.  [b_step b finish input room]:
    the operation (PROCESS or FINISH), the input from input_offset on, and available_out;
    [None] is a result of 0 or less, [Some (k, w, ms, b')] the number of bytes consumed,
    the number of bytes of brotli output, the metablocks for which the callback was
    invoked, in order, and the new state. *)
Record frontend (B : Type) := FE {
  b_step : B -> bool -> list Z -> Z -> option (Z * Z * list metablock * B);
  b_finished : B -> bool }.
Arguments FE {B}. Arguments b_step {B}. Arguments b_finished {B}.

(** the length of the memory after ensure_free_space_in_buffer,
    src/resizable_buffer.rs:35-43; [size] bytes are in use (the contents: ModelMem.v) *)
Definition grown (size cap min_size : Z) : Z :=
  if cap =? 0 then 66000 else if cap <? size + min_size then size * 2 else cap.

Section Hybrid.
Context (dict : dict_fn) (wl : word_len_fn) (D : dims) (g : cfg).
Context {B : Type} (fe : frontend B).
(** ir_optimize, src/brotli_ir_gen.rs:139-145, [None] for an error; [Some] of its argument
    when opt.divans_ir_optimizer is 0.  Simplified: it leaves the codec as it found it. *)
Context (optimize : metablock -> option metablock).

(** struct BrotliDivansHybridCompressor, src/brotli_ir_gen.rs:36-51; [h_data] is
    divans_data.slice() and [h_cap] the length of its memory, [h_bsize] and [h_bcap] the
    same for brotli_data, whose contents nothing reads; [h_off] is encoded_byte_offset;
    header_progress, window_size and codec form the [compressor]. *)
Record hybrid := HY { h_b : B; h_cm : compressor; h_bsize : Z; h_bcap : Z; h_data : list Z; h_cap : Z; h_off : Z }.
(** BrotliDivansHybridCompressorFactory::new, src/brotli_ir_gen.rs:344-441 *)
Definition hybrid_new (b : B) (window_option : option Z) : hybrid := HY b (compressor_new D window_option) 0 0 [] 0 0.

(** divans_encode_commands, src/brotli_ir_gen.rs:77-122.  [n] bounds the rounds. *)
Fixpoint divans_encode_commands (n fuel : nat) (cmds : list command) (cm : compressor) (data : list Z) (cap : Z) : option (compressor * list Z * Z) :=
  match n with
  | O => None
  | S n =>
      let cap := grown (zlen data) cap (16 + 256) in
      let room := cap - zlen data in
      let '(_, _, ok) := start_call cm room in
      if negb ok then None (* panic, line 99 *) else
      let? '(o, cm, rest, r) := encode_commands dict wl D g fuel cm cmds room in
      let data := data ++ o in
      match r with
      | RSuccess | RNeedsMoreInput => match rest with [] => Some (cm, data, cap) | _ => None end
      | RNeedsMoreOutput => divans_encode_commands n fuel rest cm data cap
      | RFailure _ => None (* do_panic *)
      end
  end.
(** the callback, src/brotli_ir_gen.rs:133-170; the result: the fields, and whether
    cb_err was set *)
Definition callback (n fuel : nat) (m : metablock) (cm : compressor) (data : list Z) (cap : Z) : option (compressor * list Z * Z * bool) :=
  match optimize m with
  | None => Some (cm, data, cap, true)
  | Some (pm, cmds) =>
      let? '(cm, data, cap) := divans_encode_commands n fuel [PredictionMode pm] cm data cap in
      match cmds with
      | [] => Some (cm, data, cap, false)
      | _ => let? '(cm, data, cap) := divans_encode_commands n fuel cmds cm data cap in Some (cm, data, cap, false)
      end
  end.
(** the callbacks of one call of the encoder *)
Fixpoint callbacks (n fuel : nat) (ms : list metablock) (cm : compressor) (data : list Z) (cap : Z) (err : bool) : option (compressor * list Z * Z * bool) :=
  match ms with
  | [] => Some (cm, data, cap, err)
  | m :: ms => let? '(cm, data, cap, e) := callback n fuel m cm data cap in callbacks n fuel ms cm data cap (err || e)
  end.
(** the loop that flushes the codec, src/brotli_ir_gen.rs:208-222 *)
Fixpoint flush_codec (n fuel : nat) (cm : compressor) (data : list Z) (cap : Z) : option (compressor * list Z * Z * pres) :=
  match n with
  | O => None
  | S n =>
      let cap := grown (zlen data) cap (16 + 256) in
      let? '(o, c, r) := codec_flush dict wl D g fuel (cm_codec cm) (cap - zlen data) in
      let cm := CM (cm_hdr cm) (cm_ws cm) c in
      match r with
      | RNeedsMoreOutput => flush_codec n fuel cm (data ++ o) cap
      | RSuccess => Some (cm, data ++ o, cap, PSuccess)
      | RNeedsMoreInput => Some (cm, data ++ o, cap, PNeedIn)
      | RFailure _ => Some (cm, data ++ o, cap, PFail)
      end
  end.
(** internal_encode_stream, src/brotli_ir_gen.rs:123-226; [fin] is both the operation and
    is_end *)
Definition internal_encode_stream (n fuel : nat) (fin : bool) (input : list Z) (s : hybrid) : option (Z * hybrid * pres) :=
  if (zlen input =? 0) && b_finished fe (h_b s) then Some (0, s, PSuccess) else
  let bcap := grown (h_bsize s) (h_bcap s) 256 in
  let available_out := bcap - h_bsize s in
  match b_step fe (h_b s) fin input available_out with
  | None => Some (0, HY (h_b s) (h_cm s) (h_bsize s) bcap (h_data s) (h_cap s) (h_off s), PFail)
  | Some (k, w, ms, b) =>
      let? '(cm, data, cap, err) := callbacks n fuel ms (h_cm s) (h_data s) (h_cap s) false in
      let st cm data cap := HY b cm (h_bsize s + w) bcap data cap (h_off s) in
      if negb (available_out - w =? 0) && (zlen input - k =? 0) && negb (b_finished fe b) then Some (k, st cm data cap, PNeedIn) else
      if err then Some (k, st cm data cap, PFail) else
      if fin && negb (b_finished fe b) then Some (k, st cm data cap, PNeedOut) else
      if fin then
        let? '(cm, data, cap, r) := flush_codec n fuel cm data cap in Some (k, st cm data cap, r)
      else Some (k, st cm data cap, PNeedIn)
  end.
(** Compressor::encode, src/brotli_ir_gen.rs:247-262; nothing is written to the output *)
Definition hybrid_encode (n fuel : nat) (s : hybrid) (input : list Z) (room : Z) : option (Z * list Z * hybrid * pres) :=
  let? '(k, s, r) := internal_encode_stream n fuel false input s in
  Some (k, [], s, match r with PNeedOut | PFail => PFail | PSuccess | PNeedIn => PNeedIn end).
(** the loop of flush, src/brotli_ir_gen.rs:273-285; [true]: the success area *)
Fixpoint drive (n m fuel : nat) (s : hybrid) : option (hybrid * bool) :=
  match n with
  | O => None
  | S n =>
      let? '(_, s, r) := internal_encode_stream m fuel true [] s in
      match r with
      | PFail | PNeedIn => Some (s, false)
      | PSuccess => Some (s, true)
      | PNeedOut => drive n m fuel s
      end
  end.
(** Compressor::flush, src/brotli_ir_gen.rs:263-297 *)
Definition hybrid_flush (n fuel : nat) (s : hybrid) (room : Z) : option (list Z * hybrid * pres) :=
  let '(h, cm, ok) := start_call (h_cm s) room in
  let s := HY (h_b s) cm (h_bsize s) (h_bcap s) (h_data s) (h_cap s) (h_off s) in
  if negb ok then Some (h, s, PNeedOut) else
  let? '(s, fine) := drive n n fuel s in
  if negb fine then Some (h, s, PFail) else
  let src := zskip (h_off s) (h_data s) in
  let len := Z.min (zlen src) (room - zlen h) in
  let off := h_off s + len in
  Some (h ++ zfirst len src, HY (h_b s) (h_cm s) (h_bsize s) (h_bcap s) (h_data s) (h_cap s) off,
        if off =? zlen (h_data s) then PSuccess else PNeedOut).
(** as a Processor, src/reader.rs and src/writer.rs *)
Definition hybrid_processor (n fuel : nat) : processor hybrid := PROC (hybrid_encode n fuel) (hybrid_flush n fuel).
End Hybrid.
