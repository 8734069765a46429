(** Model of the C API over the real compressor and decompressor: the calls
    divans_set_option, divans_encode, divans_encode_flush and divans_decode with buffers
    and offsets.  src/ffi/mod.rs, src/ffi/compressor.rs.  The option state is that of
    ModelFfi; null pointers and their refusal are there too.  [None] is a panic.
    Brotli's encoder is a parameter, as in ModelHybrid. *)
From Verif Require Import Prelude ModelFfi ModelMux ModelCmd ModelRecode ModelPriors ModelCodec ModelPm ModelTop ModelEnc ModelDec ModelRaw ModelRawEnc ModelThread ModelHybrid ModelToolThread.
From Verif Require ModelIo.

(** StrideSelection as the number the codec writes, src/codec/interface.rs:51-64,
    src/codec/block_type.rs:177-189; 9 stands for UseBrotliRec *)
Definition stride_code (s : stride_setting) : Z := match s with Stride k => k | UseBrotliRec => 9 end.
Definition unwrap_or (d : Z) (o : option Z) : Z := match o with Some v => v | None => d end.
(** the options as the codec keeps them: DivansCompressorFactoryStruct::new,
    src/divans_compressor.rs:92-112, and the constructor in src/codec/interface.rs:354-400 *)
Definition cfg_of (o : opts) : cfg :=
  cfg_new (unwrap_or 0 (o_mixing o)) (unwrap_or 0 (o_prior_depth o)) (o_literal_adaptation o) (o_context_map o) (stride_code (o_stride o)).

Section Capi.
Context (dict : dict_fn) (wl : word_len_fn) (D : dims).
(** [create o]: BrotliEncoderCreateInstance and the BrotliEncoderSetParameter calls with
    the options, src/brotli_ir_gen.rs:353, 376-440; [optimize o]: ir_optimize with them *)
Context {B : Type} (fe : frontend B) (create : opts -> B) (optimize : opts -> metablock -> option metablock).
(** InternalCompressor and BrotliCompressor, src/ffi/compressor.rs:52-56 *)
Inductive comp := Internal (g : cfg) (s : rawc) | Brotli (o : opts) (s : @hybrid B).
(** InternalCompressorFactory::new, src/divans_compressor.rs:84-124, with the assertion
    of src/codec/interface.rs:360 *)
Definition new_internal (o : opts) : option comp :=
  assert (unwrap_or 0 (o_mixing o) <? 15) (Some (Internal (cfg_of o) (rawc_new D (o_window_size o)))).
(** BrotliDivansHybridCompressorFactory::new, src/brotli_ir_gen.rs:344-441, with the same
    assertion *)
Definition new_brotli (o : opts) : option comp :=
  assert (unwrap_or 0 (o_mixing o) <? 15) (Some (Brotli o (hybrid_new D (create o) (o_window_size o)))).
Definition capi := cstate (option comp).
(** start, src/ffi/compressor.rs:167-212 *)
Definition c_started (s : capi) : option comp := started new_internal new_brotli s.
(** src/ffi/compressor.rs:233-238, 258-262 *)
Definition cres_code (r : cres) : Z :=
  ModelFfi.code match r with
  | RSuccess => ModelFfi.RSuccess | RNeedsMoreInput => ModelFfi.RNeedsMoreInput
  | RNeedsMoreOutput => ModelFfi.RNeedsMoreOutput | RFailure _ => ModelFfi.RFailure end.
Definition pres_code (r : ModelIo.pres) : Z :=
  ModelFfi.code match r with
  | ModelIo.PSuccess => ModelFfi.RSuccess | ModelIo.PNeedIn => ModelFfi.RNeedsMoreInput
  | ModelIo.PNeedOut => ModelFfi.RNeedsMoreOutput | ModelIo.PFail => ModelFfi.RFailure end.
(** divans_encode, src/ffi/mod.rs:69-91, src/ffi/compressor.rs:213-239: return code, new
    input offset, output buffer, new output offset, new state *)
Definition c_encode (fuel : nat) (s : capi) (inb : list Z) (inoff : Z) (outb : list Z) (outoff : Z)
  : option (Z * Z * list Z * Z * capi) :=
  let? c := c_started s in
  match c with
  | Brotli o x =>
      assert ((0 <=? inoff) && (inoff <=? zlen inb)) (
      let? '(n, _, x, r) := hybrid_encode dict wl D (cfg_of o) fe (optimize o) fuel fuel x (zskip inoff inb) (zlen outb - outoff) in
      Some (pres_code r, inoff + n, outb, outoff, Started (Some (Brotli o x))))
  | Internal g x =>
      assert ((0 <=? inoff) && (inoff <=? zlen inb)) (assert ((0 <=? outoff) && (outoff <=? zlen outb)) (
      let? '(n, o, x, r) := encode_raw dict wl D g fuel x (zskip inoff inb) (zlen outb - outoff) in
      assert (outoff + zlen o <=? zlen outb)
        (Some (cres_code r, inoff + n, put_at outb outoff o, outoff + zlen o, Started (Some (Internal g x))))))
  end.
(** divans_encode_flush, src/ffi/mod.rs:93-109, src/ffi/compressor.rs:240-263 *)
Definition c_flush (fuel : nat) (s : capi) (outb : list Z) (outoff : Z) : option (Z * list Z * Z * capi) :=
  let? c := c_started s in
  match c with
  | Brotli o x =>
      assert ((0 <=? outoff) && (outoff <=? zlen outb)) (
      let? '(w, x, r) := hybrid_flush dict wl D (cfg_of o) fe (optimize o) fuel fuel x (zlen outb - outoff) in
      assert (outoff + zlen w <=? zlen outb)
        (Some (pres_code r, put_at outb outoff w, outoff + zlen w, Started (Some (Brotli o x)))))
  | Internal g x =>
      assert ((0 <=? outoff) && (outoff <=? zlen outb)) (
      let? '(o, x, r) := flush_raw dict wl D g fuel x (zlen outb - outoff) in
      assert (outoff + zlen o <=? zlen outb)
        (Some (cres_code r, put_at outb outoff o, outoff + zlen o, Started (Some (Internal g x)))))
  end.
(** src/ffi/mod.rs:250-255 *)
Definition dres_code (r : ModelDec.dres) : Z :=
  ModelFfi.code match r with
  | DSuccess => ModelFfi.RSuccess | DNeedIn => ModelFfi.RNeedsMoreInput
  | DNeedOut => ModelFfi.RNeedsMoreOutput | DFail => ModelFfi.RFailure end.
(** divans_decode, src/ffi/mod.rs:235-262, of a decompressor made by
    divans_new_serial_decompressor or with [multithread] 0 (190-233); [skip] is skip_crc *)
Definition c_decode (skip : bool) (fuel : nat) (d : decompressor) (inb : list Z) (inoff : Z) (outb : list Z) (outoff : Z)
  : option (Z * Z * list Z * Z * decompressor) :=
  assert ((0 <=? inoff) && (inoff <=? zlen inb)) (assert ((0 <=? outoff) && (outoff <=? zlen outb)) (
  let? '(n, o, d, r) := decode dict wl D skip fuel d (zskip inoff inb) (zlen outb - outoff) in
  assert (outoff + zlen o <=? zlen outb)
    (Some (dres_code r, inoff + n, put_at outb outoff o, outoff + zlen o, d)))).
(** the same of a decompressor made by divans_new_decompressor or with [multithread] 1
    (src/ffi/mod.rs:177-187, 211-233): two threads, the operating system's choices in the
    state *)
Definition c_decode_parallel (skip : bool) (p : pstate) (inb : list Z) (inoff : Z) (outb : list Z) (outoff : Z)
  : option (Z * Z * list Z * Z * pstate) :=
  assert ((0 <=? inoff) && (inoff <=? zlen inb)) (assert ((0 <=? outoff) && (outoff <=? zlen outb)) (
  let? '(n, o, p, r) := parallel_decode dict wl D skip (ps_sched p) (ps_on p) (ps_d p) (zskip inoff inb) (zlen outb - outoff) in
  assert (outoff + zlen o <=? zlen outb)
    (Some (pres_code r, inoff + n, put_at outb outoff o, outoff + zlen o, p)))).
(** divans_free_decompressor, src/ffi/mod.rs:313-325 and Drop, src/ffi/decompressor.rs:18-22:
    whether it returns *)
Definition c_free_parallel (skip : bool) (p : pstate) : bool := parallel_free dict wl D skip p.
End Capi.
