(** Model of the C API's compressor options and entry points:
    src/ffi/compressor.rs, src/ffi/mod.rs, src/ffi/interface.rs.
    The compressors behind it are abstract: a state type, two factories and an
    encode and a flush function. *)
From Verif Require Import Prelude ModelMux.

(** return codes, src/ffi/interface.rs:9-13 *)
Definition DIVANS_SUCCESS : Z := 0.
Definition DIVANS_NEEDS_MORE_INPUT : Z := 1.
Definition DIVANS_NEEDS_MORE_OUTPUT : Z := 2.
Definition DIVANS_FAILURE : Z := 3.

(** BrotliCompressionSetting, src/interface.rs:433-442; StrideSelection,
    src/codec/interface.rs:53-64 ([Stride 0] is PriorDisabled) *)
Inductive brotli_setting := UseInternalCommandSelection | UseBrotliCommandSelection | UseBrotliBitstream.
Inductive stride_setting := Stride (k : Z) | UseBrotliRec.
(** DivansCompressorOptions, src/interface.rs:445-462 *)
Record opts := OPTS {
  o_literal_adaptation : option (list (Z * Z));
  o_window_size : option Z;
  o_lgblock : option Z;
  o_quality : option Z;
  o_q9_5 : bool;
  o_context_mode : option Z;
  o_mixing : option Z;
  o_stride_quality : option Z;
  o_speed_quality : option Z;
  o_use_brotli : brotli_setting;
  o_context_map : bool;
  o_stride : stride_setting;
  o_prior_depth : option Z;
  o_bitmask : Z;
  o_byte_score : option Z;
  o_ir : Z }.
(** default, src/interface.rs:463-484 *)
Definition opts_default : opts :=
  OPTS None (Some 22) (Some 22) (Some 11) false None (Some 1) None None UseBrotliCommandSelection true UseBrotliRec None 1 None 0.
Definition set_o_literal_adaptation (o : opts) (v : option (list (Z * Z))) : opts :=
  OPTS v (o_window_size o) (o_lgblock o) (o_quality o) (o_q9_5 o) (o_context_mode o) (o_mixing o) (o_stride_quality o) (o_speed_quality o) (o_use_brotli o) (o_context_map o) (o_stride o) (o_prior_depth o) (o_bitmask o) (o_byte_score o) (o_ir o).
Definition set_o_window_size (o : opts) (v : option Z) : opts :=
  OPTS (o_literal_adaptation o) v (o_lgblock o) (o_quality o) (o_q9_5 o) (o_context_mode o) (o_mixing o) (o_stride_quality o) (o_speed_quality o) (o_use_brotli o) (o_context_map o) (o_stride o) (o_prior_depth o) (o_bitmask o) (o_byte_score o) (o_ir o).
Definition set_o_lgblock (o : opts) (v : option Z) : opts :=
  OPTS (o_literal_adaptation o) (o_window_size o) v (o_quality o) (o_q9_5 o) (o_context_mode o) (o_mixing o) (o_stride_quality o) (o_speed_quality o) (o_use_brotli o) (o_context_map o) (o_stride o) (o_prior_depth o) (o_bitmask o) (o_byte_score o) (o_ir o).
Definition set_o_quality (o : opts) (v : option Z) : opts :=
  OPTS (o_literal_adaptation o) (o_window_size o) (o_lgblock o) v (o_q9_5 o) (o_context_mode o) (o_mixing o) (o_stride_quality o) (o_speed_quality o) (o_use_brotli o) (o_context_map o) (o_stride o) (o_prior_depth o) (o_bitmask o) (o_byte_score o) (o_ir o).
Definition set_o_q9_5 (o : opts) (v : bool) : opts :=
  OPTS (o_literal_adaptation o) (o_window_size o) (o_lgblock o) (o_quality o) v (o_context_mode o) (o_mixing o) (o_stride_quality o) (o_speed_quality o) (o_use_brotli o) (o_context_map o) (o_stride o) (o_prior_depth o) (o_bitmask o) (o_byte_score o) (o_ir o).
Definition set_o_context_mode (o : opts) (v : option Z) : opts :=
  OPTS (o_literal_adaptation o) (o_window_size o) (o_lgblock o) (o_quality o) (o_q9_5 o) v (o_mixing o) (o_stride_quality o) (o_speed_quality o) (o_use_brotli o) (o_context_map o) (o_stride o) (o_prior_depth o) (o_bitmask o) (o_byte_score o) (o_ir o).
Definition set_o_mixing (o : opts) (v : option Z) : opts :=
  OPTS (o_literal_adaptation o) (o_window_size o) (o_lgblock o) (o_quality o) (o_q9_5 o) (o_context_mode o) v (o_stride_quality o) (o_speed_quality o) (o_use_brotli o) (o_context_map o) (o_stride o) (o_prior_depth o) (o_bitmask o) (o_byte_score o) (o_ir o).
Definition set_o_stride_quality (o : opts) (v : option Z) : opts :=
  OPTS (o_literal_adaptation o) (o_window_size o) (o_lgblock o) (o_quality o) (o_q9_5 o) (o_context_mode o) (o_mixing o) v (o_speed_quality o) (o_use_brotli o) (o_context_map o) (o_stride o) (o_prior_depth o) (o_bitmask o) (o_byte_score o) (o_ir o).
Definition set_o_speed_quality (o : opts) (v : option Z) : opts :=
  OPTS (o_literal_adaptation o) (o_window_size o) (o_lgblock o) (o_quality o) (o_q9_5 o) (o_context_mode o) (o_mixing o) (o_stride_quality o) v (o_use_brotli o) (o_context_map o) (o_stride o) (o_prior_depth o) (o_bitmask o) (o_byte_score o) (o_ir o).
Definition set_o_use_brotli (o : opts) (v : brotli_setting) : opts :=
  OPTS (o_literal_adaptation o) (o_window_size o) (o_lgblock o) (o_quality o) (o_q9_5 o) (o_context_mode o) (o_mixing o) (o_stride_quality o) (o_speed_quality o) v (o_context_map o) (o_stride o) (o_prior_depth o) (o_bitmask o) (o_byte_score o) (o_ir o).
Definition set_o_context_map (o : opts) (v : bool) : opts :=
  OPTS (o_literal_adaptation o) (o_window_size o) (o_lgblock o) (o_quality o) (o_q9_5 o) (o_context_mode o) (o_mixing o) (o_stride_quality o) (o_speed_quality o) (o_use_brotli o) v (o_stride o) (o_prior_depth o) (o_bitmask o) (o_byte_score o) (o_ir o).
Definition set_o_stride (o : opts) (v : stride_setting) : opts :=
  OPTS (o_literal_adaptation o) (o_window_size o) (o_lgblock o) (o_quality o) (o_q9_5 o) (o_context_mode o) (o_mixing o) (o_stride_quality o) (o_speed_quality o) (o_use_brotli o) (o_context_map o) v (o_prior_depth o) (o_bitmask o) (o_byte_score o) (o_ir o).
Definition set_o_prior_depth (o : opts) (v : option Z) : opts :=
  OPTS (o_literal_adaptation o) (o_window_size o) (o_lgblock o) (o_quality o) (o_q9_5 o) (o_context_mode o) (o_mixing o) (o_stride_quality o) (o_speed_quality o) (o_use_brotli o) (o_context_map o) (o_stride o) v (o_bitmask o) (o_byte_score o) (o_ir o).
Definition set_o_bitmask (o : opts) (v : Z) : opts :=
  OPTS (o_literal_adaptation o) (o_window_size o) (o_lgblock o) (o_quality o) (o_q9_5 o) (o_context_mode o) (o_mixing o) (o_stride_quality o) (o_speed_quality o) (o_use_brotli o) (o_context_map o) (o_stride o) (o_prior_depth o) v (o_byte_score o) (o_ir o).
Definition set_o_byte_score (o : opts) (v : option Z) : opts :=
  OPTS (o_literal_adaptation o) (o_window_size o) (o_lgblock o) (o_quality o) (o_q9_5 o) (o_context_mode o) (o_mixing o) (o_stride_quality o) (o_speed_quality o) (o_use_brotli o) (o_context_map o) (o_stride o) (o_prior_depth o) (o_bitmask o) v (o_ir o).
Definition set_o_ir (o : opts) (v : Z) : opts :=
  OPTS (o_literal_adaptation o) (o_window_size o) (o_lgblock o) (o_quality o) (o_q9_5 o) (o_context_mode o) (o_mixing o) (o_stride_quality o) (o_speed_quality o) (o_use_brotli o) (o_context_map o) (o_stride o) (o_prior_depth o) (o_bitmask o) (o_byte_score o) v.

(** Speed::ENCODER_DEFAULT_PALETTE, src/probability/interface.rs:303-320 *)
Definition PALETTE : list (Z * Z) :=
  [(0, 1024); (2, 1024); (1, 128); (1, 16384); (2, 2048); (4, 1024); (8, 8192); (16, 48);
   (16, 8192); (32, 4096); (64, 16384); (128, 256); (128, 16384); (512, 16384); (1664, 16384)].
(** the four literal adaptation arms, src/ffi/compressor.rs:102-149 *)
Definition set_adaptation (o : opts) (k : nat) (v : Z) : option opts :=
  if zlen PALETTE <=? v then None else
  let s := nth (Z.to_nat v) PALETTE (0, 0) in
  Some (set_o_literal_adaptation o (Some
    match o_literal_adaptation o with
    | None => [s; s; s; s]
    | Some a => firstn k a ++ s :: skipn (S k) a
    end)).
Definition u8c (v : Z) : Z := v mod 256.
(** u32 as i32 *)
Definition i32c (v : Z) : Z := if v <? 2 ^ 31 then v else v - 2 ^ 32.
(** the match of set_option, src/ffi/compressor.rs:66-163, with the selector
    numbers of src/ffi/interface.rs:19-38; [None] is the early
    [return DIVANS_FAILURE] *)
Definition set_option_match (o : opts) (sel v : Z) : option opts :=
  if sel =? 1 then Some (set_o_quality o (Some (v mod 2 ^ 16)))
  else if sel =? 2 then Some (set_o_window_size o (Some (i32c v)))
  else if sel =? 3 then Some (set_o_lgblock o (Some v))
  else if sel =? 10 then Some (set_o_stride_quality o (Some (u8c v)))
  else if sel =? 17 then Some (set_o_bitmask o (u8c v))
  else if sel =? 16 then Some (set_o_speed_quality o (Some (u8c v)))
  else if sel =? 4 then Some (set_o_mixing o (Some (u8c v)))
  else if sel =? 5 then
    (if v =? 0 then Some (set_o_use_brotli o UseInternalCommandSelection)
     else if v =? 1 then Some (set_o_use_brotli o UseBrotliCommandSelection)
     else if v =? 2 then Some (set_o_use_brotli o UseBrotliBitstream)
     else None)
  else if sel =? 6 then
    (if v =? 1 then Some (set_o_use_brotli o UseBrotliBitstream) else None)
  else if sel =? 15 then Some (set_o_byte_score o (Some v))
  else if sel =? 7 then
    (if v =? 1 then Some (set_o_context_map o true)
     else if v =? 0 then Some (set_o_context_map o false)
     else None)
  else if sel =? 9 then
    (if (0 <=? v) && (v <=? 8) then Some (set_o_stride o (Stride v)) else None)
  else if sel =? 12 then set_adaptation o 1 v
  else if sel =? 8 then set_adaptation o 3 v
  else if sel =? 14 then set_adaptation o 0 v
  else if sel =? 13 then set_adaptation o 2 v
  else if sel =? 11 then Some (set_o_prior_depth o (Some (u8c v)))
  else if sel =? 18 then Some (set_o_q9_5 o (negb (u8c v =? 0)))
  else if sel =? 19 then Some (set_o_context_mode o (Some (u8c v)))
  else if sel =? 20 then Some (set_o_ir o (u8c v))
  else None.

(** DivansResult and DivansOutputResult, src/interface.rs:103-133 (the failure's
    message does not cross the C API) *)
Inductive dres := RSuccess | RNeedsMoreInput | RNeedsMoreOutput | RFailure.
(** src/ffi/compressor.rs:233-238, 258-262, src/ffi/mod.rs:241-246 *)
Definition code (r : dres) : Z :=
  match r with
  | RSuccess => DIVANS_SUCCESS
  | RFailure => DIVANS_FAILURE
  | RNeedsMoreInput => DIVANS_NEEDS_MORE_INPUT
  | RNeedsMoreOutput => DIVANS_NEEDS_MORE_OUTPUT
  end.

Section Api.
(** [X]: state of a started compressor; [A]: what the caller passes to encode or
    flush; [mk_internal], [mk_brotli]: the two factories of
    src/ffi/compressor.rs:166-212 *)
Context {X A : Type} (mk_internal mk_brotli : opts -> X) (enc fl : X -> A -> dres * X).
(** CompressorState, src/ffi/compressor.rs:52-56 *)
Inductive cstate := OptionStage (o : opts) | Started (x : X).
Definition cs_new : cstate := OptionStage opts_default.
(** set_option, src/ffi/compressor.rs:64-165 *)
Definition set_option (s : cstate) (sel v : Z) : Z * cstate :=
  match s with
  | OptionStage o =>
      match set_option_match o sel v with
      | None => (DIVANS_FAILURE, s)
      | Some o => (DIVANS_SUCCESS, OptionStage o)
      end
  | Started _ => (DIVANS_FAILURE, s)
  end.
(** start, src/ffi/compressor.rs:166-212 *)
Definition start (o : opts) : X :=
  match o_use_brotli o with
  | UseInternalCommandSelection => mk_internal o
  | _ => mk_brotli o
  end.
Definition started (s : cstate) : X := match s with OptionStage o => start o | Started x => x end.
(** encode, flush, src/ffi/compressor.rs:213-263 *)
Definition cs_encode (s : cstate) (a : A) : Z * cstate :=
  let '(r, x) := enc (started s) a in (code r, Started x).
Definition cs_flush (s : cstate) (a : A) : Z * cstate :=
  let '(r, x) := fl (started s) a in (code r, Started x).
(** One call of the C API on one compressor: divans_set_option,
    divans_encode, divans_encode_flush, src/ffi/mod.rs:57-116.  The flags say
    which of the pointers checked by the code are not null. *)
Inductive call :=
| CSet (state_ptr : bool) (sel v : Z)
| CEnc (in_off_ptr out_off_ptr state_ptr : bool) (a : A)
| CFlush (out_off_ptr state_ptr : bool) (a : A).
Definition api (s : cstate) (c : call) : Z * cstate :=
  match c with
  | CSet p sel v => if p then set_option s sel v else (DIVANS_FAILURE, s)
  | CEnc p1 p2 p3 a =>
      if p1 then if p2 then if p3 then cs_encode s a else (DIVANS_FAILURE, s) else (DIVANS_FAILURE, s) else (DIVANS_FAILURE, s)
  | CFlush p1 p2 a =>
      if p1 then if p2 then cs_flush s a else (DIVANS_FAILURE, s) else (DIVANS_FAILURE, s)
  end.
Fixpoint api_run (s : cstate) (l : list call) : list Z * cstate :=
  match l with
  | [] => ([], s)
  | c :: l => let '(r, s) := api s c in let '(rs, s) := api_run s l in (r :: rs, s)
  end.
End Api.
Arguments cstate : clear implicits.
Arguments call : clear implicits.
