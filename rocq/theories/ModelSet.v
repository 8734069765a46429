(** What the settings become: the parameters brotli's encoder is told, and how the tool's
    main fills in the same options as the C API.
    src/brotli_ir_gen.rs:344-444, src/bin/divans.rs:1588-1611. *)
From Verif Require Import Prelude ModelHeader ModelFfi.
From Verif Require ModelArgs.

(** BrotliEncoderParameter, the ones used; from the brotli crate *)
Inductive param :=
| MODE | LGWIN | LGBLOCK | QUALITY | Q9_5 | METABLOCK_CALLBACK | CDF_ADAPTATION_DETECTION | STRIDE_DETECTION_QUALITY | LITERAL_BYTE_SCORE | PRIOR_BITMASK_DETECTION
| CM_SPEED | CM_SPEED_MAX | CM_SPEED_LOW | CM_SPEED_LOW_MAX | SPEED | SPEED_MAX | SPEED_LOW | SPEED_LOW_MAX.
(** the values: numbers, except for the four modes of BrotliEncoderMode that are used *)
Inductive pvalue := Num (z : Z) | FORCE_LSB_PRIOR | FORCE_MSB_PRIOR | FORCE_UTF8_PRIOR | FORCE_SIGNED_PRIOR.
(** src/brotli_ir_gen.rs:376-387; LITERAL_PREDICTION_MODE_LSB6, MSB6, UTF8, SIGN are 0, 1, 2, 3 *)
Definition force_mode (m : Z) : pvalue :=
  if m =? 0 then FORCE_LSB_PRIOR else if m =? 1 then FORCE_MSB_PRIOR else if m =? 2 then FORCE_UTF8_PRIOR else if m =? 3 then FORCE_SIGNED_PRIOR else FORCE_SIGNED_PRIOR.
Definition default (o : option Z) (d : Z) : Z := match o with Some v => v | None => d end.
(** The calls of BrotliEncoderSetParameter in order, src/brotli_ir_gen.rs:375-442.  Their
    results are ignored there. *)
Definition told (o : opts) : list (param * pvalue) :=
  match o_context_mode o with Some m => [(MODE, force_mode m)] | None => [] end ++
  [(LGWIN, Num (choose_window (o_window_size o)))] ++
  [(LGBLOCK, Num (default (o_lgblock o) 18))] ++
  [(QUALITY, Num (default (o_quality o) 10))] ++
  (if o_q9_5 o then [(Q9_5, Num 1)] else []) ++
  [(METABLOCK_CALLBACK, Num 1)] ++
  [(CDF_ADAPTATION_DETECTION, Num (default (o_speed_quality o) 0))] ++
  [(STRIDE_DETECTION_QUALITY, Num (default (o_stride_quality o) 0))] ++
  match o_byte_score o with Some s => [(LITERAL_BYTE_SCORE, Num s)] | None => [] end ++
  [(PRIOR_BITMASK_DETECTION, Num (o_bitmask o))] ++
  match o_literal_adaptation o with
  | Some speed =>
      let at_ k := nth k speed (0, 0) in
      [(CM_SPEED, Num (fst (at_ 3%nat))); (CM_SPEED_MAX, Num (snd (at_ 3%nat)));
       (CM_SPEED_LOW, Num (fst (at_ 2%nat))); (CM_SPEED_LOW_MAX, Num (snd (at_ 2%nat)));
       (SPEED, Num (fst (at_ 1%nat))); (SPEED_MAX, Num (snd (at_ 1%nat)));
       (SPEED_LOW, Num (fst (at_ 0%nat))); (SPEED_LOW_MAX, Num (snd (at_ 0%nat)))]
  | None => []
  end.
(** the window of the file's header, src/brotli_ir_gen.rs:347 and 372 *)
Definition header_window (o : opts) : Z := choose_window (o_window_size o).
(** DivansCompressorOptions as main fills them in, src/bin/divans.rs:1588-1611, from the
    options of ModelArgs.v *)
Definition main_options (o : ModelArgs.opts) : opts :=
  OPTS (ModelArgs.o_adapt o) (ModelArgs.o_window o) (ModelArgs.o_lgblock o) (ModelArgs.o_quality o) (ModelArgs.o_q95 o) (ModelArgs.o_lmode o) (ModelArgs.o_mixing o)
    (ModelArgs.o_strideq o) (ModelArgs.o_speedq o) (if ModelArgs.o_brotli o then UseBrotliCommandSelection else UseInternalCommandSelection) (ModelArgs.o_cmap o)
    (match ModelArgs.o_stride o with ModelArgs.UseBrotliRec => UseBrotliRec | ModelArgs.PriorDisabled => Stride 0 | ModelArgs.FixedStride n => Stride n end)
    (ModelArgs.o_depth o) (if ModelArgs.o_findprior o then 1 else 0) (ModelArgs.o_score o) (if ModelArgs.o_optimise o then 1 else 0).
(** settings made one after the other through the C API: a refused one changes nothing,
    src/ffi/compressor.rs:63-165 *)
Definition set_all (l : list (Z * Z)) (o : opts) : opts :=
  fold_left (fun o sv => match set_option_match o (fst sv) (snd sv) with Some o => o | None => o end) l o.
