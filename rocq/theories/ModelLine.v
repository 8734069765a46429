(** From a command line to a run of the tool: what main, src/bin/divans.rs:1198-1713, does
    with the plan of ModelArgs.v for the two jobs on binary data.  The two jobs on text
    (-i, --recode) are taken up in ModelLineText.v; a run is one turn of
    the loop at 1627-1659.  [TPanic] and [TError] are one for the user: main panics on
    every error (1635, 1670, 1700). *)
From Verif Require Import Prelude ModelMux ModelHeader ModelRecode ModelCmd ModelPriors ModelCodec ModelPm ModelTop ModelEnc ModelDec ModelRawEnc ModelThread ModelIo ModelHybrid ModelTool ModelToolHybrid ModelToolThread.
From Verif Require ModelArgs.

(** StrideSelection as the number the codec writes, src/codec/interface.rs:51-64 *)
Definition stride_number (s : ModelArgs.stride_sel) : Z :=
  match s with ModelArgs.UseBrotliRec => 9 | ModelArgs.PriorDisabled => 0 | ModelArgs.FixedStride n => n end.
Definition or_zero (o : option Z) : Z := match o with Some v => v | None => 0 end.
(** the options as the codec keeps them, src/divans_compressor.rs:101-112,
    src/brotli_ir_gen.rs:359-368 and src/codec/interface.rs:354-400 *)
Definition line_cfg (o : ModelArgs.opts) : cfg :=
  cfg_new (or_zero (ModelArgs.o_mixing o)) (or_zero (ModelArgs.o_depth o)) (ModelArgs.o_adapt o) (ModelArgs.o_cmap o) (stride_number (ModelArgs.o_stride o)).

Section Run.
Context (dict : dict_fn) (wl : word_len_fn) (D : dims).
(** brotli's encoder, created with the options, and ir_optimize, as in ModelHybrid.v *)
Context {B : Type} (fe : frontend B) (create : ModelArgs.opts -> B) (optimize : ModelArgs.opts -> metablock -> option metablock).
(** decompress, src/bin/divans.rs:980-1004, with one thread or two *)
Definition expand (threads skip : bool) (sched : list ModelThread.event) (fuel n : nat) (bs : Z) (extra : list Z) (src : list event) (f : outfile) : outfile * tend :=
  if threads then tool_decompress_parallel dict wl D skip sched n bs extra src f else tool_decompress dict wl D fuel n bs skip extra src f.
(** the part of compress_raw, src/bin/divans.rs:886-944, that compresses; the constructor
    asserts that the mixing value is below 15, src/codec/interface.rs:360 *)
Definition shrink (p : ModelArgs.plan) (m fuel n : nat) (extra : list Z) (src : list event) (f : outfile) : outfile * tend :=
  let o := ModelArgs.p_opts p in
  let g := line_cfg o in
  let bs := real_size (ModelArgs.p_buffer p) in
  if negb (or_zero (ModelArgs.o_mixing o) <? 15) then (f, TPanic)
  else if ModelArgs.o_brotli o then compress_raw_inner (hybrid_processor dict wl D g fe (optimize o) m fuel) bs n (hybrid_new D (create o) (ModelArgs.o_window o)) extra src f
  else compress_raw_inner (compressing dict wl D g fuel) bs n (rawc_new D (ModelArgs.o_window o)) extra src f.
(** compress_raw, src/bin/divans.rs:852-944 *)
Definition compress_job (p : ModelArgs.plan) (sched : list ModelThread.event) (m fuel n : nat) (src : list event) (f : outfile) : outfile * tend :=
  if ModelArgs.p_force p then shrink p m fuel n [] src f
  else
    match sniff [] src with
    | None => (f, TError)
    | Some (header, src) =>
        if is_divans header then expand (ModelArgs.p_threads p) false sched fuel n (ModelArgs.p_buffer p) header src f
        else shrink p m fuel n header src f
    end.
Definition decompress_job (p : ModelArgs.plan) (sched : list ModelThread.event) (fuel n : nat) (src : list event) (f : outfile) : outfile * tend :=
  expand (ModelArgs.p_threads p) (ModelArgs.p_skipcrc p) sched fuel n (ModelArgs.p_buffer p) [] src f.
(** the whole program on a command line; [None]: the help text or the version, or a job on
    text *)
Definition run_line (args : list (list Z)) (sched : list ModelThread.event) (m fuel n : nat) (src : list event) (f : outfile) : option (outfile * tend) :=
  match ModelArgs.main args with
  | ModelArgs.MShown => None
  | ModelArgs.MPanic => Some (f, TPanic)
  | ModelArgs.MRun p =>
      match ModelArgs.p_job p with
      | ModelArgs.JCompress => Some (compress_job p sched m fuel n src f)
      | ModelArgs.JDecompress => Some (decompress_job p sched fuel n src f)
      | _ => None
      end
  end.
End Run.
