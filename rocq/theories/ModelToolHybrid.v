(** The command line tool with its default settings: the brotli front end.  src/bin/divans.rs. *)
From Verif Require Import Prelude ModelMux ModelHeader ModelRecode ModelCodec ModelPm ModelTop ModelEnc ModelDec ModelIo ModelHybrid ModelTool.

Section Tool.
Context (dict : dict_fn) (wl : word_len_fn) (D : dims) (g : cfg) (opt : option Z).
Context {B : Type} (fe : frontend B) (optimize : metablock -> option metablock) (b0 : B).
(** compress_raw, src/bin/divans.rs:852-944, with use_brotli true, the default (1208).
    [m] and [fuel] are for the library, [n] for the loop of the tool. *)
Definition tool_compress_default (m fuel n : nat) (bs : Z) (force : bool) (src : list event) (f : outfile) : outfile * tend :=
  if force then compress_raw_inner (hybrid_processor dict wl D g fe optimize m fuel) (real_size bs) n (hybrid_new D b0 opt) [] src f
  else
    match sniff [] src with
    | None => (f, TError)
    | Some (header, src) =>
        if is_divans header then tool_decompress dict wl D fuel n bs false header src f
        else compress_raw_inner (hybrid_processor dict wl D g fe optimize m fuel) (real_size bs) n (hybrid_new D b0 opt) header src f
    end.
End Tool.
