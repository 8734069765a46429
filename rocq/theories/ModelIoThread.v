(** The std::io adapters over the decompressor with two threads.
    src/reader.rs:268-320, src/writer.rs:235-295 with [multithread]. *)
From Verif Require Import Prelude ModelMux ModelHeader ModelRecode ModelCodec ModelPm ModelTop ModelEnc ModelDec ModelRawEnc ModelThread ModelIo ModelHybrid ModelTool ModelToolThread.

(** impl Processor for DivansConstructedDecompressor, src/reader.rs:268-286,
    src/writer.rs:235-251, the decompressor having been made with [multithread]; [close]
    is a call of decode without input, and NeedsMoreInput an error.  What the operating
    system decides is part of the decompressor's state, as in ModelToolThread.v. *)
Definition decompressing_parallel dict wl (D : _) (skip : bool) : processor pstate := PROC
  (fun p input room => parallel_decode dict wl D skip (ps_sched p) (ps_on p) (ps_d p) input room)
  (fun p room =>
     let? '(_, o, p, r) := parallel_decode dict wl D skip (ps_sched p) (ps_on p) (ps_d p) [] room in
     Some (o, p, match r with PNeedIn => PFail | r => r end)).
(** DivansDecompressorReader::new, src/reader.rs:297-320, and
    DivansDecompressorWriter::new, src/writer.rs:266-291, start from this *)
Definition parallel_new (sched : list ModelThread.event) : pstate := PS pdec_new false sched.
