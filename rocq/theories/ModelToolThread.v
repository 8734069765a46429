(** The command line tool decompressing with two threads, its default.
    src/bin/divans.rs:980-1106 with [multithread] (PARALLEL_AVAILABLE, 1225). *)
From Verif Require Import Prelude ModelMux ModelHeader ModelRecode ModelCodec ModelPm ModelTop ModelEnc ModelDec ModelRawEnc ModelThread ModelIo ModelHybrid ModelTool.

Section Tool.
Context (dict : dict_fn) (wl : word_len_fn) (D : dims) (skip : bool).
(** What the operating system decides is a list of events, used up as time goes by; the
    threads' state ([ps_d]), whether the worker thread has had a turn ([ps_on]: it then
    holds the lock on the codec) and the events to come are the decompressor's state. *)
Record pstate := PS { ps_d : pdec; ps_on : bool; ps_sched : list ModelThread.event }.
Definition turn (e : ModelThread.event) (on : bool) : bool := match e with ByWorker => true | _ => on end.

(** The rest of a call of decode, src/parallel_decompressor.rs:172-206: events happen
    until the main thread's part returns.  [None]: a panic, or the events ran out. *)
Fixpoint await (sched : list ModelThread.event) (on : bool) (x : world) : option (world * dres * bool * list ModelThread.event) :=
  match tm_pc (wd_m x) with
  | MRet r => Some (x, r, on, sched)
  | _ =>
      match sched with
      | [] => None
      | e :: sched => let? x := step dict wl D skip e x in await sched (turn e on) x
      end
  end.
(** A call of decode, src/divans_decompressor.rs:340-399 with is_multi: before the main
    thread gets to it, the worker may run. *)
Fixpoint parallel_decode (sched : list ModelThread.event) (on : bool) (d : pdec) (input : list Z) (room : Z) : option (Z * list Z * pstate * pres) :=
  match sched with
  | [] => None
  | e :: sched =>
      match e with
      | ByMain =>
          match begin_call D skip d input room with
          | (d, Some (n, r)) => Some (n, [], PS d on sched, dec_pres r)
          | (PDecode x, None) =>
              let? '(x, r, on, sched) := await sched on x in
              Some (tm_n (wd_m x), tm_out (wd_m x), PS (PDecode x) on sched, dec_pres r)
          | (PHeader _, None) => None
          end
      | _ =>
          match d with
          | PHeader _ => parallel_decode sched on d input room
          | PDecode x => let? x := step dict wl D skip e x in parallel_decode sched (turn e on) (PDecode x) input room
          end
      end
  end.

(** decompress_generic as in [dloop] (ModelTool.v), src/bin/divans.rs:1008-1106, with the
    state in which it leaves the decompressor; [None]: after a panic. *)
Fixpoint ploop (bsize cap : Z) (fuel : nat) (p : pstate) (data : list Z) (off : Z) (src : list event) (pend : list Z) (f : outfile) : outfile * tend * option pstate :=
  match fuel with
  | O => (f, TSpin, Some p)
  | S fuel =>
      match parallel_decode (ps_sched p) (ps_on p) (ps_d p) (zskip off data) (bsize - zlen pend) with
      | None => (f, TPanic, None)
      | Some (n, o, p, r) =>
          if (zlen data - off <? n) || (bsize - zlen pend <? zlen o) then (f, TPanic, None) else
          let off := off + n in
          let pend := pend ++ o in
          match r with
          | PSuccess => let '(f, ok) := put f pend in (f, if ok then TDone else TError, Some p)
          | PFail => (f, TError, Some p)
          | PNeedOut =>
              let '(f, ok) := put f pend in
              if ok then ploop bsize cap fuel p data off src [] f else (f, TError, Some p)
          | PNeedIn =>
              let '(data, off) := if off =? zlen data then ([], 0) else (data, off) in
              if zlen data =? cap then ploop bsize cap fuel p data off src pend f else
              match read_more src (cap - zlen data) with
              | None => (f, TError, Some p)
              | Some ([], _) => (f, TError, Some p)
              | Some (l, src) => ploop bsize cap fuel p (data ++ l) off src pend f
              end
          end
      end
  end.
(** Waiting for the lock in free, src/parallel_decompressor.rs:154-171: the worker has
    ended, or has not had a turn when the main thread gets there. *)
Fixpoint wait_free (sched : list ModelThread.event) (on : bool) (x : world) : bool :=
  if free_returns x then true else
  match sched with
  | [] => false
  | e :: sched =>
      if match e with ByMain => negb on | _ => false end then true else
      match step dict wl D skip e x with Some x => wait_free sched (turn e on) x | None => false end
  end.
(** state.free(), src/bin/divans.rs:1002; in DivansDecompressor, a decompressor that has
    not read its header has no worker *)
Definition parallel_free (p : pstate) : bool :=
  match ps_d p with
  | PHeader _ => true
  | PDecode x => wait_free (ps_sched p) (ps_on p) (begin_free x)
  end.
(** decompress, src/bin/divans.rs:980-1004, with two threads.  The tool ends when free has
    returned; [TSpin]: it has not ended when the events are used up. *)
Definition tool_decompress_parallel (sched : list ModelThread.event) (n : nat) (bs : Z) (extra : list Z) (src : list event) (f : outfile) : outfile * tend :=
  let bsize := real_size bs in
  match ploop bsize (Z.max bsize (zlen extra)) n (PS pdec_new false sched) extra 0 src [] f with
  | (f, e, Some p) => (f, if parallel_free p then e else TSpin)
  | (f, e, None) => (f, e)
  end.
End Tool.

(** compress_raw, src/bin/divans.rs:852-944, with the default settings: the brotli front
    end (1208) and, for a file, two threads (885) *)
Section Default.
Context (dict : dict_fn) (wl : word_len_fn) (D : dims) (g : cfg) (opt : option Z).
Context {B : Type} (fe : frontend B) (optimize : metablock -> option metablock) (b0 : B).
Definition tool_default (sched : list ModelThread.event) (m fuel n : nat) (bs : Z) (force : bool) (src : list event) (f : outfile) : outfile * tend :=
  if force then compress_raw_inner (hybrid_processor dict wl D g fe optimize m fuel) (real_size bs) n (hybrid_new D b0 opt) [] src f
  else
    match sniff [] src with
    | None => (f, TError)
    | Some (header, src) =>
        if is_divans header then tool_decompress_parallel dict wl D false sched n bs header src f
        else compress_raw_inner (hybrid_processor dict wl D g fe optimize m fuel) (real_size bs) n (hybrid_new D b0 opt) header src f
    end.
End Default.
