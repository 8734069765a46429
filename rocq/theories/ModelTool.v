(** The command line tool: its loops around the (de)compressor.  src/bin/divans.rs. *)
From Verif Require Import Prelude ModelMux ModelHeader ModelRecode ModelCodec ModelPm ModelTop ModelEnc ModelDec ModelRawEnc ModelIo.

(** What the calls of the output's [write] return, in order: Ok of at most [n] bytes,
    ErrorKind::Interrupted, another error.  When the list is exhausted every call takes
    all it is given. *)
Inductive wevent := WTake (n : Z) | WIntr | WFault.
(** The loops that write out a buffer, src/bin/divans.rs:770-780, 806-818, 1039-1050 and
    1093-1104: what was accepted, the outcomes left, whether all was written *)
Fixpoint put_out (o : list Z) (evs : list wevent) : list Z * list wevent * bool :=
  match o, evs with
  | [], _ => ([], evs, true)
  | _, [] => (o, [], true)
  | _, WTake n :: evs => let '(got, evs, ok) := put_out (zskip n o) evs in (zfirst n o ++ got, evs, ok)
  | _, WIntr :: evs => put_out o evs
  | _, WFault :: evs => ([], evs, false)
  end.
(** the output file: what it holds, and the outcomes of writes to come *)
Record outfile := OF { f_got : list Z; f_evs : list wevent }.
Definition put (f : outfile) (o : list Z) : outfile * bool :=
  let '(got, evs, ok) := put_out o (f_evs f) in (OF (f_got f ++ got) evs, ok).

(** How the tool ends: Ok(()); an io::Error; never; a panic *)
Inductive tend := TDone | TError | TSpin | TPanic.

(** the inner read of decompress_generic, src/bin/divans.rs:1058-1084, for a buffer with
    [space] > 0 free: [None] is an error, no bytes the end of the input *)
Fixpoint read_more (src : list event) (space : Z) : option (list Z * list event) :=
  match src with
  | SIntr :: src => read_more src space
  | src => match source_read src space with FData l src => Some (l, src) | _ => None end
  end.

Section Loops.
Context {P : Type} (pr : processor P) (bsize : Z).

(** ** decompress_generic, src/bin/divans.rs:1008-1106 *)

(** The loop, 1026-1088: [data] is ibuffer[..input_end], [cap] is ibuffer.len(), [off] is
    input_offset, [pend] is obuffer[..output_offset]; then the final write, 1089-1105.
    [fuel] bounds the number of rounds. *)
Fixpoint dloop (cap : Z) (fuel : nat) (p : P) (data : list Z) (off : Z) (src : list event) (pend : list Z) (f : outfile) : outfile * tend :=
  match fuel with
  | O => (f, TSpin)
  | S fuel =>
      match process pr p (zskip off data) (bsize - zlen pend) with
      | None => (f, TPanic)
      | Some (n, o, p, r) =>
          if (zlen data - off <? n) || (bsize - zlen pend <? zlen o) then (f, TPanic) else
          let off := off + n in
          let pend := pend ++ o in
          match r with
          | PSuccess => let '(f, ok) := put f pend in (f, if ok then TDone else TError)
          | PFail => (f, TError)
          | PNeedOut =>
              let '(f, ok) := put f pend in
              if ok then dloop cap fuel p data off src [] f else (f, TError)
          | PNeedIn =>
              let '(data, off) := if off =? zlen data then ([], 0) else (data, off) in
              if zlen data =? cap then dloop cap fuel p data off src pend f else
              match read_more src (cap - zlen data) with
              | None => (f, TError)
              | Some ([], _) => (f, TError)
              | Some (l, src) => dloop cap fuel p (data ++ l) off src pend f
              end
          end
      end
  end.
Definition decompress_generic (fuel : nat) (p : P) (extra : list Z) (src : list event) (f : outfile) : outfile * tend :=
  dloop (Z.max bsize (zlen extra)) fuel p extra 0 src [] f.

(** ** compress_raw_inner, src/bin/divans.rs:710-831 *)

(** The flush loop, 793-827 *)
Fixpoint cflush (fuel : nat) (p : P) (pend : list Z) (f : outfile) : outfile * tend :=
  match fuel with
  | O => (f, TSpin)
  | S fuel =>
      match close pr p (bsize - zlen pend) with
      | None => (f, TPanic)
      | Some (o, p, r) =>
          if bsize - zlen pend <? zlen o then (f, TPanic) else
          match r with
          | PFail => (f, TError)
          | _ =>
              let '(f, ok) := put f (pend ++ o) in
              if negb ok then (f, TError) else
              match r with PSuccess => (f, TDone) | _ => cflush fuel p [] f end
          end
      end
  end.
(** The main loop, 726-784, then the flush.  [extra]: additional_input; [data] is the
    current input buffer up to ilim, which after an interrupted read still holds the
    previous piece; [idec] is idec_index; [pend] is obuffer[..olim]. *)
Fixpoint cloop (fuel : nat) (p : P) (extra data : list Z) (idec : Z) (src : list event) (pend : list Z) (f : outfile) : outfile * tend :=
  match fuel with
  | O => (f, TSpin)
  | S fuel =>
      let '(extra, data, idec) :=
        if zlen extra =? 0 then (extra, data, idec)
        else if idec =? zlen extra then ([], [], 0)
        else (extra, extra, idec) in
      let encode data idec src :=
        if idec =? zlen data then
          let '(f, ok) := put f pend in
          if ok then cloop fuel p extra data idec src [] f else (f, TError)
        else
          match process pr p (zskip idec data) (bsize - zlen pend) with
          | None => (f, TPanic)
          | Some (n, o, p, r) =>
              if (zlen data - idec <? n) || (bsize - zlen pend <? zlen o) then (f, TPanic) else
              match r with
              | PSuccess => cloop fuel p extra data (idec + n) src (pend ++ o) f
              | PFail => (f, TError)
              | PNeedIn | PNeedOut =>
                  let '(f, ok) := put f (pend ++ o) in
                  if ok then cloop fuel p extra data (idec + n) src [] f else (f, TError)
              end
          end in
      if idec =? zlen data then
        match source_read src bsize with
        | FErr _ => (f, TError)
        | FIntr src => cloop fuel p extra data 0 src pend f
        | FData [] src => cflush fuel p pend f
        | FData l src => encode l 0 src
        end
      else encode data idec src
  end.
Definition compress_raw_inner (fuel : nat) (p : P) (extra : list Z) (src : list event) (f : outfile) : outfile * tend :=
  cloop fuel p extra extra 0 src [] f.
End Loops.

(** is_divans, src/bin/divans.rs:75-85 *)
Definition is_divans (header : list Z) : bool :=
  if (length header <? length MAGIC_NUMBER)%nat then false
  else forallb (fun ab => fst ab =? snd ab) (combine (firstn (length MAGIC_NUMBER) header) MAGIC_NUMBER).
(** the first reads of compress_raw, src/bin/divans.rs:864-882: up to 16 bytes *)
Fixpoint sniff (got : list Z) (src : list event) : option (list Z * list event) :=
  match src with
  | [] => Some (got, [])
  | SIntr :: src => sniff got src
  | SErr :: _ => None
  | SData l :: src' =>
      match source_read src (16 - zlen got) with
      | FData l2 src2 =>
          let got := got ++ l2 in
          if (zlen l2 =? 0) || (zlen got =? 16) then Some (got, src2) else sniff got src'
      | _ => None
      end
  end.

Section Tool.
Context (dict : dict_fn) (wl : word_len_fn) (D : dims) (g : cfg) (opt : option Z).
(** decompress, src/bin/divans.rs:980-1004, with -serial; [bs]: buffer_size, where 0
    stands for 4096 (1014-1016, 888-890).  [fuel] is for the library, [n] for the loop. *)
Definition real_size (bs : Z) : Z := if bs =? 0 then 4096 else bs.
Definition tool_decompress (fuel n : nat) (bs : Z) (skip : bool) (extra : list Z) (src : list event) (f : outfile) : outfile * tend :=
  decompress_generic (decompressing dict wl D skip fuel) (real_size bs) n decompressor_new extra src f.
(** compress_raw, src/bin/divans.rs:852-944, for the internal command selection
    (use_brotli false) *)
Definition tool_compress (fuel n : nat) (bs : Z) (force : bool) (src : list event) (f : outfile) : outfile * tend :=
  if force then compress_raw_inner (compressing dict wl D g fuel) (real_size bs) n (rawc_new D opt) [] src f
  else
    match sniff [] src with
    | None => (f, TError)
    | Some (header, src) =>
        if is_divans header then tool_decompress fuel n bs false header src f
        else compress_raw_inner (compressing dict wl D g fuel) (real_size bs) n (rawc_new D opt) header src f
    end.
End Tool.
