(** The std::io adapters: reading and writing through a (de)compressor.
    src/reader.rs, src/writer.rs. *)
From Verif Require Import Prelude ModelMux ModelTop ModelEnc ModelDec ModelRawEnc.

(** DivansResult, src/interface.rs:147-152: what Processor::process and (through
    DivansResult::from) Processor::close report.  Simplified: no message. *)
Inductive pres := PSuccess | PNeedIn | PNeedOut | PFail.
(** trait Processor, src/reader.rs:26-29 and src/writer.rs:15-18.  [process p input room]:
    the input slice from input_offset on, and the free space of the output buffer; gives
    the number of bytes consumed, the bytes put out, the new state and the result.
    [None]: a panic. *)
Record processor (P : Type) := PROC {
  process : P -> list Z -> Z -> option (Z * list Z * P * pres);
  close : P -> Z -> option (list Z * P * pres) }.
Arguments PROC {P}. Arguments process {P}. Arguments close {P}.

(** What the calls to the inner reader's [read] return, in order: some bytes (as many as
    fit; the rest is returned by the next call), ErrorKind::Interrupted, another error.
    When the list is exhausted every call returns Ok(0). *)
Inductive event := SData (l : list Z) | SIntr | SErr.
Inductive fetched := FData (l : list Z) (src : list event) | FIntr (src : list event) | FErr (src : list event).
Definition source_read (src : list event) (space : Z) : fetched :=
  match src with
  | [] => FData [] []
  | SData l :: src => FData (zfirst space l) (if space <? zlen l then SData (zskip space l) :: src else src)
  | SIntr :: src => FIntr src
  | SErr :: src => FErr src
  end.

Section Adapters.
Context {P : Type} (pr : processor P).
(** the length of the adapter's own buffer; the constructors make it positive,
    src/reader.rs:182-184, 232-234, 299-301 *)
Context (cap : Z).

(** struct GenReader, src/reader.rs:31-43.  [g_data] is input_buffer[..input_len];
    [g_err]: whether read_error is Some. *)
Record greader := GR { g_p : P; g_data : list Z; g_off : Z; g_eof : bool; g_flushed : bool; g_err : bool; g_src : list event }.
(** GenReader::new, src/reader.rs:108-120 *)
Definition greader_new (p : P) (src : list event) (needs_flush : bool) : greader := GR p [] 0 false (negb needs_flush) false src.
(** copy_to_front, src/reader.rs:121-132 *)
Definition copy_to_front (g : greader) : greader :=
  let avail := zlen (g_data g) - g_off g in
  if g_off g =? cap then GR (g_p g) [] 0 (g_eof g) (g_flushed g) (g_err g) (g_src g)
  else if (cap <? g_off g + 256) && (avail <? g_off g) then GR (g_p g) (zskip (g_off g) (g_data g)) 0 (g_eof g) (g_flushed g) (g_err g) (g_src g)
  else g.
(** What [read] does in the end: Ok with some bytes; Err; never ends; panics.  The bytes
    already put into the caller's buffer when Err is returned are lost to the caller. *)
Inductive rout := ROk (o : list Z) (g : greader) | RErr (g : greader) | RSpin | RPanic.
(** the inner read of the loop, src/reader.rs:52-69, with avail_in and needs_input;
    [None]: Interrupted *)
Definition fetch (g : greader) (avail : Z) (needs : bool) : greader * Z * bool * bool :=
  if (zlen (g_data g) <? cap) && negb (g_eof g) then
    match source_read (g_src g) (cap - zlen (g_data g)) with
    | FIntr src => (GR (g_p g) (g_data g) (g_off g) (g_eof g) (g_flushed g) (g_err g) src, avail, needs, true)
    | FErr src => (GR (g_p g) (g_data g) (g_off g) true (g_flushed g) true src, avail, needs, false)
    | FData l src =>
        if zlen l =? 0 then (GR (g_p g) (g_data g) (g_off g) true (g_flushed g) (g_err g) src, avail, needs, false)
        else (GR (g_p g) (g_data g ++ l) (g_off g) (g_eof g) (g_flushed g) (g_err g) src, zlen (g_data g) + zlen l - g_off g, false, false)
    end
  else (g, avail, needs, false).
(** the loop of GenReader::read, src/reader.rs:51-103; [room] is buf.len(), [out] the
    bytes put out so far.  [fuel] bounds the number of rounds. *)
Fixpoint read_loop (fuel : nat) (g : greader) (room avail : Z) (needs : bool) (out : list Z) : rout :=
  match fuel with
  | O => RSpin
  | S fuel =>
      if negb ((room - zlen out =? room) && (negb needs || negb (g_eof g))) then ROk out g else
      let '(g, avail, needs, again) := fetch g avail needs in
      if again then read_loop fuel g room avail needs out else
      match (if avail =? 0 then
               match close pr (g_p g) (room - zlen out) with
               | None => None
               | Some (o, p, r) => Some (0, o, GR p (g_data g) (g_off g) (g_eof g) true (g_err g) (g_src g), r)
               end
             else
               match process pr (g_p g) (zfirst avail (zskip (g_off g) (g_data g))) (room - zlen out) with
               | None => None
               | Some (n, o, p, r) => Some (n, o, GR p (g_data g) (g_off g + n) (g_eof g) (g_flushed g) (g_err g) (g_src g), r)
               end) with
      | None => RPanic
      | Some (n, o, g, r) =>
          if (avail <? n) || (room - zlen out <? zlen o) then RPanic else
          let avail := avail - n in
          let out := out ++ o in
          if (avail =? 0) && g_err g then RErr (GR (g_p g) (g_data g) (g_off g) (g_eof g) (g_flushed g) false (g_src g)) else
          let needs := if avail =? 0 then true else needs in
          let g := if avail =? 0 then copy_to_front g else g in
          match r with
          | PFail => RErr g
          | PSuccess => if g_eof g && (avail =? 0) && g_flushed g then ROk out g else read_loop fuel g room avail needs out
          | _ => read_loop fuel g room avail needs out
          end
      end
  end.
(** GenReader::read, src/reader.rs:46-105 *)
Definition gread (fuel : nat) (g : greader) (room : Z) : rout :=
  read_loop fuel g room (zlen (g_data g) - g_off g) false [].

(** What the inner writer has accepted, and the outcomes of the write_all calls to come:
    [Some k] is a call that fails after accepting (at most) [k] bytes; when the list is
    exhausted every call succeeds.  Writing nothing succeeds. *)
Record sink := SK { k_got : list Z; k_faults : list (option Z) }.
Definition write_all (k : sink) (o : list Z) : sink * bool :=
  match o with
  | [] => (k, true)
  | _ =>
      match k_faults k with
      | [] => (SK (k_got k ++ o) [], true)
      | None :: fs => (SK (k_got k ++ o) fs, true)
      | Some n :: fs => (SK (k_got k ++ zfirst n o) fs, false)
      end
  end.
(** struct GenWriter, src/writer.rs:20-27 *)
Record gwriter := GW { gw_p : P; gw_flushed : bool; gw_sink : sink }.
(** GenWriter::new, src/writer.rs:87-94 *)
Definition gwriter_new (p : P) (k : sink) (needs_flush : bool) : gwriter := GW p (negb needs_flush) k.
Inductive wout := WOk (n : Z) (g : gwriter) | WErr (g : gwriter) | WSpin | WPanic.
(** GenWriter::write, src/writer.rs:31-61; [total] is buf.len(), [buf] what is left of it *)
Fixpoint write_loop (fuel : nat) (g : gwriter) (total : Z) (buf : list Z) : wout :=
  match fuel with
  | O => WSpin
  | S fuel =>
      match process pr (gw_p g) buf cap with
      | None => WPanic
      | Some (n, o, p, r) =>
          if (zlen buf <? n) || (cap <? zlen o) then WPanic else
          let buf := zskip n buf in
          let '(k, ok) := write_all (gw_sink g) o in
          let g := GW p (gw_flushed g) k in
          if negb ok then WErr g else
          match r with
          | PNeedIn => if negb (zlen buf =? 0) then WErr g else WOk total g
          | PNeedOut => write_loop fuel g total buf
          | PSuccess => WOk total g
          | PFail => WErr g
          end
      end
  end.
Definition gwrite (fuel : nat) (g : gwriter) (buf : list Z) : wout := write_loop fuel g (zlen buf) buf.
(** GenWriter::flush, src/writer.rs:62-85.  Simplified: the inner writer's own flush,
    called at the end, always succeeds. *)
Fixpoint gflush (fuel : nat) (g : gwriter) : wout :=
  if gw_flushed g then WOk 0 g else
  match fuel with
  | O => WSpin
  | S fuel =>
      match close pr (gw_p g) cap with
      | None => WPanic
      | Some (o, p, r) =>
          if cap <? zlen o then WPanic else
          let '(k, ok) := write_all (gw_sink g) o in
          if negb ok then WErr (GW p (gw_flushed g) k) else
          match r with
          | PFail => WErr (GW p (gw_flushed g) k)
          | PNeedIn | PNeedOut => gflush fuel (GW p (gw_flushed g) k)
          | PSuccess => gflush fuel (GW p true k)
          end
      end
  end.
End Adapters.

(** impl Processor for DivansConstructedDecompressor, src/reader.rs:268-286, src/writer.rs:235-251 *)
Definition dec_pres (r : dres) : pres := match r with DSuccess => PSuccess | DNeedIn => PNeedIn | DNeedOut => PNeedOut | DFail => PFail end.
Definition decompressing dict wl (D : _) (skip : bool) (fuel : nat) : processor decompressor := PROC
  (fun d input room => let? '(n, o, d, r) := decode dict wl D skip fuel d input room in Some (n, o, d, dec_pres r))
  (fun d room => let? '(_, o, d, r) := decode dict wl D skip fuel d [] room in Some (o, d, match r with DNeedIn => PFail | r => dec_pres r end)).
(** impl<T: Compressor> Processor for T, src/reader.rs:160-168, src/writer.rs:120-128, for
    the compressor on raw bytes (DivansExperimentalCompressorReader / Writer) *)
Definition enc_pres (r : cres) : pres := match r with RSuccess => PSuccess | RNeedsMoreInput => PNeedIn | RNeedsMoreOutput => PNeedOut | RFailure _ => PFail end.
Definition compressing dict wl (D : _) (g : _) (fuel : nat) : processor rawc := PROC
  (fun s input room => let? '(n, o, s, r) := encode_raw dict wl D g fuel s input room in Some (n, o, s, enc_pres r))
  (fun s room => let? '(o, s, r) := flush_raw dict wl D g fuel s room in Some (o, s, enc_pres r)).
