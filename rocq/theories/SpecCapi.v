(** A C program using the API: it keeps its input and output in buffers of its own, with
    anything in front of the offsets, and calls until told it is done. *)
From Verif Require Import Prelude ModelFfi ModelMux ModelCmd ModelRecode ModelPriors ModelCodec ModelPm ModelTop ModelEnc ModelDec ModelRaw ModelRawEnc ModelHybrid ModelToolThread ModelCapi SpecEnc SpecHybrid.

(** one call: what stands in front of the input offset, the input that arrived since the
    last call, the output buffer and the offset in it *)
Record ccall := CALL { c_front : list Z; c_piece : list Z; c_buf : list Z; c_at : Z }.
Definition c_room (c : ccall) : Z := zlen (c_buf c) - c_at c.
Definition sensible (c : ccall) : Prop := 0 <= c_at c <= zlen (c_buf c).
Definition c_offered (l : list ccall) : list Z := concat (map c_piece l).

Definition same (a b : list Z) : bool := if list_eq_dec Z.eq_dec a b then true else false.
(** the buffer is as before except between the two offsets, which are in order and in it *)
Definition untouched (before after : list Z) (from to : Z) : bool :=
  (from <=? to) && (to <=? zlen before) && (zlen after =? zlen before) &&
  same (zfirst from after) (zfirst from before) && same (zskip to after) (zskip to before).
Definition between (buf : list Z) (from to : Z) : list Z := zfirst (to - from) (zskip from buf).

(** the options set one after the other on a new compressor *)
Definition configure {X} (l : list (Z * Z)) : cstate X :=
  fold_left (fun s p => snd (set_option s (fst p) (snd p))) l cs_new.

Section S.
Context (dict : dict_fn) (wl : word_len_fn) (D : dims).
Context {B : Type} (fe : frontend B) (create : opts -> B) (optimize : opts -> metablock -> option metablock).
(** flush until code 0.  [Broken]: code 3 or an unknown one, memory touched outside the
    reported range, space wanted (code 2) although some is left. *)
Fixpoint cfinish (fuel : nat) (s : @capi B) (calls : list ccall) : option (list Z * verdict) :=
  match calls with
  | [] => Some ([], Waiting)
  | c :: calls =>
      let? '(k, buf, out, s) := c_flush dict wl D fe create optimize fuel s (c_buf c) (c_at c) in
      let o := between buf (c_at c) out in
      if negb (untouched (c_buf c) buf (c_at c) out) then Some (o, Broken) else
      if k =? 0 then Some (o, Finished)
      else if (k =? 2) && (out =? zlen buf) then let? '(o2, v) := cfinish fuel s calls in Some (o ++ o2, v)
      else Some (o, Broken)
  end.
(** encode once per element of [calls], offering again what was not consumed, then flush.
    [Broken] also: the input offset moved backwards or beyond the end, more input wanted
    (code 1) although some is left. *)
Fixpoint csession (fuel : nat) (s : @capi B) (rest : list Z) (calls flushes : list ccall) : option (list Z * verdict) :=
  match calls with
  | [] => match rest with [] => cfinish fuel s flushes | _ => Some ([], Waiting) end
  | c :: calls =>
      let input := c_front c ++ rest ++ c_piece c in
      let? '(k, inoff, buf, out, s) := c_encode dict wl D fe create optimize fuel s input (zlen (c_front c)) (c_buf c) (c_at c) in
      let o := between buf (c_at c) out in
      if negb (untouched (c_buf c) buf (c_at c) out && (zlen (c_front c) <=? inoff) && (inoff <=? zlen input)) then Some (o, Broken) else
      if ((k =? 1) && (inoff =? zlen input)) || ((k =? 2) && (out =? zlen buf))
      then let? '(o2, v) := csession fuel s (zskip inoff input) calls flushes in Some (o ++ o2, v)
      else Some (o, Broken)
  end.
(** The same with the verdicts of SpecHybrid: code 1 with input left is allowed, that input
    is offered again. *)
Fixpoint clfinish (fuel : nat) (s : @capi B) (calls : list ccall) : option (list Z * hend) :=
  match calls with
  | [] => Some ([], HWaiting)
  | c :: calls =>
      let? '(k, buf, out, s) := c_flush dict wl D fe create optimize fuel s (c_buf c) (c_at c) in
      let o := between buf (c_at c) out in
      if negb (untouched (c_buf c) buf (c_at c) out) then Some (o, HBroken) else
      if k =? 0 then Some (o, HFinished)
      else if (k =? 2) && (out =? zlen buf) then let? '(o2, v) := clfinish fuel s calls in Some (o ++ o2, v)
      else Some (o, HBroken)
  end.
Fixpoint clsession (fuel : nat) (s : @capi B) (rest : list Z) (calls flushes : list ccall) : option (list Z * hend) :=
  match calls with
  | [] => match rest with [] => clfinish fuel s flushes | _ => Some ([], HLeft) end
  | c :: calls =>
      let input := c_front c ++ rest ++ c_piece c in
      let? '(k, inoff, buf, out, s) := c_encode dict wl D fe create optimize fuel s input (zlen (c_front c)) (c_buf c) (c_at c) in
      let o := between buf (c_at c) out in
      if negb (untouched (c_buf c) buf (c_at c) out && (zlen (c_front c) <=? inoff) && (inoff <=? zlen input)) then Some (o, HBroken) else
      if (k =? 1) || ((k =? 2) && (out =? zlen buf))
      then let? '(o2, v) := clsession fuel s (zskip inoff input) calls flushes in Some (o ++ o2, v)
      else Some (o, HBroken)
  end.
(** decode once per element of [calls] until code 0; returns the output, the input not
    consumed (with that of calls not made) and how it ended *)
Fixpoint cdsession (skip : bool) (fuel : nat) (d : decompressor) (rest : list Z) (calls : list ccall) : option (list Z * list Z * verdict) :=
  match calls with
  | [] => Some ([], rest, Waiting)
  | c :: calls =>
      let input := c_front c ++ rest ++ c_piece c in
      let? '(k, inoff, buf, out, d) := c_decode dict wl D skip fuel d input (zlen (c_front c)) (c_buf c) (c_at c) in
      let o := between buf (c_at c) out in
      let left := zskip inoff input in
      if negb (untouched (c_buf c) buf (c_at c) out && (zlen (c_front c) <=? inoff) && (inoff <=? zlen input)) then Some (o, left ++ c_offered calls, Broken) else
      if k =? 0 then Some (o, left ++ c_offered calls, Finished)
      else if ((k =? 1) && (inoff =? zlen input)) || ((k =? 2) && (out =? zlen buf))
      then let? '(o2, left, v) := cdsession skip fuel d left calls in Some (o ++ o2, left, v)
      else Some (o, left ++ c_offered calls, Broken)
  end.
(** the same with a decompressor with two threads; also its last state *)
Fixpoint cpsession (skip : bool) (d : pstate) (rest : list Z) (calls : list ccall) : option (list Z * list Z * verdict * pstate) :=
  match calls with
  | [] => Some ([], rest, Waiting, d)
  | c :: calls =>
      let input := c_front c ++ rest ++ c_piece c in
      let? '(k, inoff, buf, out, d) := c_decode_parallel dict wl D skip d input (zlen (c_front c)) (c_buf c) (c_at c) in
      let o := between buf (c_at c) out in
      let left := zskip inoff input in
      if negb (untouched (c_buf c) buf (c_at c) out && (zlen (c_front c) <=? inoff) && (inoff <=? zlen input)) then Some (o, left ++ c_offered calls, Broken, d) else
      if k =? 0 then Some (o, left ++ c_offered calls, Finished, d)
      else if ((k =? 1) && (inoff =? zlen input)) || ((k =? 2) && (out =? zlen buf))
      then let? '(o2, left, v, d) := cpsession skip d left calls in Some (o ++ o2, left, v, d)
      else Some (o, left ++ c_offered calls, Broken, d)
  end.
End S.
