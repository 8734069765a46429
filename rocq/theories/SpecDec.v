(** Using the decompressor: input arriving in any pieces, output buffers of any size. *)
From Verif Require Import Prelude ModelMux ModelCmd ModelRecode ModelPriors ModelCodec ModelPm ModelTop ModelDec SpecEnc.

Definition offered (calls : list (list Z * Z)) : list Z := concat (map fst calls).
(** One call per element of [calls]: the input that arrived since the last call, and the
    free space of the output buffer.  Input not consumed is offered again.  Returns the
    output, the input left over (with that of calls not made) and how it ended.
    [Waiting]: no more calls are made.  [Broken]: a failure; an overfull buffer; more
    input reported consumed than offered; more input wanted although some is left; more
    space wanted although some is left. *)
Fixpoint dsession (dict : dict_fn) (wl : word_len_fn) (D : dims) (skip : bool) (fuel : nat)
    (d : decompressor) (rest : list Z) (calls : list (list Z * Z)) : option (list Z * list Z * verdict) :=
  match calls with
  | [] => Some ([], rest, Waiting)
  | (piece, room) :: calls =>
      let input := rest ++ piece in
      let? '(n, o, d, r) := decode dict wl D skip fuel d input room in
      let left := zskip n input in
      if (room <? zlen o) || (n <? 0) || (zlen input <? n) then Some (o, left ++ offered calls, Broken) else
      match r with
      | DSuccess => Some (o, left ++ offered calls, Finished)
      | DFail => Some (o, left ++ offered calls, Broken)
      | DNeedIn =>
          if n <? zlen input then Some (o, left ++ offered calls, Broken)
          else let? '(o2, left, v) := dsession dict wl D skip fuel d left calls in Some (o ++ o2, left, v)
      | DNeedOut =>
          if zlen o <? room then Some (o, left ++ offered calls, Broken)
          else let? '(o2, left, v) := dsession dict wl D skip fuel d left calls in Some (o ++ o2, left, v)
      end
  end.
