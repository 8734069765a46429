(** Using the compressor on raw bytes: input arriving in any pieces, then the flush, each
    call with an output buffer of any size. *)
From Verif Require Import Prelude ModelMux ModelCmd ModelRecode ModelPriors ModelCodec ModelPm ModelTop ModelEnc ModelRaw ModelRawEnc SpecEnc.

Section S.
Context (dict : dict_fn) (wl : word_len_fn) (D : dims) (g : cfg).
(** flush called until it reports success, once per element of [rooms] *)
Fixpoint rfinish (fuel : nat) (s : rawc) (rooms : list Z) : option (list Z * verdict) :=
  match rooms with
  | [] => Some ([], Waiting)
  | room :: rooms =>
      let? '(o, s, r) := flush_raw dict wl D g fuel s room in
      if room <? zlen o then Some (o, Broken) else
      match r with
      | RSuccess => Some (o, Finished)
      | RNeedsMoreOutput => if zlen o <? room then Some (o, Broken) else let? '(o2, v) := rfinish fuel s rooms in Some (o ++ o2, v)
      | _ => Some (o, Broken)
      end
  end.
(** One encode call per element of [calls]: the input that arrived since the last call
    and the free space of the output buffer; input not consumed is offered again.  When
    all calls are made and everything is consumed, the flush.  [Broken]: a failure, an
    overfull buffer, more consumed than offered, more input wanted although some is left,
    more space wanted although some is left. *)
Fixpoint rsession (fuel : nat) (s : rawc) (rest : list Z) (calls : list (list Z * Z)) (rooms : list Z) : option (list Z * verdict) :=
  match calls with
  | [] => match rest with [] => rfinish fuel s rooms | _ => Some ([], Waiting) end
  | (piece, room) :: calls =>
      let input := rest ++ piece in
      let? '(n, o, s, r) := encode_raw dict wl D g fuel s input room in
      if (room <? zlen o) || (n <? 0) || (zlen input <? n) then Some (o, Broken) else
      let go := let? '(o2, v) := rsession fuel s (zskip n input) calls rooms in Some (o ++ o2, v) in
      match r with
      | RNeedsMoreInput => if n <? zlen input then Some (o, Broken) else go
      | RNeedsMoreOutput => if zlen o <? room then Some (o, Broken) else go
      | _ => Some (o, Broken)
      end
  end.
End S.

(** The commands a raw session stands for: the default prediction mode, then the bytes, cut
    in two if they do not fit in the window of [2 ^ ws] bytes. *)
Definition lit_of (d : list Z) : list command := match d with [] => [] | _ => [Literal d false] end.
Definition raw_cmds (D : dims) (ws : Z) (X : list Z) : list command :=
  PredictionMode (raw_pm D) :: (if zlen X <? 2 ^ ws then lit_of X else Literal (zfirst (2 ^ ws) X) false :: lit_of (zskip (2 ^ ws) X)).
