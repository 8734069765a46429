(** Using the compressor: batches of commands, then the flush, each call with an output
    buffer of any size. *)
From Verif Require Import Prelude ModelMux ModelCmd ModelRecode ModelPriors ModelCodec ModelPm ModelTop ModelEnc.

Inductive verdict := Finished | Waiting | Broken.
(** One call per element of [rooms] (the free space of the buffer of that call).  A batch
    is offered until it is taken, without the commands already taken; after the last one
    [flush] is called until it reports success.  [Waiting]: no more calls are made.
    [Broken]: a failure, an overfull buffer, or a success that left commands behind. *)
Fixpoint session (dict : dict_fn) (wl : word_len_fn) (D : dims) (g : cfg) (fuel : nat)
    (s : compressor) (batches : list (list command)) (rooms : list Z) : option (list Z * verdict) :=
  match rooms with
  | [] => Some ([], Waiting)
  | room :: rooms =>
      match batches with
      | batch :: later =>
          let? '(o, s, rest, r) := encode_commands dict wl D g fuel s batch room in
          if room <? zlen o then Some (o, Broken) else
          match r, rest with
          | RSuccess, [] => let? '(o2, v) := session dict wl D g fuel s later rooms in Some (o ++ o2, v)
          | RNeedsMoreOutput, _ => let? '(o2, v) := session dict wl D g fuel s (rest :: later) rooms in Some (o ++ o2, v)
          | _, _ => Some (o, Broken)
          end
      | [] =>
          let? '(o, s, r) := flush dict wl D g fuel s room in
          if room <? zlen o then Some (o, Broken) else
          match r with
          | RSuccess => Some (o, Finished)
          | RNeedsMoreOutput => let? '(o2, v) := session dict wl D g fuel s [] rooms in Some (o ++ o2, v)
          | _ => Some (o, Broken)
          end
      end
  end.
