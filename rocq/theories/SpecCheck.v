(** Using the decompressor on input of any origin. *)
From Verif Require Import Prelude ModelMux ModelCmd ModelRecode ModelPriors ModelCodec ModelPm ModelTop ModelDec SpecCrc SpecHeader.

(** One call: what was offered, the space for output, what was reported consumed, what
    was stored, and the answer. *)
Record call := Call { c_in : list Z; c_room : Z; c_used : Z; c_out : list Z; c_res : dres }.
(** One call per element: the input that arrived, and the free space of the output
    buffer; input not consumed is offered again.  No condition is put on the answers;
    the calls end with success, failure or a panic. *)
Fixpoint any_session (dict : dict_fn) (wl : word_len_fn) (D : dims) (skip : bool) (fuel : nat)
    (d : decompressor) (rest : list Z) (calls : list (list Z * Z)) : list call :=
  match calls with
  | [] => []
  | (piece, room) :: calls =>
      let input := rest ++ piece in
      match decode dict wl D skip fuel d input room with
      | None => []
      | Some (n, o, d, r) =>
          Call input room n o r ::
          match r with
          | DSuccess | DFail => []
          | _ => any_session dict wl D skip fuel d (zskip n input) calls
          end
      end
  end.
(** everything consumed *)
Definition taken (t : list call) : list Z := concat (map (fun c => zfirst (c_used c) (c_in c)) t).
(** no call consumes what was not offered or stores beyond the buffer *)
Definition within (c : call) : Prop := 0 <= c_used c <= zlen (c_in c) /\ zlen (c_out c) <= c_room c.
(** A header with the magic number and a legal window size, a body, and 8 bytes that end
    in "ans~"; unless checking is off the first four are the CRC-32C of all before. *)
Definition intact (skip : bool) (X : list Z) : Prop :=
  exists header W t, X = header ++ W ++ t /\
    length header = 16%nat /\ firstn 4 header = [255; 229; 140; 159] /\ 10 <= nth 5 header 0 <= 24 /\
    length t = 8%nat /\ skipn 4 t = [97; 110; 115; 126] /\
    (skip = false -> t = trailer (crc32c 0 (header ++ W))).
