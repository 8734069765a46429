(** Input of any origin through the Read adapter, the command line tool and the C API. *)
From Verif Require Import Prelude ModelMux ModelCmd ModelRecode ModelPriors ModelCodec ModelPm ModelTop ModelDec ModelCapi SpecIo SpecCheck.

(** Complete chunks of the container, each a header and its data: a byte below 16 and two
    bytes with the length minus one, or one byte up to 254 whose upper half gives the length. *)
Inductive chunks : list Z -> Prop :=
| no_chunk : chunks []
| short_chunk pre b l h data : chunks pre -> b < 16 -> zlen data = l + 256 * h + 1 -> chunks (pre ++ b :: l :: h :: data)
| long_chunk pre b data : chunks pre -> 16 <= b < 255 -> zlen data = (1024 * 4 ^ (b / 16)) mod 2 ^ 32 -> chunks (pre ++ b :: data).
(** After the 16 bytes of the header and some complete chunks stands the byte 255, which
    begins the end mark 255 254 255, but another byte than the next one of the mark follows. *)
Definition broken_mark (W : list Z) : Prop :=
  exists pre rest, W = pre ++ rest /\ chunks pre /\
    ((exists c t, rest = 255 :: c :: t /\ c <> 254) \/ (exists c t, rest = 255 :: 254 :: c :: t /\ c <> 255)).
Definition false_mark (X : list Z) : Prop := exists header W, X = header ++ W /\ length header = 16%nat /\ broken_mark W.

(** One call of divans_decode: the input buffer and the offset in it, the output buffer
    and the offset in it; what the call returned. *)
Record dcall := DCALL { d_front : list Z; d_piece : list Z; d_buf : list Z; d_at : Z }.
Record danswer := DANS { a_code : Z; a_used : Z; a_offer : Z; a_buf : list Z; a_from : Z; a_to : Z; a_before : list Z }.
(** One call per element; what was not consumed is offered again in front of the new piece.
    No condition is put on the answers; the calls end with code 0 or 3, or a panic.  The
    answers, and everything consumed.  [decode] is divans_decode with one thread
    ([c_decode]) or two ([c_decode_parallel]). *)
Fixpoint any_calls {S : Type} (decode : S -> list Z -> Z -> list Z -> Z -> option (Z * Z * list Z * Z * S))
    (d : S) (rest : list Z) (calls : list dcall) : list danswer * list Z :=
  match calls with
  | [] => ([], [])
  | c :: calls =>
      let input := rest ++ d_piece c in
      match decode d (d_front c ++ input) (zlen (d_front c)) (d_buf c) (d_at c) with
      | None => ([], [])
      | Some (k, inoff, buf, to, d) =>
          let n := inoff - zlen (d_front c) in
          let a := DANS k n (zlen input) buf (d_at c) to (d_buf c) in
          if (k =? 0) || (k =? 3) then ([a], zfirst n input)
          else let '(l, X) := any_calls decode d (zskip n input) calls in (a :: l, zfirst n input ++ X)
      end
  end.
(** The offsets stay in the buffers and nothing else in the caller's buffer changes. *)
Definition in_bounds (a : danswer) : Prop :=
  0 <= a_used a <= a_offer a /\ 0 <= a_from a <= a_to a /\ a_to a <= zlen (a_before a) /\
  zlen (a_buf a) = zlen (a_before a) /\ zfirst (a_from a) (a_buf a) = zfirst (a_from a) (a_before a) /\
  zskip (a_to a) (a_buf a) = zskip (a_to a) (a_before a).
