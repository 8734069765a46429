(** The framing of the two streams within a file, written from the format's point of view. *)
From Verif Require Import Prelude SpecMux.

(** The head of a chunk of [n] bytes of stream [s]: the number of the stream (0: commands,
    1: literals) and [n - 1] in two bytes, low byte first; or a single byte for chunks of
    4096, 16384 and 65536 bytes. *)
Inductive head (s : stream) (n : Z) : list Z -> Prop :=
| head_any : 1 <= n <= 65536 -> head s n [sid s; (n - 1) mod 256; (n - 1) / 256]
| head_4096 : n = 4096 -> head s n [sid s + 16]
| head_16384 : n = 16384 -> head s n [sid s + 32]
| head_65536 : n = 65536 -> head s n [sid s + 48].
(** [framed c l bytes]: [bytes] are chunks, in any order, of the command stream [c] and the
    literal stream [l], and the end mark *)
Inductive framed : list Z -> list Z -> list Z -> Prop :=
| framed_end : framed [] [] [255; 254; 255]
| framed_cmd h data c l bytes : head Cmd (Z.of_nat (length data)) h -> framed c l bytes -> framed (data ++ c) l (h ++ data ++ bytes)
| framed_lit h data c l bytes : head Lit (Z.of_nat (length data)) h -> framed c l bytes -> framed c (data ++ l) (h ++ data ++ bytes).
