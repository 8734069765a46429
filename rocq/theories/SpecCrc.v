(** CRC-32C by its textbook bit-at-a-time definition (reflected polynomial
    0x82f63b78, register complemented before and after). *)
From Verif Require Import Prelude.

(** one bit *)
Definition crc_bit (r : Z) : Z :=
  if Z.odd r then Z.lxor (Z.shiftr r 1) 2197175160 (* 0x82f63b78 *) else Z.shiftr r 1.
(** one byte: xor it in, then eight bits *)
Definition crc_byte (r b : Z) : Z := Nat.iter 8 crc_bit (Z.lxor r b).
(** continue checksum [crc] over [data] *)
Definition crc32c (crc : Z) (data : list Z) : Z :=
  Z.lxor (fold_left crc_byte data (Z.lxor crc 4294967295)) 4294967295.

(** Two strings of equal length that differ, with all differing bits within 32
    consecutive bits (bit [i] of byte [j] being bit [8 j + i] of the string). *)
Definition burst32 (xs ys : list Z) : Prop :=
  length xs = length ys /\
  exists k w, 0 <= k /\ 0 < w < 2 ^ 32 /\ Z.lxor (unle xs) (unle ys) = w * 2 ^ k.
