(** Model of the SSE 4.2 variant of the checksum, src/codec/crc32.rs:26-36, 70-88. *)
From Verif Require Import Prelude ModelCrc.

(** The CRC32 instruction as the processor manual gives it: BIT_REFLECT, and the
    remainder of the division of polynomials over two elements by 0x11EDC6F41. *)
Fixpoint reflect_bits (n : nat) (k : Z) (x : Z) : Z :=
  match n with
  | O => 0
  | S m => Z.lxor (if Z.testbit x (Z.of_nat m) then 2 ^ (k - 1 - Z.of_nat m) else 0) (reflect_bits m k x)
  end.
Definition bit_reflect (n : nat) (x : Z) : Z := reflect_bits n (Z.of_nat n) x.
(** the remainder of a polynomial of degree below 32 + n *)
Fixpoint mod2 (n : nat) (x : Z) : Z :=
  match n with
  | O => x
  | S m => mod2 m (if Z.testbit x (32 + Z.of_nat m) then Z.lxor x (Z.shiftl 4812730177 (Z.of_nat m)) (* 0x11EDC6F41 *) else x)
  end.
(** _mm_crc32_u8, _mm_crc32_u64 *)
Definition mm_crc32 (n : nat) (crc src : Z) : Z :=
  bit_reflect 32 (mod2 n (Z.lxor (Z.shiftl (bit_reflect n src) 32) (Z.shiftl (bit_reflect 32 crc) (Z.of_nat n)))).

(** sse_crc32c_update, src/codec/crc32.rs:70-88; the recursion counter is the length of
    the buffer, which never runs out first *)
Definition word_of (buf : list Z) : Z :=
  let b i := nth i buf 0 in
  Z.lor (Z.lor (Z.lor (Z.lor (Z.lor (Z.lor (Z.lor (b 0%nat) (Z.shiftl (b 1%nat) 8)) (Z.shiftl (b 2%nat) 16)) (Z.shiftl (b 3%nat) 24))
    (Z.shiftl (b 4%nat) 32)) (Z.shiftl (b 5%nat) 40)) (Z.shiftl (b 6%nat) 48)) (Z.shiftl (b 7%nat) 56).
Fixpoint sse_loop (fuel : nat) (crc : Z) (buf : list Z) : Z :=
  match fuel with
  | O => fold_left (mm_crc32 8) buf crc
  | S fuel =>
      if (8 <=? length buf)%nat then sse_loop fuel (mm_crc32 64 crc (word_of buf)) (skipn 8 buf)
      else fold_left (mm_crc32 8) buf crc
  end.
Definition sse_crc32c_update (crc : Z) (buf : list Z) : Z := not32 (sse_loop (length buf) (not32 crc) buf).
(** crc32c_update with feature simd on x86_64, src/codec/crc32.rs:26-36 *)
Definition simd_crc32c_update (has_sse42 : bool) (crc : Z) (buf : list Z) : Z :=
  if has_sse42 then sse_crc32c_update crc buf else crc32c_update crc buf.
