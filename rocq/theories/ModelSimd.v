(** Model of SIMDFrequentistCDF16 (feature "simd"),
    src/probability/simd_frequentist_cdf.rs.  A vector is the list of its lanes; lane
    arithmetic wraps as the instructions do.  The 64 bit lane conversions (156-175) are
    used by tests only and left out. *)
From Verif Require Import Prelude ModelAns ModelCdf.

Fixpoint lanes2 (f : Z -> Z -> Z) (a b : list Z) : list Z :=
  match a, b with x :: a, y :: b => f x y :: lanes2 f a b | _, _ => [] end.
Definition add16 (a b : list Z) : list Z := lanes2 (fun x y => i16 (x + y)) a b.
Definition sub16 (a b : list Z) : list Z := lanes2 (fun x y => i16 (x - y)) a b.
Definition and16 (a b : list Z) : list Z := lanes2 Z.land a b.
Definition splat16 (x : Z) : list Z := repeat x 16.
(** comparisons give lanes of all ones or all zeros *)
Definition mask (b : bool) : Z := if b then -1 else 0.
Definition ge16 (a b : list Z) : list Z := lanes2 (fun x y => mask (y <=? x)) a b.
Definition gt16 (a b : list Z) : list Z := lanes2 (fun x y => mask (y <? x)) a b.
(** shuffle! of two vectors, the second all zeros or appended *)
Definition shuffle (idx : list nat) (v : list Z) : list Z := map (fun i => nth i v 0) idx.
Definition one_to_16 : list Z := [1; 2; 3; 4; 5; 6; 7; 8; 9; 10; 11; 12; 13; 14; 15; 16].

(** ** blend, 211-223 *)
Definition simd_blend (c : list Z) (sym inc lim : Z) : list Z :=
  let mask_v := gt16 one_to_16 (splat16 sym) in
  let c := add16 c (and16 (splat16 inc) mask_v) in
  if lim <=? cdf_max c then
    sub16 (add16 c one_to_16) (map (fun x => Z.shiftr x 2) (add16 c one_to_16))
  else c.

(** ** average, 183-209 *)
(** i16x16_to_i32x8_tuple, 177-185: the high half of every 32 bit lane is zero *)
Definition widen (c : list Z) : list Z * list Z :=
  let lane i := u16 (nth i c 0) in (map lane (seq 0 8), map lane (seq 8 8)).
(** i32x8_tuple_to_i16x16, 187-191: the low half of every lane *)
Definition narrow (a b : list Z) : list Z := map i16 (a ++ b).
Definition avg8 (c o : list Z) (ourmax othermax shift mix : Z) : list Z :=
  lanes2 (fun s o1 =>
    let rs := Z.shiftr (i32 (s * othermax)) shift in
    let ro := Z.shiftr (i32 (o1 * ourmax)) shift in
    Z.shiftr (i32 (i32 (i32 (rs * mix) + i32 (ro * (2 ^ 15 - mix))) + 1)) 15) c o.
Definition simd_average (c o : list Z) (mix : Z) : list Z :=
  let m := i32 (cdf_max c * cdf_max o) in
  let shift := 17 - Z.min (leading_zeros32 m) 17 in
  let '(c0, c1) := widen c in
  let '(o0, o1) := widen o in
  narrow (avg8 c0 o0 (cdf_max c) (cdf_max o) shift mix) (avg8 c1 o1 (cdf_max c) (cdf_max o) shift mix).

(** ** sym_to_start_and_freq, 79-96, with its division in double precision *)
(** nearest, ties to even *)
Definition round_div (n d : Z) : Z :=
  let q := n / d in let r := n mod d in
  if 2 * r <? d then q else if d <? 2 * r then q + 1 else if Z.even q then q else q + 1.
(** The IEEE quotient of two integers that are exact doubles ([a] non-negative, [b]
    positive, no overflow or underflow): the mantissa has 53 bits, [m * 2^e].  A mantissa
    rounded up to 2^53 is not renormalised, the value is the same. *)
Definition f64_div (a b : Z) : Z * Z :=
  if a =? 0 then (0, 0) else
  let e := Z.log2 a - Z.log2 b - 52 in
  let scaled e := (a * 2 ^ Z.max 0 (- e), b * 2 ^ Z.max 0 e) in
  let e := if (let '(n, d) := scaled e in n / d <? 2 ^ 52) then e - 1 else e in
  let '(n, d) := scaled e in (round_div n d, e).
(** [as i32] of a non-negative double below 2^31: truncation *)
Definition f64_trunc (x : Z * Z) : Z := let '(m, e) := x in m * 2 ^ Z.max 0 e / 2 ^ Z.max 0 (- e).
Definition simd_interval (c : list Z) (sym : Z) : Z * Z :=
  let prev := if negb (sym =? 0) then cdf_at c (sym - 1) else 0 in
  let cur := cdf_at c sym in
  let scale x := f64_trunc (f64_div (i32 (Z.shiftl x 15)) (cdf_max c)) in
  let start := scale prev + 1 in
  (i16 start, i16 (scale cur - start)).

(** ** cdf_offset_to_sym_start_and_freq *)
(** the bytes of the comparison mask, two per lane *)
Definition mask_bytes (m : list Z) : list Z := flat_map (fun x => let b := if x =? 0 then 0 else 255 in [b; b]) m.
(** movemask: the top bit of every byte *)
Definition movemask (v : list Z) : Z := fold_right (fun b acc => Z.shiftr b 7 + 2 * acc) 0 v.
Definition leading_zeros (bits x : Z) : Z := if x =? 0 then bits else bits - 1 - Z.log2 x.
(** portable, 97-113 *)
Definition sym_portable (m : list Z) : Z :=
  let tmp := shuffle [0; 4; 8; 12; 16; 20; 24; 28; 2; 6; 10; 14; 18; 22; 26; 30]%nat (mask_bytes m) in
  let tmp := and16 tmp [15; 15; 15; 15; 15; 15; 15; 15; 240; 240; 240; 240; 240; 240; 240; 240] in
  let bitmask := Z.lor (unle (firstn 8 tmp)) (unle (skipn 8 tmp)) in
  Z.shiftr (64 - leading_zeros 64 bitmask) 2.
(** AVX2, 114-128 *)
Definition sym_avx2 (m : list Z) : Z := Z.shiftr (32 - leading_zeros 32 (movemask (mask_bytes m))) 1.
(** SSE, 129-145 *)
Definition sym_sse (m : list Z) : Z :=
  32 - leading_zeros 32 (movemask (shuffle [0; 2; 4; 6; 8; 10; 12; 14; 16; 18; 20; 22; 24; 26; 28; 30]%nat (mask_bytes m))).
Definition simd_lookup (sym_of : list Z -> Z) (c : list Z) (off : Z) : Z * Z * Z :=
  let rescaled := i16 (Z.shiftr (i32 (off * cdf_max c)) 15) in
  let sym := sym_of (ge16 (splat16 rescaled) c) in
  let '(s, f) := simd_interval c sym in (sym, s, f).
