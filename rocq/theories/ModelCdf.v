(** Model of the nibble probability distributions, /repo/src/probability.
    A distribution is the list of its 16 cumulative counts (i16). *)
From Verif Require Import Prelude ModelAns.
From Verif Require Import ModelDivLut0 ModelDivLut1 ModelDivLut2 ModelDivLut3.

Definition i32 (x : Z) : Z := (x + 2 ^ 31) mod 2 ^ 32 - 2 ^ 31.

(** ** FrequentistCDF16, src/probability/frequentist_cdf.rs *)
(** src/probability/frequentist_cdf.rs:17-23 *)
Definition cdf_default : list Z :=
  [4; 8; 12; 16; 20; 24; 28; 32; 36; 40; 44; 48; 52; 56; 60; 64].
(** cdf(), src/probability/frequentist_cdf.rs:41-43 *)
Definition cdf_at (c : list Z) (sym : Z) : Z := nth (Z.to_nat (Z.land sym 15)) c 0.
(** max(), src/probability/frequentist_cdf.rs:32-34 *)
Definition cdf_max (c : list Z) : Z := nth 15 c 0.
(** div_by_max(), src/probability/frequentist_cdf.rs:36-38 *)
Definition div_by_max_ref (c : list Z) (v : Z) : Z := Z.quot v (cdf_max c).

(** the first loop of blend(), src/probability/frequentist_cdf.rs:77-79 *)
Fixpoint blend_add (i sym inc : Z) (c : list Z) : list Z :=
  match c with
  | [] => []
  | x :: c => (if sym <=? i then i16 (x + inc) else x) :: blend_add (i + 1) sym inc c
  end.
(** the second loop of blend(), src/probability/frequentist_cdf.rs:81-83 *)
Fixpoint blend_bias (i : Z) (c : list Z) : list Z :=
  match c with
  | [] => []
  | x :: c => i16 (i16 (x + (i + 1)) - Z.shiftr (i16 (x + (i + 1))) 2) :: blend_bias (i + 1) c
  end.
(** blend(), src/probability/frequentist_cdf.rs:74-85 *)
Definition blend (c : list Z) (sym inc lim : Z) : list Z :=
  let c := blend_add 0 sym inc c in
  if lim <=? cdf_max c then blend_bias 0 c else c.

(** i32::leading_zeros of a non-negative value *)
Definition leading_zeros32 (x : Z) : Z := if x =? 0 then 32 else 31 - Z.log2 x.
(** average(), src/probability/frequentist_cdf.rs:58-72 *)
Fixpoint avg_loop (c o : list Z) (ourmax othermax shift mix : Z) : list Z :=
  match c, o with
  | s :: c, o1 :: o =>
      let rs := Z.shiftr (s * othermax) shift in
      let ro := Z.shiftr (o1 * ourmax) shift in
      i16 (Z.shiftr (rs * mix + ro * (2 ^ 15 - mix) + 1) 15)
      :: avg_loop c o ourmax othermax shift mix
  | c, _ => c
  end.
Definition average (c o : list Z) (mix : Z) : list Z :=
  let m := cdf_max c * cdf_max o in
  let shift := 17 - Z.min (leading_zeros32 m) 17 in
  avg_loop c o (cdf_max c) (cdf_max o) shift mix.

(** ** Interval computation and lookup, generic in the division by max *)
(** sym_to_start_and_freq, src/probability/interface.rs:97-108.  The final
    [+ 1] and [- 1] are not wrapped: theorem C04 shows they stay in i16. *)
Definition sym_to_start_and_freq (div : Z -> Z) (c : list Z) (sym : Z) : Z * Z :=
  let cdf_sym := div (Z.shiftl (cdf_at c sym) 15) in
  let cdf_prev := if negb (sym =? 0) then div (Z.shiftl (cdf_at c (sym - 1)) 15) else 0 in
  (i16 cdf_prev + 1, i16 (cdf_sym - cdf_prev) - 1).
(** the chain of comparisons, src/probability/interface.rs:154-187: the first
    of the symbols 0..14 whose cumulative count exceeds the offset, else 15 *)
Fixpoint find_sym (i : Z) (c : list Z) (off : Z) : Z :=
  match c with
  | x :: ((_ :: _) as c') => if off <? x then i else find_sym (i + 1) c' off
  | _ => i
  end.
(** cdf_offset_to_sym_start_and_freq, src/probability/interface.rs:136-189
    (without the avoid-divide feature) *)
Definition offset_to_sym (div : Z -> Z) (c : list Z) (off : Z) : Z * Z * Z :=
  let rescaled := i16 (Z.shiftr (off * cdf_max c) 15) in
  let sym := find_sym 0 c rescaled in
  let '(s, f) := sym_to_start_and_freq div c sym in
  (sym, s, f).

(** ** Reciprocal division, src/probability/numeric.rs *)
Definition LOG_MAX_NUMERATOR : Z := 31.
(** k16bit_length, src/probability/numeric.rs:10-12 (of a non-negative value) *)
Definition k16bit_length (d : Z) : Z := if d =? 0 then 0 else Z.log2 d + 1.
(** compute_divisor, src/probability/numeric.rs:15-18 *)
Definition compute_divisor (d : Z) : Z * Z :=
  let bit_len := k16bit_length d in
  (Z.quot (Z.shiftl (Z.shiftl 1 bit_len - d) LOG_MAX_NUMERATOR) d + 1, (bit_len - 1) mod 256).
(** The table div_lut::RECIPROCAL in 32 pieces of 2048 entries *)
Definition RECIPROCAL : list (list (Z * Z)) :=
  [RECIPROCAL_0; RECIPROCAL_1; RECIPROCAL_2; RECIPROCAL_3;
   RECIPROCAL_4; RECIPROCAL_5; RECIPROCAL_6; RECIPROCAL_7;
   RECIPROCAL_8; RECIPROCAL_9; RECIPROCAL_10; RECIPROCAL_11;
   RECIPROCAL_12; RECIPROCAL_13; RECIPROCAL_14; RECIPROCAL_15;
   RECIPROCAL_16; RECIPROCAL_17; RECIPROCAL_18; RECIPROCAL_19;
   RECIPROCAL_20; RECIPROCAL_21; RECIPROCAL_22; RECIPROCAL_23;
   RECIPROCAL_24; RECIPROCAL_25; RECIPROCAL_26; RECIPROCAL_27;
   RECIPROCAL_28; RECIPROCAL_29; RECIPROCAL_30; RECIPROCAL_31].
(** lookup_divisor, src/probability/numeric.rs:21-23: index [d as u16] *)
Definition lookup_divisor (d : Z) : Z * Z :=
  let i := u16 d in
  nth (Z.to_nat (i mod 2048)) (nth (Z.to_nat (i / 2048)) RECIPROCAL []) (0, 0).
(** fast_divide_30bit_by_16bit, src/probability/numeric.rs:25-30 *)
Definition fast_divide_30bit_by_16bit (num : Z) (inv : Z * Z) : Z :=
  let t := Z.shiftr (fst inv * num) LOG_MAX_NUMERATOR in
  Z.shiftr (i32 (i32 t + Z.shiftr (i32 (num - t)) 1)) (snd inv).
(** compute_divisor8, lookup_divisor8 and fast_divide_16bit_by_8bit,
    src/probability/numeric.rs:45-63 *)
Definition compute_divisor8 (d : Z) : Z := 1 + Z.quot (Z.shiftl 1 24) d.
Definition lookup_divisor8 (d : Z) : Z := nth (Z.to_nat d) RECIPROCAL8 0.
Definition fast_divide_16bit_by_8bit (num inv : Z) : Z := i16 (Z.shiftr (inv * num) 24).

(** ** OptFrequentistCDF16, src/probability/opt_frequentist_cdf.rs:57-60 *)
Record opt_cdf := Opt { o_cdf : list Z; o_inv : Z * Z }.
(** new, src/probability/opt_frequentist_cdf.rs:63-68 *)
Definition opt_new (c : list Z) : opt_cdf := Opt c (lookup_divisor (cdf_max c)).
(** div_by_max, src/probability/opt_frequentist_cdf.rs:101-104 *)
Definition div_by_max_opt (o : opt_cdf) (v : Z) : Z := fast_divide_30bit_by_16bit v (o_inv o).
(** average, blend, src/probability/opt_frequentist_cdf.rs:113-120 *)
Definition opt_average (a b : opt_cdf) (mix : Z) : opt_cdf :=
  opt_new (average (o_cdf a) (o_cdf b) mix).
Definition opt_blend (a : opt_cdf) (sym inc lim : Z) : opt_cdf :=
  let c := blend (o_cdf a) sym inc lim in Opt c (lookup_divisor (cdf_max c)).
(** the generic BaseCDF queries of the two implementations *)
Definition ref_interval (c : list Z) (sym : Z) : Z * Z := sym_to_start_and_freq (div_by_max_ref c) c sym.
Definition ref_lookup (c : list Z) (off : Z) : Z * Z * Z := offset_to_sym (div_by_max_ref c) c off.
Definition opt_interval (o : opt_cdf) (sym : Z) : Z * Z :=
  sym_to_start_and_freq (div_by_max_opt o) (o_cdf o) sym.
Definition opt_lookup (o : opt_cdf) (off : Z) : Z * Z * Z :=
  offset_to_sym (div_by_max_opt o) (o_cdf o) off.

(** ** Speed, src/probability/interface.rs:299-372 *)
(** ENCODER_DEFAULT_PALETTE, src/probability/interface.rs:303-320: (inc, lim) *)
Definition ENCODER_DEFAULT_PALETTE : list (Z * Z) :=
  [(0, 1024); (2, 1024); (1, 128); (1, 16384); (2, 2048); (4, 1024); (8, 8192);
   (16, 48); (16, 8192); (32, 4096); (64, 16384); (128, 256); (128, 16384);
   (512, 16384); (1664, 16384)].
(** GEOLOGIC .. ROCKET, src/probability/interface.rs:321-328 *)
Definition NAMED_SPEEDS : list (Z * Z) :=
  [(1, 16384); (4, 2560); (16, 8192); (32, 4096); (48, 16384); (96, 16384);
   (128, 16384); (384, 16384)].
(** the numeric test of FromStr, src/probability/interface.rs:402-403 *)
Definition from_str_accepts (inc lim : Z) : bool := (lim <=? 16384) && (inc <? 16384).
(** speed_to_u8 (a negative i16 has no leading zeros) and u8_to_speed, src/probability/interface.rs:566-585; i16
    shifts drop high bits.  [None]: shift amount out of range (debug panic). *)
Definition speed_to_u8 (data : Z) : Z :=
  let length := if data <? 0 then 16 else k16bit_length data in
  let mantissa := if data =? 0 then 0 else
    Z.shiftr (i16 (Z.shiftl (data - Z.shiftl 1 (length - 1)) 3)) (length - 1) in
  Z.lor ((Z.shiftl length 3) mod 256) (mantissa mod 256).
Definition u8_to_speed (data : Z) : option Z :=
  if data <? 8 then Some 0 else
  let log_val := Z.shiftr data 3 - 1 in
  assert (log_val <? 16) (
  let rem := i16 (Z.shiftl (Z.land data 7) log_val) in
  Some (Z.lor (i16 (Z.shiftl 1 log_val)) (Z.shiftr rem 3))).

(** ** CDF2, src/probability/interface.rs:218-297: (counts[0], counts[1], prob) *)
Record cdf2 := C2 { c2_f : Z; c2_t : Z; c2_prob : Z }.
(** src/probability/interface.rs:224-231 *)
Definition cdf2_default : cdf2 := C2 1 1 128.
(** blend, src/probability/interface.rs:270-297; [None] = panic *)
Definition cdf2_blend (c : cdf2) (symbol : bool) : option cdf2 :=
  let f := c2_f c in let t := c2_t c in
  assert (negb (f =? 0)) (assert (negb (t =? 0)) (
  let old := if symbol then t else f in
  let other := if symbol then f else t in
  let new := (old + 1) mod 256 in
  if old =? 255 then
    if other =? 1 then
      Some (C2 (if symbol then f else 255) (if symbol then 255 else t) (if symbol then 0 else 255))
    else
      let f' := if symbol then Z.shiftr (1 + f) 1 else 129 in
      let t' := if symbol then 129 else Z.shiftr (1 + t) 1 in
      Some (C2 f' t' ((Z.quot (u16 (Z.shiftl f' 8)) (f' + t')) mod 256))
  else
    let f' := if symbol then f else new in
    let t' := if symbol then new else t in
    Some (C2 f' t' ((Z.quot (u16 (Z.shiftl f' 8)) (f + t + 1)) mod 256)))).
(** cdf_offset_to_sym_start_and_freq of CDF2, src/probability/interface.rs:234-249 *)
Definition cdf2_lookup (c : cdf2) (off : Z) : Z * Z * Z :=
  let bit := c2_prob c <=? Z.shiftr (off * 256) 15 in
  let r := Z.quot (Z.shiftl (c2_prob c) 15) 256 in
  (if bit then 1 else 0, if bit then i16 r else 0, if bit then i16 (2 ^ 15 - r) else i16 r).
