(** Model of BlendCDF16 (feature "blend"), src/probability/blend_cdf.rs. *)
From Verif Require Import Prelude ModelAns ModelCdf.

(** CDF_MAX, src/probability/interface.rs; DEL, src/probability/blend_cdf.rs:78,87 *)
Definition CDF_MAX : Z := 32767.
Definition DEL : Z := CDF_MAX - 16.
(** BlendCDF16 and its default, src/probability/blend_cdf.rs:109-113, 129-137 *)
Record bcdf := BC { b_cdf : list Z; b_rate : Z; b_count : Z }.
Definition bcdf_default : bcdf := BC (repeat 0 16) (Z.shiftl 1 10 + Z.shiftl 1 9) 0.
(** to_blend_lut, src/probability/blend_cdf.rs:86-107: row [symbol] of the table *)
Definition to_blend (sym : Z) : list Z := map (fun i => if sym <=? Z.of_nat i then DEL else 0) (seq 0 16).
(** mul_blend, src/probability/blend_cdf.rs:15-54: the two halves are the same lane
    function.  i32 arithmetic wraps here (a debug build would panic); [as Prob] truncates *)
Fixpoint mul_blend (baseline to_b : list Z) (rate bias : Z) : list Z :=
  match baseline, to_b with
  | x :: baseline, t :: to_b =>
      i16 (Z.shiftr (i32 (i32 (t * rate) + i32 (i32 (x * (Z.shiftl 1 15 - rate)) + bias))) 15) :: mul_blend baseline to_b rate bias
  | _, _ => []
  end.
(** blend_internal, src/probability/blend_cdf.rs:116-126; [None] = the debug_assert *)
Definition blend_internal (b : bcdf) (to_b : list Z) (rate : Z) : option bcdf :=
  let c := mul_blend (b_cdf b) to_b rate (Z.shiftl (Z.land (b_count b) 15) 11) in
  let c := if nth 15 c 0 <? DEL - Z.shiftr (nth 15 c 0) 1 then map (fun x => i16 (x + Z.shiftr x 1)) c else c in
  assert (nth 15 c 0 <=? DEL) (Some (BC c (b_rate b) (b_count b))).
(** blend, src/probability/blend_cdf.rs:193-213: the speed is not used *)
Definition bblend (b : bcdf) (sym : Z) : option bcdf :=
  let b := BC (b_cdf b) (b_rate b) (i32 (b_count b + 1)) in
  let? b := blend_internal b (to_blend sym) (b_rate b) in
  Some (BC (b_cdf b) (b_rate b - Z.shiftr (b_rate b) 7) (b_count b)).
(** average, src/probability/blend_cdf.rs:188-192 *)
Definition baverage (b o : bcdf) (mix : Z) : option bcdf := blend_internal b (b_cdf o) mix.
(** the debug_assert of cdf, src/probability/blend_cdf.rs:169 *)
Definition bias_ok (b : bcdf) : bool := 16 <=? i16 (CDF_MAX - nth 15 (b_cdf b) 0).
(** cdf, src/probability/blend_cdf.rs:162-174, of all symbols (its debug_assert is
    [bias_ok]) *)
Definition bvalues (b : bcdf) : list Z :=
  map (fun i => if (i =? 15)%nat then CDF_MAX
                else i16 (nth i (b_cdf b) 0 + i16 (Z.shiftr (i16 (CDF_MAX - nth 15 (b_cdf b) 0) * (Z.of_nat i + 1)) 4))) (seq 0 16).
(** the generic queries, src/probability/interface.rs:97-189, with div_by_max of
    src/probability/blend_cdf.rs:159-161 *)
Definition binterval (b : bcdf) (sym : Z) : Z * Z := sym_to_start_and_freq (fun v => Z.shiftr v 15) (bvalues b) sym.
Definition blookup (b : bcdf) (off : Z) : Z * Z * Z := offset_to_sym (fun v => Z.shiftr v 15) (bvalues b) off.
