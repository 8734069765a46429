(** Model of src/probability/make_div_lut.rs, the program that printed the division tables of
    src/probability/div_lut.rs: one table entry at a time, with its checks.  The layout of the
    printed text is not modelled. *)
From Verif Require Import Prelude ModelAns ModelCdf.

(** the loop [for num in n .. n + fuel]: does every round pass? *)
Fixpoint every (fuel : nat) (n : Z) (check : Z -> bool) : bool :=
  match fuel with O => true | S fuel => check n && every fuel (n + 1) check end.
(** The entry for [divisor] of RECIPROCAL8, src/probability/make_div_lut.rs:4-28: a failing
    division prints FAIL, and fails the assertion after the loop ([None]).  The upper end of
    the loop, 65535, is excluded. *)
Definition gen_entry8 (divisor : Z) : option Z :=
  let reciprocal := compute_divisor8 divisor in
  if every (Z.to_nat 65535) 0 (fun num => u16 (fast_divide_16bit_by_8bit num reciprocal) =? Z.quot num divisor)
  then if reciprocal <=? 2 ^ 30 then Some reciprocal else None
  else None.
(** The entry for [divisor] of RECIPROCAL, src/probability/make_div_lut.rs:31-42; with the
    feature division_table_gen denominators are u16 (src/probability/numeric.rs:8-9). *)
Definition gen_entry (divisor : Z) : option (Z * Z) :=
  let reciprocal := compute_divisor divisor in
  if every (Z.to_nat 65536) 0 (fun num => Z.quot (i32 (Z.shiftl num 15)) divisor =? fast_divide_30bit_by_16bit (i32 (Z.shiftl num 15)) reciprocal)
  then Some (fst reciprocal, snd (compute_divisor divisor)) else None.
