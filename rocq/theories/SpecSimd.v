(** The SIMD distributions run over a history. *)
From Verif Require Import Prelude ModelAns ModelCdf ModelSimd SpecCdf.

Fixpoint run_simd (h : hist) : list Z :=
  match h with
  | Fresh => cdf_default
  | Seen h sym inc lim => simd_blend (run_simd h) sym inc lim
  end.
Definition eval_simd (d : dist) : list Z :=
  match d with
  | Single h => run_simd h
  | Mixed h1 h2 mix => simd_average (run_simd h1) (run_simd h2) mix
  end.
