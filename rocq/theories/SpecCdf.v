(** Specification vocabulary for the distribution properties C04-C08, C44. *)
From Verif Require Import Prelude ModelAns ModelCdf.

(** cumulative count up to and including symbol [s] / of symbol [s] alone *)
Definition cumul (c : list Z) (s : Z) : Z := if s <? 0 then 0 else nth (Z.to_nat s) c 0.
Definition share (c : list Z) (s : Z) : Z := cumul c s - cumul c (s - 1).
Definition total (c : list Z) : Z := cumul c 15.

(** 16 entries, positive total that fits i16, and every symbol owns at least
    1/16384 of the total (so its interval on the 2^15 scale has room). *)
Definition codable (c : list Z) : Prop :=
  length c = 16%nat /\ 0 < total c <= 32767 /\
  forall s, nibble s -> total c <= 16384 * share c s.

(** Adaptation histories of one distribution, and what the coder uses: a single
    distribution or a mixture of two. *)
Inductive hist :=
| Fresh
| Seen (h : hist) (sym inc lim : Z).
Inductive dist :=
| Single (h : hist)
| Mixed (h1 h2 : hist) (mix : Z).

(** symbols are nibbles, increments at most 5444, limits at most 16384 *)
Fixpoint hist_ok (h : hist) : Prop :=
  match h with
  | Fresh => True
  | Seen h sym inc lim => hist_ok h /\ nibble sym /\ 0 <= inc <= 5444 /\ lim <= 16384
  end.
Definition dist_ok (d : dist) : Prop :=
  match d with
  | Single h => hist_ok h
  | Mixed h1 h2 mix => hist_ok h1 /\ hist_ok h2 /\ 0 <= mix <= 2 ^ 15
  end.

(** the reference and the optimised implementation run over a history *)
Fixpoint run_ref (h : hist) : list Z :=
  match h with
  | Fresh => cdf_default
  | Seen h sym inc lim => blend (run_ref h) sym inc lim
  end.
Definition eval_ref (d : dist) : list Z :=
  match d with
  | Single h => run_ref h
  | Mixed h1 h2 mix => average (run_ref h1) (run_ref h2) mix
  end.
Fixpoint run_opt (h : hist) : opt_cdf :=
  match h with
  | Fresh => opt_new cdf_default
  | Seen h sym inc lim => opt_blend (run_opt h) sym inc lim
  end.
Definition eval_opt (d : dist) : opt_cdf :=
  match d with
  | Single h => run_opt h
  | Mixed h1 h2 mix => opt_average (run_opt h1) (run_opt h2) mix
  end.
