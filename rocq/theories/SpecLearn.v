(** A distribution shown the same symbol again and again. *)
From Verif Require Import Prelude ModelAns ModelCdf SpecCdf.

(** history [h], and then [n] times the symbol [v] at one speed *)
Fixpoint repeated (h : hist) (v inc lim : Z) (n : nat) : hist :=
  match n with O => h | S n => Seen (repeated h v inc lim n) v inc lim end.
(** what the others own together *)
Definition others (c : list Z) (v : Z) : Z := total c - share c v.
(** The intervals used for [n] symbols [v], each coded with the distribution adapted to
    the ones before it. *)
Definition run_of (h : hist) (v inc lim : Z) (n : nat) : list (Z * Z) :=
  map (fun i => ref_interval (run_ref (repeated h v inc lim i)) v) (seq 0 n).
