(** The ideal length of a coded list of symbols.  A symbol with interval (start, f) out of
    [2 ^ 15] has probability [f / 2 ^ 15]; an ideal code spends [15 - log2 f] bits on it.
    For [n] symbols that is [15 * n - log2 (weight l)] bits in all.  To stay in the integers
    the statements compare powers of two: "[k] bits are at least the ideal length plus [c]"
    reads [2 ^ (15 * n + c) <= 2 ^ k * weight l]. *)
From Verif Require Import Prelude.

(** product of the frequencies *)
Definition weight (l : list (Z * Z)) : Z := fold_right Z.mul 1 (map snd l).
Definition count (l : list (Z * Z)) : Z := Z.of_nat (length l).
(** the symbols are coded in groups of 65536 *)
Definition groups (n : Z) : Z := (n + 65535) / 65536.
(** [k] bytes are at least the ideal length of [l] and [c] bits *)
Definition at_least_ideal_plus (k : Z) (l : list (Z * Z)) (c : Z) : Prop := 2 ^ (15 * count l + c) <= 2 ^ (8 * k) * weight l.
(** [k] bytes are at most the ideal length of [l] and [c] bits *)
Definition at_most_ideal_plus (k : Z) (l : list (Z * Z)) (c : Z) : Prop := 2 ^ (8 * k) * weight l <= 2 ^ (15 * count l + c).
