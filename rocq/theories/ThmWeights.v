(** Property theorems C45 (literal mixing weights). *)
From Verif Require Import Prelude ModelCdf ModelLit SpecWeights ProofWeights.

(** C45.  Whatever probabilities the weights were updated with, both weights
    are positive i32 values, the mixing rate is a legal probability on the 2^15
    scale, and it is within 3/256 of the first weight's true share. *)
Theorem C45_weights_in_range : forall hist,
  let w := weights_after weights_new hist in
  1 <= w0 w < 2 ^ 31 /\ 1 <= w1 w < 2 ^ 31 /\ 0 <= mixing_rate w <= 2 ^ 15 /\
  Z.abs (2 ^ 15 * w0 w - mixing_rate w * (w0 w + w1 w)) <= 384 * (w0 w + w1 w).
Proof. exact weights_rate. Qed.
Print Assumptions C45_weights_in_range.

(** With probabilities the coder produces (the mixture's is never 0), an update
    computes the exact unbounded-integer formula: nothing wraps or is cut off. *)
Theorem C45_update_exact : forall hist p0 p1 q,
  0 <= p0 <= 2 ^ 15 -> 0 <= p1 <= 2 ^ 15 -> 1 <= q < 2 ^ 15 ->
  let w := weights_after weights_new hist in
  let w' := weights_update w p0 p1 q in
  let '(a, b) := normalize_weights (w0 w) (w1 w) in
  w0 w' = weight_step p0 q a /\ w1 w' = weight_step p1 q b /\
  weight_step p0 q a < 2 ^ 31 /\ weight_step p1 q b < 2 ^ 31.
Proof. exact weights_history_exact. Qed.
Print Assumptions C45_update_exact.

(** three extreme updates: the weights move apart and the rate follows *)
Example C45_case :
  let w := weights_after weights_new [(32000, 10, 1); (20, 30000, 15000); (32767, 1, 2)] in
  (w0 w, w1 w, mixing_rate w) = (553139492, 20758, 32768).
Proof. vm_compute. reflexivity. Qed.
