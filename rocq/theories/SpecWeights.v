(** Specification vocabulary for C45. *)
From Verif Require Import Prelude ModelLit.

(** weights after a history of updates (probability given by either model,
    probability given by the mixture) *)
Definition weights_after (w : weights) (hist : list (Z * Z * Z)) : weights :=
  fold_left (fun w '(p0, p1, q) => weights_update w p0 p1 q) hist w.
(** the number the coder passes to the mixing function *)
Definition mixing_rate (w : weights) : Z := norm_weight w mod 2 ^ 16.
(** one step of the weight adaptation on unbounded integers *)
Definition weight_step (p q w : Z) : Z :=
  Z.max 1 (w + (2 ^ 15 - q) * (2 ^ 15 * (p - q)) / 2 ^ (Z.log2 (q * (2 ^ 15 - q)) + 1)).
