(** The command type (brotli::interface::Command, re-exported by src/interface.rs:150-156;
    the definition lives in the brotli crate).  [empty] of DictCommand and [prob] of
    LiteralCommand are omitted: the crate never reads the first in the code modelled
    here and the second exists only under the external-literal-probability feature. *)
From Verif Require Import Prelude.

(** PredictionModeContextMap: literal_context_map, and the fields that brotli's accessors
    read from and write to predmode_speed_and_distance_context_map: the distance map, the
    mixing values, literal_prediction_mode, get_mixing_math, get_is_adv_context_map,
    stride_context_speed_f8, context_map_speed_f8, combined_stride_context_speed_f8,
    has_context_speeds.  Simplification: the byte layout of that array (a matter of the
    brotli crate, whose source is not in /repo) is replaced by the fields. *)
Record predmode := PM { lit_map : list Z; dist_map : list Z; mixing : list Z;
  pm_mode : Z; pm_math : Z; pm_adv : Z;
  stride_f8 : list (Z * Z); cm_f8 : list (Z * Z); comb_f8 : list (Z * Z); has_speeds : bool }.
(** empty_prediction_mode_context_map (brotli crate): no map, no speeds *)
Definition pm_empty : predmode := PM [] [] [] 0 0 0 [] [] [] false.
Inductive command :=
| Copy (distance num_bytes : Z)
| Dict (word_size word_id transform final_size : Z)
| Literal (data : list Z) (high_entropy : bool)
| PredictionMode (pm : predmode)
| BlockSwitchCommand (btype : Z)
| BlockSwitchDistance (btype : Z)
| BlockSwitchLiteral (btype stride : Z).
