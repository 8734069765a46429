(** What the distance cache of the command optimiser is to say. *)
From Verif Require Import Prelude ModelMux ModelCmd ModelCodec ModelIr.

(** the codec's bookkeeping after it has coded the commands [l]: of the recent distances
    only copies matter *)
Definition after_copies (b : bk) (l : list icmd) : bk :=
  fold_left (fun b x => match x with IOther (Copy d _) => obs_distance b d | _ => b end) l b.
(** the code the codec will give to distance [d] after the first [j] commands *)
Definition code_at (b : bk) (l : list icmd) (j : nat) (d : Z) : Z :=
  distance_mnemonic_code (distance_lru (after_copies b (firstn j l))) d.
(** four different distances *)
Definition recent4 (b : bk) : Prop := length (distance_lru b) = 4%nat /\ NoDup (distance_lru b).
