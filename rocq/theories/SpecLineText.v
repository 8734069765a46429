(** Command lines on texts: used by C75. *)
From Verif Require Import Prelude ModelMux ModelCmd ModelRecode ModelPriors ModelCodec ModelPm ModelTop SpecCodec SpecLz.
From Verif Require ModelArgs ModelLine.

(** the table of word sizes is that of the dictionary *)
Definition sizes_agree (dict : dict_fn) (wl : word_len_fn) : Prop :=
  forall ws wid tr w, dict ws wid tr = Some w -> wl ws wid tr = zlen w /\ zlen w < 256.
(** the commands can be coded with the settings of the line [strs], and replayed with a
    window of [2 ^ w] bytes *)
Definition sayable (dict : dict_fn) (strs : list (list Z)) (w : Z) (cmds : list command) : Prop :=
  (exists p, ModelArgs.main strs = ModelArgs.MRun p /\ Forall (encodable real_dims (ModelLine.line_cfg (ModelArgs.p_opts p))) cmds) /\
  Forall (replayable dict (2 ^ w)) cmds.
