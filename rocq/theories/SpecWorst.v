(** How many nibbles a command may take, and the largest file a list of commands can lead
    to.  The command stream holds the kind of each command and its parameters; the literal
    stream holds two nibbles per literal byte. *)
From Verif Require Import Prelude ModelMux ModelCmd ModelPriors ModelCodec ModelPm ModelTop SpecCodec SpecCost.

(** nibbles on the command stream *)
Definition command_nibbles (D : dims) (c : command) : Z :=
  match c with
  | Copy _ _ => 23
  | Dict _ _ _ _ => 7
  | Literal _ false => 12
  | Literal _ true => 13
  | BlockSwitchLiteral _ _ => 5
  | BlockSwitchCommand _ | BlockSwitchDistance _ => 4
  | PredictionMode p => 22 + 3 * zlen (lit_map p) + 3 * zlen (src_map p true) + n_mix D
  end.
(** nibbles on the literal stream *)
Definition literal_nibbles (c : command) : Z := match c with Literal data _ => 2 * zlen data | _ => 0 end.
Definition total (f : command -> Z) (cmds : list command) : Z := fold_right Z.add 0 (map f cmds).
(** number of nibbles written to one stream *)
Definition written (st : stream) (es : list ev) : Z := zlen (filter (on st) es).
(** bytes of an entropy coded stream of [n] nibbles, at worst *)
Definition stream_room (n : Z) : Z := 2 * n + 16 * groups n.
(** bytes of a file, at worst: every payload byte in a frame of its own, header, end marker
    and trailer *)
Definition file_room (D : dims) (cmds : list command) : Z :=
  4 * (stream_room (total (command_nibbles D) cmds + 1) + stream_room (total literal_nibbles cmds)) + 27.
