(** Command lines that go together: used by C74. *)
From Verif Require Import Prelude ModelHeader ModelCmd ModelRecode ModelPriors ModelCodec ModelPm ModelTop ModelHybrid SpecCodec SpecHybrid ModelArgs SpecArgs ModelLine.

(** a line the tool acts on: options and up to two names, the job to be done once *)
Definition proper (args : list arg) (strs : list (list Z)) : Prop :=
  Forall2 spelled args strs /\ (length (names args) <= 2)%nat /\ last_said (fun a => match a with ATimes n => Some n | _ => None end) 1 args = 1.
Definition window_said (args : list arg) : option Z := number (fun a => match a with AWindow n => Some n | _ => None end) args (Some 22).
Definition buffer_said (args : list arg) : Z := last_said (fun a => match a with ABuffer n => Some n | _ => None end) 65536 args.
Definition internal_said (args : list arg) : bool := said (fun a => match a with AInternal => true | _ => false end) args.
Definition force_said (args : list arg) : bool := said (fun a => match a with ACompress => true | _ => false end) args.
(** the settings are among those the format can carry: of the last mixing value and the
    last prior depth said, if any, and of every speed said *)
Definition bearable (args : list arg) : Prop :=
  last_said (fun a => match a with AMixing n => Some n | _ => None end) 1 args < 8 /\
  last_said (fun a => match a with ADepth n => Some n | _ => None end) 0 args < 16 /\
  forall place inc lim, In (ASpeed place (inc, lim)) args -> inc <= 5444 /\ (lim < 12288 \/ lim = 16384).
(** brotli's encoder, created with any options, does what divans expects of it *)
Definition sound_encoder (dict : dict_fn) (wl : word_len_fn) {B} (fe : frontend B) (create : opts -> B) (optimize : opts -> metablock -> option metablock) : Prop :=
  forall o, cfg_ok (line_cfg o) -> let ws := choose_window (o_window o) in
  good_frontend dict wl real_dims (line_cfg o) ws fe (optimize o) (create o) /\ faithful dict ws fe (optimize o) (create o) /\ hungry fe (optimize o) (create o).
(** a line that makes the tool decompress a file: told so, or left to find out *)
Definition decompresses (args : list arg) : Prop :=
  job_said args = JDecompress \/ job_said args = JCompress /\ force_said args = false.
