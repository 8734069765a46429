(** The compressed file: header, two multiplexed streams of entropy coded nibbles, the
    end marker, the trailer. *)
From Verif Require Import Prelude ModelAns ModelCdf SpecCdf ModelMux SpecMux ModelCmd ModelRecode SpecLz ModelPriors ModelCodec ModelPm ModelTop SpecCodec SpecReplay ModelCrc SpecCrc ModelHeader SpecHeader.

(** [W] carries the streams [a] (commands) and [b] (literals): a demultiplexer fed [W] in
    any pieces delivers them, finds the end of the file and does not touch what follows. *)
Definition carries (W a b : list Z) : Prop :=
  forall rops tail, bytes tail -> fed rops = W ++ tail ->
  exists r, run_reader reader_new rops = Some r /\ delivered r Cmd = a /\ delivered r Lit = b /\ eof (rmux r) = EofDone /\ carry r = tail.
(** The format: frames, each a header giving the stream and the number of payload bytes,
    then the payload, then the end marker.  [framing a b W]: [W] is a sequence of frames
    whose payloads make up [a] and [b]. *)
Definition payload (s t : SpecMux.stream) (d rest : list Z) : list Z := (if stream_eqb s t then d else []) ++ rest.
Inductive framing : list Z -> list Z -> list Z -> Prop :=
| frame_end : framing [] [] [255; 254; 255]
| frame_short s lo hi d a b W : byte lo -> byte hi -> zlen d = lo + 256 * hi + 1 -> framing a b W ->
    framing (payload s Cmd d a) (payload s Lit d b) ([sid s; lo; hi] ++ d ++ W)
| frame_long s j d a b W : 1 <= j <= 3 -> zlen d = 1024 * 4 ^ j -> framing a b W ->
    framing (payload s Cmd d a) (payload s Lit d b) ([sid s + 16 * j] ++ d ++ W).
Definition is_file (ws : Z) (a b T : list Z) : Prop :=
  exists W, framing a b W /\ carries W a b /\ T = make_header ws ++ W ++ trailer (crc32c 0 (make_header ws ++ W)).

(** The (start, frequency) pairs of the nibbles written to one stream. *)
Definition intervals (st : ModelCodec.stream) (es : list ev) : list (Z * Z) :=
  map (fun e => ref_interval (e_cdf e) (e_val e)) (filter (on st) es).

(** A list of commands a compressor with window [2 ^ ws] must accept: encodable, and the
    window can replay what the decoder will see. *)
Definition acceptable (dict : dict_fn) (wl : word_len_fn) (D : dims) (g : cfg) (ws : Z) (cmds : list command) : Prop :=
  Forall (encodable D g) cmds /\ Forall (replayable dict (2 ^ ws)) (coded_all wl D g (pm_new D) cmds).
(** the initial window *)
Definition window (ws : Z) : list Z := repeat 0 (Z.to_nat (2 ^ ws)).
(** The two streams of the file for these commands. *)
Definition streams_of (dict : dict_fn) (wl : word_len_fn) (D : dims) (g : cfg) (ws : Z) (cmds : list command) (a b : list Z) : Prop :=
  exists fuel c es,
    enc_all (lz_replayer dict (2 ^ ws)) wl D fuel g cmds (codec_new D (window ws)) = Some (c, coded_all wl D g (pm_new D) cmds, es) /\ writable es /\
    ans_encode (intervals CMD es) = Some a /\ ans_encode (intervals LIT es) = Some b.
