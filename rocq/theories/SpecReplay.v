(** The replay buffer as the command coder sees it, abstractly: a history that grows by
    the LZ77 meaning of each command.  C16 and C18 relate it to the code's ring buffer. *)
From Verif Require Import Prelude ModelMux ModelCmd ModelRecode SpecLz ModelCodec ModelTop.

(** decidable form of [replayable] *)
Definition replayableb (dict : dict_fn) (wlen : Z) (c : command) : bool :=
  match c with
  | Copy d n => (1 <=? d) && (d <? wlen) && (0 <=? n)
  | Dict ws wid tr fs => match dict ws wid tr with Some w => (zlen w <? wlen) && ((fs =? 0) || (fs =? zlen w)) | None => false end
  | _ => true
  end.
(** the state is the whole history, starting with the initial window of [wlen] bytes *)
Definition lz_replayer (dict : dict_fn) (wlen : Z) : replayer (list Z) :=
  RP (list Z)
     (fun h c => if replayableb dict wlen c then Next (h ++ meaning1 dict h c) else Panic)
     (fun h => unle (if (zlen h - wlen) mod wlen <? 8 then rev (last8 h) else last8 h)).
