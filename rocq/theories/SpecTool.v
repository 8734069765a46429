(** Specification vocabulary for the command line tool. *)
From Verif Require Import Prelude ModelMux ModelIo SpecIo ModelHeader ModelTool.

(** No write fails. *)
Definition writable_file (evs : list wevent) : Prop := ~ In WFault evs.
(** No read of the source is interrupted. *)
Definition undisturbed (src : list event) : Prop := ~ In SIntr src.
(** Every read returns at most [n] bytes. *)
Definition at_most (n : Z) (e : event) : Prop := match e with SData l => zlen l <= n | _ => True end.
(** What a reader that treats an interrupted read as a repetition of the piece before it
    takes the source to deliver; [last] is the piece before. *)
Fixpoint heard (last : list Z) (src : list event) : list Z :=
  match src with
  | SData l :: src => l ++ heard l src
  | SIntr :: src => last ++ heard last src
  | SErr :: _ | [] => []
  end.
(** The data looks like a compressed file: it starts with the four bytes of the magic number. *)
Definition looks_compressed (X : list Z) : Prop := exists rest, X = [255; 229; 140; 159] ++ rest.
