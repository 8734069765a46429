(** The blending distribution run over a history of symbols. *)
From Verif Require Import Prelude ModelAns ModelBlend.

Fixpoint brun_from (b : bcdf) (h : list Z) : option bcdf :=
  match h with
  | [] => Some b
  | s :: h => let? b := bblend b s in brun_from b h
  end.
Definition brun (h : list Z) : option bcdf := brun_from bcdf_default h.
