(** A caller of the raw interface: encode each piece, then flush. *)
From Verif Require Import Prelude ModelMux ModelCmd ModelRecode ModelRaw.
Fixpoint encode_pieces (pm0 : predmode) (s : raws) (pieces : list (list Z)) : option (list command) :=
  match pieces with
  | [] => let? '(cs, _) := raw_finish 2 pm0 s in Some cs
  | p :: pieces =>
      let? '(cs, s) := raw_encode (length p + 3) pm0 s p in
      let? cs2 := encode_pieces pm0 s pieces in Some (cs ++ cs2)
  end.
