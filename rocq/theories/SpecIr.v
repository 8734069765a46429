(** Specification vocabulary for C41. *)
From Verif Require Import Prelude ModelMux ModelCmd ModelRecode SpecLz ModelIr.

(** resolving a literal's range in the input *)
Definition thaw (inp : list Z) (c : icmd) : command :=
  match c with
  | ILit off len he => Literal (firstn (Z.to_nat len) (skipn (Z.to_nat off) inp)) he
  | IOther c => c
  end.
Definition ir_meaning dict inp (h : list Z) (l : list icmd) : list Z := meaning dict h (map (thaw inp) l).
(** The list describes the input from position [pos] on: run after history [h] it
    produces exactly those bytes, and every literal names the range of the input
    at the position the output has reached. *)
Definition describes (dict : dict_fn) (inp : list Z) (pos : Z) (h : list Z) (l : list icmd) : Prop :=
  (exists n, ir_meaning dict inp h l = firstn n (skipn (Z.to_nat pos) inp)) /\
  (forall pre off len he post, l = pre ++ ILit off len he :: post ->
     off = pos + zlen (ir_meaning dict inp h pre) /\ 0 <= len /\ off + len <= zlen inp) /\
  (forall d n, In (IOther (Copy d n)) l -> 0 <= n) /\
  (forall s he, ~ In (IOther (Literal s he)) l).
(** no literal crosses the boundary [b] between the two halves of the input *)
Definition unsplit (b : Z) (l : list icmd) : Prop :=
  forall off len he, In (ILit off len he) l -> ~ (off < b < off + len).
(** the commands that are neither literals nor copies, each with the number of
    bytes produced before it *)
Fixpoint marks (dict : dict_fn) (inp h : list Z) (l : list icmd) (done : Z) : list (Z * command) :=
  match l with
  | [] => []
  | c :: l =>
      let x := meaning1 dict h (thaw inp c) in
      let rest := marks dict inp (h ++ x) l (done + zlen x) in
      match c with
      | ILit _ _ _ | IOther (Copy _ _) => rest
      | IOther c => (done, c) :: rest
      end
  end.
