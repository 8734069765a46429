(** The meaning of a command list: LZ77 over a growing history. *)
From Verif Require Import Prelude ModelMux ModelCmd ModelRecode.

(** the [n] bytes a copy of distance [d] appends to history [h]: one byte at a time,
    each the byte [d] positions back, counting the bytes just appended *)
Fixpoint copied (h : list Z) (d : nat) (n : nat) : list Z :=
  match n with
  | O => []
  | S n => let b := nth (length h - d) h 0 in b :: copied (h ++ [b]) d n
  end.
(** bytes a command appends *)
Definition meaning1 (dict : dict_fn) (h : list Z) (c : command) : list Z :=
  match c with
  | Literal data _ => data
  | Copy d n => copied h (Z.to_nat d) (Z.to_nat n)
  | Dict ws wid tr _ => match dict ws wid tr with Some w => w | None => [] end
  | _ => []
  end.
Fixpoint meaning (dict : dict_fn) (h : list Z) (cs : list command) : list Z :=
  match cs with
  | [] => []
  | c :: cs => let x := meaning1 dict h c in x ++ meaning dict (h ++ x) cs
  end.
(** commands the window of [len] bytes can replay *)
Definition replayable (dict : dict_fn) (len : Z) (c : command) : Prop :=
  match c with
  | Copy d n => 1 <= d < len /\ 0 <= n
  | Dict ws wid tr fs => exists w, dict ws wid tr = Some w /\ zlen w < len /\ (fs = 0 \/ fs = zlen w)
  | _ => True
  end.

(** the last 8 bytes *)
Definition last8 (h : list Z) : list Z := skipn (length h - 8) h.

(** A caller: one encode_cmd call per output buffer, moving to the next command on
    success; when no command is left, flush. *)
Definition cmd_fuel (dict : dict_fn) (c : command) : nat :=
  match c with
  | Copy _ n => Z.to_nat n + 2
  | Literal data _ => length data + 2
  | _ => 3
  end.
Inductive replay_result := RR (out : list Z) (state : rcs) (left : list command) (finished : bool).
Fixpoint replay (dict : dict_fn) (r : rcs) (cs : list command) (rooms : list nat) : option replay_result :=
  match rooms with
  | [] => Some (RR [] r cs false)
  | n :: rooms =>
      match cs with
      | [] =>
          let? '(res, o, r) := rflush r (Z.of_nat n) in
          match res with
          | OSuccess => Some (RR o r [] true)
          | _ => let? '(RR o2 r l f) := replay dict r [] rooms in Some (RR (o ++ o2) r l f)
          end
      | c :: cs' =>
          let? '(res, o, r) := encode_cmd (cmd_fuel dict c) dict r c (Z.of_nat n) in
          match res with
          | OSuccess => let? '(RR o2 r l f) := replay dict r cs' rooms in Some (RR (o ++ o2) r l f)
          | ONeedsMoreOutput => let? '(RR o2 r l f) := replay dict r cs rooms in Some (RR (o ++ o2) r l f)
          | OFailure => None
          end
      end
  end.
(** the same through encode_commands: the list is offered again from the first
    unconsumed command *)
Definition list_fuel (dict : dict_fn) (cs : list command) : nat := list_max (map (cmd_fuel dict) cs).
Fixpoint replay_list (dict : dict_fn) (r : rcs) (cs : list command) (rooms : list nat) : option replay_result :=
  match rooms with
  | [] => Some (RR [] r cs false)
  | n :: rooms =>
      let? '(res, o, r, k) := encode_commands (list_fuel dict cs) dict r cs (Z.of_nat n) in
      match res with
      | OSuccess => Some (RR o r (skipn k cs) true)
      | ONeedsMoreOutput => let? '(RR o2 r l f) := replay_list dict r (skipn k cs) rooms in Some (RR (o ++ o2) r l f)
      | OFailure => None
      end
  end.
