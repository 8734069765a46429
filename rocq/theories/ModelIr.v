(** Model of the command optimiser src/ir_optimize/mod.rs:112-286.
    The cost comparison should_merge (16-111) runs a whole trial coder; it is an
    oracle here: any answer, including an error, at any index. *)
From Verif Require Import Prelude ModelMux ModelCmd.

(** Command<SliceOffset>: a literal names a range of the input; the other kinds
    are as in [command].  (brotli's SliceOffset is (usize, u32); offsets and
    lengths are unbounded here.) *)
Inductive icmd := ILit (off len : Z) (high_entropy : bool) | IOther (c : command).
(** CopyCommand::nop(), from the brotli crate *)
Definition nop_copy : icmd := IOther (Copy 1 0).

Inductive ir_result (A : Type) := IrOk (a : A) | IrErr | IrPanic.
Arguments IrOk {A}. Arguments IrErr {A}. Arguments IrPanic {A}.

Definition upd {A} (l : list A) (i : nat) (x : A) : list A := firstn i l ++ x :: skipn (S i) l.

(** One turn of the merge loop, src/ir_optimize/mod.rs:191-245.  [b] is
    mb.0.len(); [merge index] is the answer of should_merge; [trial index] says
    whether the trial coder accepts the command that is stepped over. *)
Definition ir_step (b : Z) (merge : nat -> option bool) (trial : nat -> bool)
  (l : list icmd) (el index : nat) : ir_result (list icmd * nat) :=
  let step := if trial index then IrOk (l, index) else IrErr in
  match nth_error l el, nth_error l index with
  | Some (ILit off len he), Some (IOther (Copy d n)) =>
      match merge index with
      | None => IrErr
      | Some m =>
          let fin := off + len + n in
          if m && negb ((off <? b) && (b <? fin)) then
            IrOk (upd (upd l el (ILit off (len + n) he)) index nop_copy, el)
          else step
      end
  | Some (ILit off len he), Some (ILit off' len' _) =>
      let fin := off + len + len' in
      if (off <? b) && (b <? fin) then step
      else if off + len =? off' then
        IrOk (upd (upd l el (ILit off (len + len') he)) index nop_copy, el)
      else IrPanic
  | Some _, Some _ => step
  | _, _ => IrPanic
  end.
(** the loop [for index in 1..orig_buf.len()], 191; [n] turns are left *)
Fixpoint ir_loop (b : Z) (merge : nat -> option bool) (trial : nat -> bool)
  (n : nat) (l : list icmd) (el index : nat) : ir_result (list icmd) :=
  match n with
  | O => IrOk l
  | S n =>
      match ir_step b merge trial l el index with
      | IrOk (l, el) => ir_loop b merge trial n l el (S index)
      | IrErr => IrErr
      | IrPanic => IrPanic
      end
  end.
(** the compaction in place, 263-273 and the prefix returned, 285 *)
Definition is_empty_copy (c : icmd) : bool := match c with IOther (Copy _ n) => n =? 0 | _ => false end.
Fixpoint ir_compact (n : nat) (l : list icmd) (el index : nat) : list icmd * nat :=
  match n with
  | O => (l, el)
  | S n =>
      match nth_error l index with
      | Some c => if is_empty_copy c then ir_compact n l el (S index)
                  else ir_compact n (upd l el c) (S el) (S index)
      | None => (l, el)
      end
  end.
(** ir_optimize.  The trial runs over the remaining commands, 246-262, can only
    fail: [trial 0]. *)
Definition ir_optimize (b : Z) (merge : nat -> option bool) (trial : nat -> bool) (l : list icmd) : ir_result (list icmd) :=
  match l with
  | [] => IrOk []
  | _ =>
      match ir_loop b merge trial (length l - 1) l 0 1 with
      | IrOk l => if trial 0%nat then let '(l, el) := ir_compact (length l) l 0 0 in IrOk (firstn el l) else IrErr
      | e => e
      end
  end.
