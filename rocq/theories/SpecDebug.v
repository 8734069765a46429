(** Specification vocabulary for C84. *)
From Verif Require Import Prelude ModelDebug.

(** what was put, and what is asked *)
Fixpoint puts (ops : list link_op) : list (bool * Z) :=
  match ops with [] => [] | Put b p :: ops => (b, p) :: puts ops | _ :: ops => puts ops end.
Fixpoint gets (ops : list link_op) : list Z :=
  match ops with [] => [] | Get p :: ops => p :: gets ops | _ :: ops => gets ops end.
Fixpoint puts_ok (ops : list link_op) : Prop :=
  match ops with
  | [] => True
  | Put _ p :: ops => byte p /\ puts_ok ops
  | Get p :: ops => byte p /\ puts_ok ops
  | Drain n :: ops | Fill n :: ops => 0 <= n /\ puts_ok ops
  end.
(** The caller keeps to the rules, counting bytes only ([e] wait in the encoder, [f] in the
    file, [d] in the decoder): it puts a bit when there is room, gets one when there is one,
    and never drains a full buffer at once. *)
Fixpoint in_turn (e f d : Z) (ops : list link_op) : Prop :=
  match ops with
  | [] => True
  | Put _ _ :: ops => e < 8 /\ in_turn (e + 1) f d ops
  | Drain n :: ops => Z.min e n < 8 /\ in_turn (e - Z.min e n) (f + Z.min e n) d ops
  | Fill n :: ops => let k := Z.min (8 - d) (Z.min n f) in in_turn e (f - k) (d + k) ops
  | Get _ :: ops => 0 < d /\ in_turn e f (d - 1) ops
  end.
(** the answer to a question [asked] about bit [b] put with probability [p]: the bit, if the
    probabilities agree; the opposite bit, if they differ in the lowest binary digit only; and
    otherwise a panic *)
Definition reply (b : bool) (p asked : Z) : option bool :=
  if asked =? p then Some b
  else if asked / 2 =? p / 2 then Some (negb b)
  else None.
(** the questions answered in the order of the puts *)
Fixpoint replies (put : list (bool * Z)) (asked : list Z) : option (list bool) :=
  match asked, put with
  | [], _ => Some []
  | a :: asked, (b, p) :: put => let? x := reply b p a in let? xs := replies put asked in Some (x :: xs)
  | _ :: _, [] => None
  end.
