(** Specification vocabulary for C42 and C43. *)
From Verif Require Import Prelude ModelBits.

(** ** A FIFO byte queue of capacity eight *)
Inductive qop := QPush (data : list Z) | QPop (cap : Z).
(** what the caller sees: how many bytes were accepted / which bytes came out *)
Inductive qres := QTook (n : Z) | QGave (l : list Z).
Definition fifo1 (l : list Z) (o : qop) : qres * list Z :=
  match o with
  | QPush data =>
      let n := (8 - length l)%nat in
      (QTook (Z.of_nat (length (firstn n data))), l ++ firstn n data)
  | QPop cap => (QGave (firstn (Z.to_nat cap) l), skipn (Z.to_nat cap) l)
  end.
Fixpoint fifo (l : list Z) (ops : list qop) : list qres :=
  match ops with
  | [] => []
  | o :: ops => let '(r, l) := fifo1 l o in r :: fifo l ops
  end.
(** no pop removes eight bytes at once *)
Fixpoint no_full_pop (l : list Z) (ops : list qop) : Prop :=
  match ops with
  | [] => True
  | o :: ops => match o with QPop cap => length (firstn (Z.to_nat cap) l) <> 8%nat | QPush _ => True end
      /\ no_full_pop (snd (fifo1 l o)) ops
  end.
Definition op_ok (o : qop) : Prop :=
  match o with QPush data => bytes data | QPop cap => 0 <= cap end.

(** the register queue running the same operations *)
Definition rq1 (debug : bool) (q : regq) (o : qop) : option (qres * regq) :=
  match o with
  | QPush data => let '(n, q) := rq_push q data in Some (QTook n, q)
  | QPop cap => let? '(l, q) := rq_pop debug q cap in Some (QGave l, q)
  end.
Fixpoint rq_run (debug : bool) (q : regq) (ops : list qop) : option (list qres) :=
  match ops with
  | [] => Some []
  | o :: ops =>
      let? '(r, q) := rq1 debug q o in
      let? rs := rq_run debug q ops in Some (r :: rs)
  end.

(** ** Bit coders *)
(** the decoder, asked with these probabilities in this order, answers these
    bits, and ends in state [d'] *)
Fixpoint answers {D} (get_bit : D -> Z -> bool * D) (d : D) (log : list (bool * Z)) (d' : D) : Prop :=
  match log with
  | [] => d = d'
  | (b, p) :: log => exists d1, get_bit d p = (b, d1) /\ answers get_bit d1 log d'
  end.
(** the encoder state after these bits were put *)
Definition put_log {E} (put_bit : E -> bool -> Z -> E) (e : E) (log : list (bool * Z)) : E :=
  fold_left (fun e bp => put_bit e (fst bp) (snd bp)) log e.
(** a bit coder pair round trips when a decoder started on the finished
    encoder's output answers every bit that was put, whatever the (byte-sized)
    probabilities *)
Definition bit_coder_round_trips {E D} (put_bit : E -> bool -> Z -> E) (get_bit : D -> Z -> bool * D)
  (e0 : E) (start : E -> D) : Prop :=
  forall log, Forall (fun bp => byte (snd bp)) log ->
    exists d', answers get_bit (start (put_log put_bit e0 log)) log d'.
(** coding a list of (nibble, distribution) pairs *)
Fixpoint put_nibbles {E} (put_bit : E -> bool -> Z -> E) (e : E) (items : list (Z * list Z)) : option E :=
  match items with
  | [] => Some e
  | (n, c) :: items => let? '(_, e) := put_nibble put_bit e n c in put_nibbles put_bit e items
  end.
Fixpoint get_nibbles {D} (get_bit : D -> Z -> bool * D) (d : D) (cs : list (list Z)) : option (list Z * D) :=
  match cs with
  | [] => Some ([], d)
  | c :: cs =>
      let? '(n, _, d) := get_nibble get_bit d c in
      let? '(ns, d) := get_nibbles get_bit d cs in Some (n :: ns, d)
  end.
