(** Specification vocabulary for the ANS properties C01-C03. *)
From Verif Require Import Prelude ModelAns.

(** A probability interval [start, start+freq) of a scale of 2^15, with both
    numbers representable as i16 (the type ProbRange uses). *)
Definition legal (s f : Z) : Prop := 0 <= s /\ 0 < f < 2 ^ 15 /\ s + f <= 2 ^ 15.

(** The lookup [qy] answers every offset inside the interval [sf] with symbol
    [a] and that very interval. *)
Definition codes {A} (qy : query A) (a : A) (sf : Z * Z) : Prop :=
  legal (fst sf) (snd sf) /\
  forall off, fst sf <= off < fst sf + snd sf -> qy off = (a, fst sf, snd sf).

(** What a user of the decoder sees: the decoded symbols, and either the number
    of bytes it still waits for or the bytes it has not consumed. *)
Definition observe {A} (r : dec_res A) : option (list A * (nat + list Z)) :=
  match r with
  | DPanic => None
  | DNeed got d => Some (got, inl (Z.to_nat (num_push_bytes_avail d)))
  | DOk got _ rest => Some (got, inr (concat rest))
  end.

(** start and freq of each symbol as two little-endian 16 bit words *)
Definition sf_bytes (sfs : list (Z * Z)) : list Z :=
  concat (map (fun p => le 2 (fst p) ++ le 2 (snd p)) sfs).
