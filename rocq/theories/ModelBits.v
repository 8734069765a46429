(** Model of src/arithmetic_coder.rs: the eight byte register queue and the
    default nibble and byte coders built from single bit decisions; and of the
    single bit coding of src/ans.rs. *)
From Verif Require Import Prelude ModelAns ModelCdf.

(** ** RegisterQueue, src/arithmetic_coder.rs:31-44 *)
Record regq := RQ { rq_data : Z; rq_count : Z }.
Definition rq_new : regq := RQ 0 0.
(** num_push_bytes_avail, num_pop_bytes_avail, src/arithmetic_coder.rs:47-53 *)
Definition rq_space (q : regq) : Z := 8 - rq_count q.
Definition rq_avail (q : regq) : Z := rq_count q.
(** the loop of push_data, src/arithmetic_coder.rs:61-63; [sh] is the shift of
    the next byte.  A shift of a u64 drops the bits from 64 on. *)
Fixpoint rq_or (reg sh : Z) (l : list Z) : Z :=
  match l with
  | [] => reg
  | b :: l => rq_or (Z.lor reg (Z.shiftl b sh mod 2 ^ 64)) (sh + 8) l
  end.
(** push_data, src/arithmetic_coder.rs:55-66: the number of accepted bytes *)
Definition rq_push (q : regq) (data : list Z) : Z * regq :=
  let n := Z.min (rq_space q) (Z.of_nat (length data)) in
  (n, RQ (rq_or (rq_data q) (8 * rq_count q) (firstn (Z.to_nat n) data)) (rq_count q + n)).
(** the array [local], src/arithmetic_coder.rs:71-74 *)
Definition rq_local (q : regq) : list Z :=
  map (fun i => Z.land (Z.shiftr (rq_data q) (8 * i)) 255) [0; 1; 2; 3; 4; 5; 6; 7].
(** pop_data, src/arithmetic_coder.rs:68-81, into a slice of [cap] bytes.  The
    shift count of [data >>= n << 3] is checked in debug builds (a count of 64
    panics) and taken modulo 64 in release builds. *)
Definition rq_pop (debug : bool) (q : regq) (cap : Z) : option (list Z * regq) :=
  let n := Z.min (rq_avail q) cap in
  if debug && (64 <=? 8 * n) then None
  else Some (firstn (Z.to_nat n) (rq_local q),
             RQ (Z.shiftr (rq_data q) ((8 * n) mod 64)) (rq_count q - n)).

(** ** EntropyEncoder::put_nibble, src/arithmetic_coder.rs:92-121 *)
Definition u8 (x : Z) : Z := x mod 256.
(** a division that panics on zero *)
Definition div_checked (a b : Z) : option Z := if b =? 0 then None else Some (Z.quot a b).
(** log_max() is None for the distributions modelled
    (src/probability/frequentist_cdf.rs:39, opt_frequentist_cdf.rs:86), so the first match always
    takes its first arm *)
Definition put_nibble {E} (put_bit : E -> bool -> Z -> E) (e : E) (nib : Z) (c : list Z)
  : option ((Z * Z) * E) :=
  let high := cdf_at c 7 in
  let mx := cdf_max c in
  let? nhigh := div_checked (Z.shiftl high 8) mx in
  let high_bit := Z.land nib 8 in
  let e := put_bit e (negb (high_bit =? 0)) (u8 nhigh) in
  let mid_max := if negb (high_bit =? 0) then mx else high in
  let mid_min := if negb (high_bit =? 0) then high else 0 in
  let mid := cdf_at c (Z.land nib 8 + 3) in
  let mid_bit := Z.land nib 4 in
  let? nmid := div_checked (Z.shiftl (mid - mid_min) 8) (mid_max - mid_min) in
  let e := put_bit e (negb (mid_bit =? 0)) (u8 nmid) in
  let lm_min := if negb (mid_bit =? 0) then mid else mid_min in
  let lm_max := if negb (mid_bit =? 0) then mid_max else mid in
  let lm := cdf_at c (Z.land nib 12 + 1) in
  let? nlm := div_checked (Z.shiftl (lm - lm_min) 8) (lm_max - lm_min) in
  let lm_bit := Z.land nib 2 in
  let e := put_bit e (negb (lm_bit =? 0)) (u8 nlm) in
  let lo_min := if negb (lm_bit =? 0) then lm else lm_min in
  let lo_max := if negb (lm_bit =? 0) then lm_max else lm in
  let lo := cdf_at c (Z.land nib 14) in
  let? nlo := div_checked (Z.shiftl (lo - lo_min) 8) (lo_max - lo_min) in
  let e := put_bit e (negb (Z.land nib 1 =? 0)) (u8 nlo) in
  Some (ref_interval c nib, e).
Definition b2z (b : bool) : Z := if b then 1 else 0.
(** EntropyDecoder::get_nibble, src/arithmetic_coder.rs:139-167 *)
Definition get_nibble {D} (get_bit : D -> Z -> bool * D) (d : D) (c : list Z)
  : option (Z * (Z * Z) * D) :=
  let high := cdf_at c 7 in
  let mx := cdf_max c in
  let? nhigh := div_checked (Z.shiftl high 8) mx in
  let '(b, d) := get_bit d (u8 nhigh) in
  let high_bit := Z.shiftl (b2z b) 3 in
  let nib := high_bit in
  let mid_max := if negb (high_bit =? 0) then mx else high in
  let mid_min := if negb (high_bit =? 0) then high else 0 in
  let mid := cdf_at c (Z.land nib 8 + 3) in
  let? nmid := div_checked (Z.shiftl (mid - mid_min) 8) (mid_max - mid_min) in
  let '(b, d) := get_bit d (u8 nmid) in
  let mid_bit := Z.shiftl (b2z b) 2 in
  let nib := Z.lor nib mid_bit in
  let lm_min := if negb (mid_bit =? 0) then mid else mid_min in
  let lm_max := if negb (mid_bit =? 0) then mid_max else mid in
  let lm := cdf_at c (Z.land nib 12 + 1) in
  let? nlm := div_checked (Z.shiftl (lm - lm_min) 8) (lm_max - lm_min) in
  let '(b, d) := get_bit d (u8 nlm) in
  let lm_bit := Z.shiftl (b2z b) 1 in
  let nib := Z.lor nib lm_bit in
  let lo_min := if negb (lm_bit =? 0) then lm else lm_min in
  let lo_max := if negb (lm_bit =? 0) then lm_max else lm in
  let lo := cdf_at c (Z.land nib 14) in
  let? nlo := div_checked (Z.shiftl (lo - lo_min) 8) (lo_max - lo_min) in
  let '(b, d) := get_bit d (u8 nlo) in
  let nib := Z.lor nib (b2z b) in
  Some (nib, ref_interval c nib, d).
(** put_8bit, src/arithmetic_coder.rs:122-128: the loop over the eight
    probabilities, indexing [bits] at the same position *)
Fixpoint put_bits {E} (put_bit : E -> bool -> Z -> E) (e : E) (bits : list bool) (probs : list Z) : E :=
  match bits, probs with
  | b :: bits, p :: probs => put_bits put_bit (put_bit e b p) bits probs
  | _, _ => e
  end.
(** get_8bit, src/arithmetic_coder.rs:168-174 *)
Fixpoint get_bits {D} (get_bit : D -> Z -> bool * D) (d : D) (probs : list Z) : list bool * D :=
  match probs with
  | [] => ([], d)
  | p :: probs =>
      let '(b, d) := get_bit d p in
      let '(bs, d) := get_bits get_bit d probs in (b :: bs, d)
  end.

(** ** Single bits in the ANS coder *)
(** ANSEncoder::put_bit, src/ans.rs:390-396: the interval it records *)
Definition ans_put_bit (b : bool) (prob_of_false : Z) : Z * Z :=
  let p := if prob_of_false =? 0 then 1 else prob_of_false in
  (if b then Z.shiftl p 7 else 0, Z.shiftl (if b then 256 - p else p) 7).
(** ANSDecoder::get_bit, src/ans.rs:462-473: the bit chosen and the interval
    passed to helper_advance_sym, as a lookup for [ModelAns.get_sym] *)
Definition ans_get_bit (prob_of_false : Z) : query bool := fun off =>
  let p := if prob_of_false =? 0 then 1 else prob_of_false in
  let r := Z.shiftl p 7 in
  let inv := Z.shiftl (256 - p) 7 in
  let bit := r <=? off in
  (bit, if bit then r else 0, if bit then inv else r).
