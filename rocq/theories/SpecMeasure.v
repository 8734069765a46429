(** What the measuring wrappers should report. *)
From Verif Require Import Prelude ModelAns ModelCdf SpecCdf ModelMeasure.

Definition sum (l : list Z) : Z := fold_right Z.add 0 l.

(** *** Tallying.  A history of an encoder that only counts. *)
Inductive tally_op := TNibble (c : list Z) (nib : Z) | TSnapshot | TReset.
(** What is counted: the intervals kept before the snapshot, those since. *)
Fixpoint counted (ops : list tally_op) (kept since : list (Z * Z)) : list (Z * Z) * list (Z * Z) :=
  match ops with
  | [] => (kept, since)
  | TNibble c nib :: ops => counted ops kept (since ++ [ref_interval c nib])
  | TSnapshot :: ops => counted ops (kept ++ since) []
  | TReset :: ops => counted ops kept []
  end.
(** the price of a list of intervals: 15 bits less the logarithm of the frequency, each *)
Definition price (unit : Z) (lg : Z -> Z) (l : list (Z * Z)) : Z := sum (map (fun sf => 15 * unit - lg (snd sf)) l).
Definition tally_step (unit : Z) (lg : Z -> Z) (t : tally) (o : tally_op) : tally :=
  match o with
  | TNibble c nib => fst (tally_nibble unit lg t c nib)
  | TSnapshot => take_snapshot t
  | TReset => reset_cost_to_snapshot t
  end.
Definition tally_op_ok (o : tally_op) : Prop := match o with TNibble c nib => codable c /\ nibble nib | _ => True end.
(** [lg] never exceeds, or never falls below, the logarithm (in units of [1 / unit] bits) *)
Definition rounds_down (unit : Z) (lg : Z -> Z) : Prop := forall f, 0 < f < 2 ^ 15 -> 0 <= lg f /\ 2 ^ lg f <= f ^ unit.
Definition rounds_up (unit : Z) (lg : Z -> Z) : Prop := forall f, 0 < f < 2 ^ 15 -> 0 <= lg f /\ f ^ unit <= 2 ^ lg f.

(** *** Billing.  Calls on a coder, with and without designations; what comes without one is
    billed as Unknown, designation 0. *)
Section calls.
Context {K I O R : Type}.
Variable k_nibble : K -> Z -> list Z -> option (K * Z * (Z * Z)).
Variable k_bit : K -> bool -> Z -> option (K * bool).
Variable k_has_data : K -> bool.
Variable k_drain : K -> I -> O -> option (K * I * O * R).
Variable k_close : K -> option (K * R).
Inductive coder_call := CNibble (nib : Z) (c : list Z) (d : Z) | CBit (bit : bool) (p d : Z) | CNibblePlain (nib : Z) (c : list Z) | CBitPlain (bit : bool) (p : Z) | CHasData | CDrain (i : I) (o : O) | CClose | CMov.
Inductive answer := ANibble (nib : Z) (r : Z * Z) | ABit (bit : bool) | AHasData (b : bool) | ADrain (i : I) (o : O) (r : R) | AClose (r : R) | AMov.
(** the coder by itself *)
Definition plain_call (k : K) (x : coder_call) : option (K * answer) :=
  match x with
  | CNibble nib c _ | CNibblePlain nib c => let? '(k, nib, r) := k_nibble k nib c in Some (k, ANibble nib r)
  | CBit bit p _ | CBitPlain bit p => let? '(k, bit) := k_bit k bit p in Some (k, ABit bit)
  | CHasData => Some (k, AHasData (k_has_data k))
  | CDrain i o => let? '(k, i, o, r) := k_drain k i o in Some (k, ADrain i o r)
  | CClose => let? '(k, r) := k_close k in Some (k, AClose r)
  | CMov => Some (k, AMov)
  end.
Fixpoint plain_calls (k : K) (l : list coder_call) : option (K * list answer) :=
  match l with
  | [] => Some (k, [])
  | x :: l => let? '(k, a) := plain_call k x in let? '(k, r) := plain_calls k l in Some (k, a :: r)
  end.
(** the same calls on the wrapper *)
Variable unit : Z.
Variable lg : Z -> Z.
Variable bits_of_bit : Z -> bool -> Z.
Definition billed_call (b : @billing K) (x : coder_call) : option (@billing K * answer) :=
  match x with
  | CNibble nib c d => let? '(b, nib, r) := billing_nibble unit lg k_nibble b nib c d in Some (b, ANibble nib r)
  | CBit bit p d => let? '(b, bit) := billing_bit unit k_bit bits_of_bit b bit p d in Some (b, ABit bit)
  | CNibblePlain nib c => let? '(b, nib, r) := billing_nibble_unknown unit lg k_nibble b nib c in Some (b, ANibble nib r)
  | CBitPlain bit p => let? '(b, bit) := billing_bit_unknown unit k_bit bits_of_bit b bit p in Some (b, ABit bit)
  | CHasData => Some (b, AHasData (billing_has_data k_has_data b))
  | CDrain i o => let? '(b, i, o, r) := billing_drain k_drain b i o in Some (b, ADrain i o r)
  | CClose => let? '(b, r) := billing_close k_close b in Some (b, AClose r)
  | CMov => Some (fst (billing_mov b), AMov)
  end.
Fixpoint billed_calls (b : @billing K) (l : list coder_call) : option (@billing K * list answer) :=
  match l with
  | [] => Some (b, [])
  | x :: l => let? '(b, a) := billed_call b x in let? '(b, r) := billed_calls b l in Some (b, a :: r)
  end.
(** The bill: for every symbol coded or decoded, its designation, its price and its size. *)
Definition item (x : coder_call) (a : answer) : list (Z * (Z * Z)) :=
  match x, a with
  | CNibble _ c d, ANibble nib _ => [(d, (lg (total c) - lg (share c nib), 4 * unit))]
  | CBit _ p d, ABit bit => [(d, (bits_of_bit p bit, unit))]
  | CNibblePlain _ c, ANibble nib _ => [(0, (lg (total c) - lg (share c nib), 4 * unit))]
  | CBitPlain _ p, ABit bit => [(0, (bits_of_bit p bit, unit))]
  | _, _ => []
  end.
Definition bill (l : list coder_call) (r : list answer) : list (Z * (Z * Z)) := concat (map (fun xa => item (fst xa) (snd xa)) (combine l r)).
End calls.
Definition for_designation (d : Z) (l : list (Z * (Z * Z))) : list (Z * (Z * Z)) := filter (fun e => fst e =? d) l.
Definition bits (l : list (Z * (Z * Z))) : Z := sum (map (fun e => fst (snd e)) l).
Definition vbits (l : list (Z * (Z * Z))) : Z := sum (map (fun e => snd (snd e)) l).

(** *** Speeds.  The same symbols, all shown at one speed. *)
Fixpoint at_speed (h : hist) (inc lim : Z) : hist :=
  match h with Fresh => Fresh | Seen h sym _ _ => Seen (at_speed h inc lim) sym inc lim end.
(** what coding the symbols of a history costs, each before it is learned *)
Fixpoint history_cost (lg : Z -> Z) (h : hist) : Z :=
  match h with Fresh => 0 | Seen h sym _ _ => history_cost lg h + (lg (total (run_ref h)) - lg (share (run_ref h) sym)) end.
Fixpoint run_variant (lg : Z -> Z) (h : hist) : variant :=
  match h with Fresh => variant_new | Seen h sym inc lim => variant_blend lg (run_variant lg h) sym inc lim end.
