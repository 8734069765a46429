(** The wrappers that measure what is coded: the optimiser's tallying encoder
    (src/ir_optimize/statistics_tracking_codec.rs), the billing coder (src/billing.rs, feature
    billing) and the distribution that tries every speed
    (src/probability/variant_speed_cdf.rs, feature findspeed).
    Simplified: sums of floating point numbers are exact sums in a fixed unit; logarithms are
    a parameter ([lg f] stands for log2 of [f] in that unit). *)
From Verif Require Import Prelude ModelAns ModelCdf.

Section measure.
Variable unit : Z.           (* one bit *)
Variable lg : Z -> Z.        (* FastLog2u16 of the brotli crate; f64::log2 *)

(** ** TallyingArithmeticEncoder, src/ir_optimize/statistics_tracking_codec.rs:20-24 *)
Record tally := Tally { t_snap : Z; t_cost : Z }.
(** default(), :20 *)
Definition tally_new : tally := Tally 0 0.
(** :27-29 *)
Definition take_snapshot (t : tally) : tally := Tally (t_cost t) (t_cost t).
(** :30-32 *)
Definition snapshot_delta (t : tally) : Z := t_cost t - t_snap t.
(** :33-35 *)
Definition reset_cost_to_snapshot (t : tally) : tally := Tally (t_snap t) (t_snap t).
(** :36-38 *)
Definition total_cost (t : tally) : Z := t_cost t.
(** tally(), :39-41: LOG2_SCALE - FastLog2u16(freq as u16) *)
Definition tally_freq (t : tally) (freq : Z) : tally := Tally (t_snap t) (t_cost t + (15 * unit - lg (u16 freq))).
(** get_or_put_nibble_without_billing, :87-93 *)
Definition tally_nibble (t : tally) (c : list Z) (nib : Z) : tally * (Z * Z) :=
  let ret := ref_interval c nib in (tally_freq t (snd ret), ret).
(** get_or_put_bit_without_billing, :67-84; i16 shifts drop high bits *)
Definition bit_freq (bit : bool) (prob_of_false : Z) : Z :=
  let prob := if bit then prob_of_false else 255 - prob_of_false in
  i16 (Z.shiftl prob 7) - 1.
Definition tally_bit (t : tally) (bit : bool) (prob_of_false : Z) : tally := tally_freq t (bit_freq bit prob_of_false).
(** billing_snapshot_delta, :133-149: the command coder and, unless the literals are another
    thread's, the literal coder *)
Definition codec_delta (cmd : tally) (lit : option tally) : Z :=
  match lit with None => snapshot_delta cmd | Some l => snapshot_delta cmd + snapshot_delta l end.
(** total_billing_cost, :152-168 *)
Definition codec_total (cmd : tally) (lit : option tally) : Z :=
  match lit with None => total_cost cmd | Some l => total_cost cmd + total_cost l end.

(** ** pdf(), src/probability/interface.rs:63-70 *)
Definition pdf (c : list Z) (sym : Z) : Z := if sym =? 0 then cdf_at c sym else cdf_at c sym - cdf_at c (sym - 1).

(** ** BillingArithmeticCoder over any coder, src/billing.rs:41-46.  [K] is the coder's state;
    a call may panic.  Designations are numbers, 0 is Unknown. *)
Section billing.
Context {K I O R : Type}.
Variable k_nibble : K -> Z -> list Z -> option (K * Z * (Z * Z)).
Variable k_bit : K -> bool -> Z -> option (K * bool).
Variable k_has_data : K -> bool.
Variable k_drain : K -> I -> O -> option (K * I * O * R).
Variable k_close : K -> option (K * R).
(** [bits_of_bit p b]: - log2 of (p + 0.5) / 256, or of 1 - that *)
Variable bits_of_bit : Z -> bool -> Z.

Record billing := Billing { b_coder : K; b_counter : list (Z * (Z * Z)); b_movd : bool }.
(** new, :51-58 *)
Definition billing_new (k : K) : billing := Billing k [] false.
(** entry(..).or_insert((0.0, 0.0)) and the two additions, :144-146, :160-162 *)
Fixpoint charge (m : list (Z * (Z * Z))) (d bits vbits : Z) : list (Z * (Z * Z)) :=
  match m with
  | [] => [(d, (0 + bits, 0 + vbits))]
  | (d', (x, y)) :: m => if d' =? d then (d', (x + bits, y + vbits)) :: m else (d', (x, y)) :: charge m d bits vbits
  end.
(** get_or_put_nibble, :154-164 *)
Definition billing_nibble (b : billing) (nib : Z) (c : list Z) (d : Z) : option (billing * Z * (Z * Z)) :=
  let? '(k, nib, ret) := k_nibble (b_coder b) nib c in
  Some (Billing k (charge (b_counter b) d (lg (cdf_max c) - lg (pdf c nib)) (4 * unit)) (b_movd b), nib, ret).
(** get_or_put_nibble_without_billing, :149-153 *)
Definition billing_nibble_unknown (b : billing) (nib : Z) (c : list Z) := billing_nibble b nib c 0.
(** get_or_put_bit, :136-148 *)
Definition billing_bit (b : billing) (bit : bool) (p d : Z) : option (billing * bool) :=
  let? '(k, bit) := k_bit (b_coder b) bit p in
  Some (Billing k (charge (b_counter b) d (bits_of_bit p bit) (1 * unit)) (b_movd b), bit).
(** get_or_put_bit_without_billing, :131-135 *)
Definition billing_bit_unknown (b : billing) (bit : bool) (p : Z) := billing_bit b bit p 0.
(** :123-125 *)
Definition billing_has_data (b : billing) : bool := k_has_data (b_coder b).
(** :126-130 *)
Definition billing_drain (b : billing) (i : I) (o : O) : option (billing * I * O * R) :=
  let? '(k, i, o, r) := k_drain (b_coder b) i o in Some (Billing k (b_counter b) (b_movd b), i, o, r).
(** :165-167 *)
Definition billing_close (b : billing) : option (billing * R) :=
  let? '(k, r) := k_close (b_coder b) in Some (Billing k (b_counter b) (b_movd b), r).
(** mov, :114-122: the new one, and what stays behind.  The wrapped coder's own mov hands
    its state over. *)
Definition billing_mov (b : billing) : billing * billing := (Billing (b_coder b) (b_counter b) false, Billing (b_coder b) [] true).
(** get_total, :67-75 *)
Definition get_total (b : billing) : Z * Z := fold_left (fun a e => (fst a + fst (snd e), snd a + snd (snd e))) (b_counter b) (0, 0).
End billing.

(** ** VariantSpeedCDF, src/probability/variant_speed_cdf.rs:5-9: the distribution in use and one
    for every speed of the palette, with what each would have cost *)
Record variant := Variant { v_cdf : list (list Z); v_cost : list Z }.
(** :11-18; SPEED_PALETTE_SIZE = 15 *)
Definition variant_new : variant := Variant (repeat cdf_default 16) (repeat 0 16).
(** blend, :20-28: zip of the two arrays with the index *)
Fixpoint variant_loop (index : nat) (cdfs : list (list Z)) (costs : list Z) (sym inc lim : Z) : list (list Z) * list Z :=
  match cdfs, costs with
  | c :: cdfs, k :: costs =>
      let k := k + (lg (u16 (cdf_max c)) - lg (u16 (pdf c sym))) in
      let '(i, l) := match index with O => (inc, lim) | S j => nth j ENCODER_DEFAULT_PALETTE (0, 0) end in
      let '(r, s) := variant_loop (S index) cdfs costs sym inc lim in
      (blend c sym i l :: r, k :: s)
  | cdfs, costs => (cdfs, costs)
  end.
Definition variant_blend (v : variant) (sym inc lim : Z) : variant :=
  let '(r, s) := variant_loop 0 (v_cdf v) (v_cost v) sym inc lim in Variant r s.
(** the queries of BaseCDF, :36-93, all answer for element 0 *)
Definition variant_base (v : variant) : list Z := nth 0 (v_cdf v) [].
(** average, :29-33 *)
Definition variant_average (v o : variant) (mix : Z) : variant :=
  Variant (match v_cdf v with [] => [] | _ :: r => average (variant_base v) (variant_base o) mix :: r end) (v_cost v).
(** variant_cost, base_variant_cost, :97-102 *)
Definition variant_cost (v : variant) (i : nat) : Z := nth (i + 1) (v_cost v) 0.
Definition base_variant_cost (v : variant) : Z := nth 0 (v_cost v) 0.
End measure.
