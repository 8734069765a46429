(** Model of the literal coder: src/codec/literal.rs, src/codec/weights.rs and
    LiteralBookKeeping of src/codec/interface.rs. *)
From Verif Require Import Prelude ModelAns ModelCdf ModelMux ModelCmd ModelPriors ModelContextLut ModelCodec.

(** ** Weights, src/codec/weights.rs:4-8 *)
Record weights := WT { w0 : Z; w1 : Z; mixing_param : Z; norm_weight : Z }.
(** new, src/codec/weights.rs:15-21 (BLEND_FIXED_POINT_PRECISION = 15) *)
Definition weights_new : weights := WT 1 1 1 (2 ^ 14).
(** i64::leading_zeros; negative numbers have none *)
Definition leading_zeros64 (x : Z) : Z := if x <? 0 then 0 else if x =? 0 then 64 else 63 - Z.log2 x.
Definition lz32 (x : Z) : Z := if x <? 0 then 0 else leading_zeros32 x.
(** compute_normalized_weight, src/codec/weights.rs:53-63 *)
Definition compute_normalized_weight (a b : Z) : Z :=
  let total := a + b in
  let shift := Z.max (56 - leading_zeros64 total) 0 in
  let total8 := Z.shiftr total shift in
  i16 (Z.shiftl (fast_divide_16bit_by_8bit (u16 (Z.shiftl (u16 (Z.shiftr a shift)) 8)) (lookup_divisor8 (total8 mod 256))) 7).
(** fix_weights and normalize_weights, src/codec/weights.rs:65-82 *)
Definition normalize_weights (a b : Z) : Z * Z :=
  if Z.land (Z.lor a b) 2130706432 =? 0 then (a, b) else
  let ilog := 32 - Z.min (lz32 a) (lz32 b) in
  if 24 <=? ilog then (Z.shiftr a (ilog - 24), Z.shiftr b (ilog - 24)) else (a, b).
Definition i64 (x : Z) : Z := (x + 2 ^ 63) mod 2 ^ 64 - 2 ^ 63.
(** compute_new_weight (integer version), src/codec/weights.rs:113-140; LOG2_SCALE = 15.
    A shift by 64 (product 0 has 64 leading zeros is shift 0; negative product: shift by
    64) would panic: theorem C45 excludes it. *)
Definition compute_new_weight (p : Z) (weighted : Z) (w : Z) : Z :=
  let full := 2 ^ 15 in
  let p0 := i64 (full - weighted) in
  let error := i64 (full - weighted) in
  let efficacy := i64 (full * p) - i64 (weighted * full) in
  let log_geo := 64 - leading_zeros64 (i64 (weighted * p0)) in
  let adj := Z.shiftr (i64 (error * efficacy)) log_geo in
  Z.max 1 (i32 (i64 (w + adj))).
(** update, src/codec/weights.rs:23-39 *)
Definition weights_update (w : weights) (p0 p1 weighted : Z) : weights :=
  let '(a, b) := normalize_weights (w0 w) (w1 w) in
  let a' := compute_new_weight p0 weighted a in
  let b' := compute_new_weight p1 weighted b in
  WT a' b' (mixing_param w) (compute_normalized_weight a' b').
(** should_mix, src/codec/weights.rs:44-46 *)
Definition should_mix (w : weights) : bool := 1 <? mixing_param w.

(** ** LiteralBookKeeping, src/codec/interface.rs:125-142, with the literal priors of
    MainThreadContext (542-551).  The two 256 byte lookup tables are functions of the
    prediction mode; [combine_literal_predictions] and [stride] are written but never
    read and are left out. *)
Record lbk := LB {
  lpriors : prior_map; last_8 : Z; lit_cmap : list Z; btype_last : Z; lit_mode : Z;
  lit_adapt : list (Z * Z); mixing_mask : list Z; wt_low : weights; wt_high : weights }.
Definition set_lpriors l x := LB x (last_8 l) (lit_cmap l) (btype_last l) (lit_mode l) (lit_adapt l) (mixing_mask l) (wt_low l) (wt_high l).
Definition set_last_8 l x := LB (lpriors l) x (lit_cmap l) (btype_last l) (lit_mode l) (lit_adapt l) (mixing_mask l) (wt_low l) (wt_high l).
Definition set_btype_last l x := LB (lpriors l) (last_8 l) (lit_cmap l) x (lit_mode l) (lit_adapt l) (mixing_mask l) (wt_low l) (wt_high l).
Definition set_weights l (high : bool) w :=
  LB (lpriors l) (last_8 l) (lit_cmap l) (btype_last l) (lit_mode l) (lit_adapt l) (mixing_mask l)
     (if high then wt_low l else w) (if high then w else wt_high l).
(** LiteralBookKeeping::new, src/codec/interface.rs:247-266; the default prediction mode
    is 0 (LSB6), the context map 64 * 256 zero bytes *)
Definition lbk_new : lbk := LB priors_new 0 (repeat 0 (Z.to_nat 16384)) 0 0 [MUD; MUD; MUD; MUD] (repeat 0 (Z.to_nat 8192)) weights_new weights_new.
(** get_lut0 and get_lut1, src/codec/interface.rs:199-238; LITERAL_PREDICTION_MODE_*
    (brotli crate) are LSB6 = 0, MSB6 = 1, UTF8 = 2, SIGN = 3 *)
Definition lut0 (mode prev : Z) : Z :=
  if mode =? 0 then Z.land prev 63 else if mode =? 1 then Z.shiftr prev 2
  else if mode =? 2 then znth UTF8_CONTEXT_LOOKUP prev
  else Z.shiftl (znth SIGNED_3_BIT_CONTEXT_LOOKUP prev) 3.
Definition lut1 (mode prev : Z) : Z :=
  if mode =? 0 then 0 else if mode =? 1 then 0
  else if mode =? 2 then znth UTF8_CONTEXT_LOOKUP (prev + 256)
  else znth SIGNED_3_BIT_CONTEXT_LOOKUP prev.
(** push_literal_byte, src/codec/interface.rs:280-284 *)
Definition push_literal_byte (l : lbk) (x : Z) : lbk :=
  set_last_8 l (Z.lor (Z.shiftr (last_8 l) 8) (Z.shiftl x 56)).
(** get_prev_word_context, src/codec/literal.rs:86-121 (the index into the map is a
    Rust slice index; -1 stands for its panic and makes the prior lookup fail) *)
Definition prev_byte (l : lbk) : Z := Z.land (Z.shiftr (last_8 l) 56) 255.
Definition actual_context (l : lbk) : Z :=
  let pp := Z.land (Z.shiftr (last_8 l) 48) 255 in
  match zget (lit_cmap l) (Z.lor (lut0 (lit_mode l) (prev_byte l)) (lut1 (lit_mode l) pp) + Z.shiftl (btype_last l) 6) with
  | Some x => x | None => -1 end.

(** ** LiteralSubstate, src/codec/literal.rs:29-40.  SafeLiteralNibbleIndex is
    LiteralNibbleIndex without return checks; LiteralNibbleIndexWithECDF belongs to the
    external-literal-probability feature and is not modelled. *)
Inductive lit_sub :=
| LBegin | LCountSmall (high_entropy_flag : bool) | LCountFirst | LCountGreater14 | LCountMant (len_remaining decoded : Z)
| LNibble (byte_index : Z)                 (* LiteralNibbleIndex(2 * byte_index) *)
| LLower (byte_index high_nibble : Z)      (* LiteralNibbleLowerHalf(2 * byte_index + 1); the high nibble is in lc.data *)
| LFully.
(** LiteralState: [l_data] is the decoded prefix of lc.data, [l_len] its full length *)
Record lit_st := LS { l_data : list Z; l_len : Z; l_high_entropy : bool; l_sub : lit_sub }.
Definition lit_begin : lit_st := LS [] 0 false LBegin.
Definition lset (s : lit_st) (u : lit_sub) : lit_st := LS (l_data s) (l_len s) (l_high_entropy s) u.
Definition lsized (s : lit_st) (n : Z) : lit_st := LS [] n (l_high_entropy s) (LNibble 0).

(** code_nibble, src/codec/literal.rs:152-262 and the blend of its callers
    (code_nibble_array, 306-310 and 353-357).  [mix] is CTraits::MIXING_PRIORS. *)
Definition mm_opts_of (l : lbk) (high : bool) (cur_prior : Z) : option Z :=
  let ctx := actual_context l in
  zget (mixing_mask l)
    (if high then Z.lor ctx (Z.shiftl (Z.shiftr (prev_byte l) 4) 8)
     else Z.lor (Z.lor ctx (Z.shiftl (Z.land cur_prior 15) 8)) 4096).
Definition nibble_index (l : lbk) (high : bool) (cur_prior mm_opts : Z) : list Z :=
  let ctx := actual_context l in
  let fast := if mm_opts =? 3 then 0 else 255 in
  let mm := if (mm_opts =? 0) || (mm_opts =? 3) then 0 else 255 in
  let opt1 := if mm_opts =? 1 then 15 else 0 in
  let stride_offset := if mm_opts <? 4 then 0 else Z.shiftl (Z.min 7 (Z.lxor mm_opts 4)) 3 in
  let sel := Z.shiftr (last_8 l) (56 - stride_offset) mod 256 in
  let b := if high then Z.land (Z.land sel mm) (255 - opt1) else Z.lor (Z.land mm sel) (Z.land (255 - mm) ctx) in
  let c := if high then ctx else Z.lor (Z.land cur_prior fast) (Z.shiftl (Z.land ctx opt1) 4) in
  [Z.lxor (Z.shiftr mm 7) (Z.shiftr opt1 2); b; c].
Definition code_nibble (mix : bool) (l : lbk) (high : bool) (cur_prior : Z) {S} (k : lbk -> Z -> outcome S) : node S :=
  let tbl := if high then LitHighP else LitLowP in
  match mm_opts_of l high cur_prior with
  | None => Silent Panic
  | Some mm_opts =>
  match prior_index tbl CombinedNibble (nibble_index l high cur_prior mm_opts) with
  | None => Silent Panic
  | Some i =>
    let np := lpriors l tbl i in
    let blend_np l v :=
      if mm_opts =? 2 then l
      else let '(inc, lim) := nth_pair (lit_adapt l) 0 in
           set_lpriors l (pupd (lpriors l) tbl i (blend np v inc lim)) in
    if negb mix then
      Code LIT (if mm_opts =? 2 then cdf_default else np) (fun v => k (blend_np l v) v)
    else
      match (if high then prior_index LitCmP CmFirstNibble [0; actual_context l]
             else prior_index LitCmP CmSecondNibble [0; cur_prior; actual_context l]) with
      | None => Silent Panic
      | Some j =>
        let cm := lpriors l LitCmP j in
        let w := if high then wt_high l else wt_low l in
        let prob := average cm np (norm_weight w mod 2 ^ 16) in
        Code LIT prob (fun v =>
          if negb (should_mix w) then Panic else
          let w' := weights_update w (snd (ref_interval cm v)) (snd (ref_interval np v)) (snd (ref_interval prob v)) in
          let l := set_weights l high w' in
          let '(inc, lim) := nth_pair (lit_adapt l) (if high then 3 else 2) in
          let l := set_lpriors l (pupd (lpriors l) LitCmP j (blend cm v inc lim)) in
          k (blend_np l v) v)
      end
  end
  end.

(** encode_or_decode, src/codec/literal.rs:497-696, and the content loop
    (code_nibble_array, 263-385; encode_or_decode_content_bytes, 395-487) one nibble at
    a time.  Lengths are u32 in the code; [LCountGreater14] never overflows.  Departure:
    a hostile length of 2^32 or more is truncated by `num_bytes as u32` (last_llen, and in
    the worker the length itself) and one of 2^31 or more overflows the u32 nibble index;
    the model goes on counting (SpecHostile.hazard marks these). *)
Definition lit_node (mix : bool) (b : bk) (l : lbk) (s : lit_st) : node (bk * lbk * lit_st) :=
  let ctype := command_block_type b in
  match l_sub s with
  | LBegin => Silent (Next (b, l, lset s (LCountSmall false)))
  | LCountSmall _ =>
      code b LitLenP LitCountSmall [ctype; 0] MED
        (fun b v => if v =? 14 then Next (b, l, lset s LCountFirst)
                    else if v =? 15 then Next (b, l, LS (l_data s) (l_len s) true (LCountSmall true))
                    else Next (set_last_llen b (v + 1), l, lsized s (v + 1)))
  | LCountFirst =>
      code b LitLenP LitSizeBegNib [ctype] MUD
        (fun b v => if v =? 15 then Next (b, l, lset s LCountGreater14)
                    else if v <=? 1 then Next (b, l, lsized s (15 + v))
                    else Next (b, l, lset s (LCountMant (round_up_mod_4 (v - 1)) (Z.shiftl 1 (v - 1)))))
  | LCountGreater14 =>
      code b LitLenP LitSizeLastNib [ctype] MUD
        (fun b v => Next (b, l, lset s (LCountMant (round_up_mod_4 (v + 14)) (Z.shiftl 1 (v + 14)))))
  | LCountMant lr dsf =>
      let nlr := lr - 4 in
      code b LitLenP LitSizeMantissaNib [ctype] MUD
        (fun b v => let d := Z.lor dsf (Z.shiftl v nlr) in
                    if nlr =? 0 then Next (set_last_llen b (d + 15), l, lsized s (d + 15))
                    else Next (b, l, lset s (LCountMant nlr d)))
  | LNibble i =>
      code_nibble mix l true 0 (fun l v => Next (b, l, lset s (LLower i v)))
  | LLower i h =>
      code_nibble mix l false h (fun l v =>
        let x := Z.lor v (Z.shiftl h 4) in
        Next (b, push_literal_byte l x,
              LS (l_data s ++ [x]) (l_len s) (l_high_entropy s) (if i + 1 =? l_len s then LFully else LNibble (i + 1))))
  | LFully => Done
  end.
(** the values put: lines 517-519, 553-557, 591, 616, 635, 289 and 302-338.  A literal
    byte outside the input slice is a Rust panic. *)
Definition lit_want (data : list Z) (high_entropy : bool) (s : lit_st) : wanted :=
  let len := zlen data in
  let ser := wsub32 len 15 in
  let lllen := bitlen ser in
  match l_sub s with
  | LCountSmall flag => Put (if high_entropy && negb flag then 15 else Z.min 14 (wsub32 len 1))
  | LCountFirst => Put (Z.min 15 lllen)
  | LCountGreater14 => Put (wsub8 lllen 15)
  | LCountMant lr dsf => Put (mant_nib ser dsf (lr - 4))
  | LNibble i => match zget data i with Some x => Put (Z.shiftr x 4) | None => WPanic end
  | LLower i _ => match zget data i with Some x => Put (Z.land x 15) | None => WPanic end
  | _ => Put 0
  end.
