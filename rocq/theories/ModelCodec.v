(** Model of the command coders: src/codec/{interface,copy,dict,block_type}.rs.

    The Rust coders are loops over an explicit state: each round brings the arithmetic
    coder's buffer into shape ([drain_or_fill]), then does one [match self.state] arm,
    which codes at most one nibble.  The same source is compiled for encoding and for
    decoding: [get_or_put_nibble(&mut nib, cdf)] either writes [nib] or overwrites it.
    Here one arm is a [node]: the distribution used and what is done with the coded
    value.  What the encoder puts into [nib] beforehand is the separate function
    [*_want]; it is the only place where the command being encoded is looked at (the
    decoder's value of the same expression is dead, since the call overwrites it).
    Distributions are the reference implementation (equal to the optimised one by C06). *)
From Verif Require Import Prelude ModelAns ModelCdf ModelMux ModelCmd ModelPriors.

(** CMD_CODER and LIT_CODER, src/codec/interface.rs:49-50 *)
Inductive stream := CMD | LIT.
(** the errors the coders return (ErrMsg, src/interface.rs:28-64), payload dropped *)
Inductive err := Distance0NotAllowed | CopyDistanceMnemonicCodeBad | DictWordSizeTooLarge
| DictTransformIndexUndefined | PredictionModeFail | AdvContextMapNotBoolean | IndexBeyondContextMapSize
| PredictionModeOutOfBounds | CommandCodeOutOfBounds | NotAllowedToEncodeAfterFlush | ReplayFailure.
(** what an arm does after (or without) coding: go on, error return, panic *)
Inductive outcome (S : Type) := Next (s : S) | Err (e : err) | Panic.
Arguments Next {S}. Arguments Err {S}. Arguments Panic {S}.
Inductive node (S : Type) :=
| Code (st : stream) (c : list Z) (k : Z -> outcome S)
| Silent (o : outcome S)
| Done.
Arguments Code {S}. Arguments Silent {S}. Arguments Done {S}.
(** what the encoder is about to put: a value, an error return before coding, a panic *)
Inductive wanted := Put (v : Z) | Refuse (e : err) | WPanic.

(** ** Priors *)
Definition prior_map := coll -> Z -> list Z.
(** every table starts with default distributions (alloc_cell in CrossCommandState::new,
    src/codec/interface.rs:727-735) *)
Definition priors_new : prior_map := fun _ _ => cdf_default.
Definition pupd (p : prior_map) (c : coll) (i : Z) (v : list Z) : prior_map :=
  fun c' i' => if coll_beq c c' && (i =? i') then v else p c' i'.

(** ** CrossCommandBookKeeping, src/codec/interface.rs:144-170, without the [desired_*]
    fields (see [cfg]) *)
Record bk := BK {
  priors : prior_map;
  last_dlen : Z; last_clen : Z; last_llen : Z; last_4_states : Z;
  cmap_lru : list Z; distance_lru : list Z;
  btype_lru : list (Z * Z); btype_max_seen : list Z;
  distance_context_map : list Z }.
Definition set_priors b x := BK x (last_dlen b) (last_clen b) (last_llen b) (last_4_states b) (cmap_lru b) (distance_lru b) (btype_lru b) (btype_max_seen b) (distance_context_map b).
Definition set_last_dlen b x := BK (priors b) x (last_clen b) (last_llen b) (last_4_states b) (cmap_lru b) (distance_lru b) (btype_lru b) (btype_max_seen b) (distance_context_map b).
Definition set_last_clen b x := BK (priors b) (last_dlen b) x (last_llen b) (last_4_states b) (cmap_lru b) (distance_lru b) (btype_lru b) (btype_max_seen b) (distance_context_map b).
Definition set_last_llen b x := BK (priors b) (last_dlen b) (last_clen b) x (last_4_states b) (cmap_lru b) (distance_lru b) (btype_lru b) (btype_max_seen b) (distance_context_map b).
Definition set_last_4_states b x := BK (priors b) (last_dlen b) (last_clen b) (last_llen b) x (cmap_lru b) (distance_lru b) (btype_lru b) (btype_max_seen b) (distance_context_map b).
Definition set_cmap_lru b x := BK (priors b) (last_dlen b) (last_clen b) (last_llen b) (last_4_states b) x (distance_lru b) (btype_lru b) (btype_max_seen b) (distance_context_map b).
Definition set_distance_lru b x := BK (priors b) (last_dlen b) (last_clen b) (last_llen b) (last_4_states b) (cmap_lru b) x (btype_lru b) (btype_max_seen b) (distance_context_map b).
Definition set_btypes b x y := BK (priors b) (last_dlen b) (last_clen b) (last_llen b) (last_4_states b) (cmap_lru b) (distance_lru b) x y (distance_context_map b).
Definition set_dcm b x := BK (priors b) (last_dlen b) (last_clen b) (last_llen b) (last_4_states b) (cmap_lru b) (distance_lru b) (btype_lru b) (btype_max_seen b) x.
(** CrossCommandBookKeeping::new, src/codec/interface.rs:348-402; the context map is
    4 * NUM_BLOCK_TYPES zero bytes (src/codec/interface.rs:737) *)
Definition bk_new : bk :=
  BK priors_new 1 1 1 48 (repeat 0 13) [4; 11; 15; 16] [(0, 1); (0, 1); (0, 1)] [0; 0; 0] (repeat 0 1024).
(** StrideSelection and the desired_* fields, src/codec/interface.rs:51-64,163-169: what
    the encoder was asked for; never read by the decoder except into dead values *)
Record cfg := CFG { want_depth : Z; want_adapt : option (list (Z * Z)); want_cmap : bool; want_stride : Z; want_mixing : Z }.
(** constructor part, src/codec/interface.rs:359-365 *)
Definition cfg_new (mixing depth : Z) (adapt : option (list (Z * Z))) (do_cmap : bool) (stride : Z) : cfg :=
  CFG depth adapt do_cmap stride (if negb (stride =? 0) && (mixing =? 0) && do_cmap then 1 else mixing).

(** Speeds, src/probability/interface.rs:321-328 *)
Definition GLACIAL := (4, 2560). Definition MUD := (16, 8192). Definition SLOW := (32, 4096).
Definition MED := (48, 16384). Definition FAST := (96, 16384). Definition PLANE := (128, 16384).
Definition ROCKET := (384, 16384).

(** the pattern "get a prior, code a nibble, blend, go on" *)
Definition code (b : bk) (c : coll) (bl : billing) (ix : list Z) (speed : Z * Z) {S} (k : bk -> Z -> outcome S) : node S :=
  match prior_index c bl ix with
  | None => Silent Panic
  | Some i => Code CMD (priors b c i)
                (fun v => k (set_priors b (pupd (priors b) c i (blend (priors b c i) v (fst speed) (snd speed)))) v)
  end.

(** u32::leading_zeros based bit length *)
Definition bitlen (x : Z) : Z := if x =? 0 then 0 else Z.log2 x + 1.
(** round_up_mod_4, src/codec/interface.rs:180-186 *)
Definition round_up_mod_4 (v : Z) : Z := Z.lor (v - 1) 3 + 1.
(** u32 / u8 wrapping_sub *)
Definition wsub32 (a b : Z) : Z := (a - b) mod 2 ^ 32.
Definition wsub8 (a b : Z) : Z := (a - b) mod 256.
(** next nibble of a mantissa: [(want ^ decoded) >> remaining] as u8 *)
Definition mant_nib (v dsf r : Z) : Z := Z.shiftr (Z.lxor v dsf) r mod 256.
Definition nth_pair (l : list (Z * Z)) (i : Z) : Z * Z := nth (Z.to_nat i) l (0, 0).
Definition znth (l : list Z) (i : Z) : Z := nth (Z.to_nat i) l 0.
(** ... with Rust's bounds check *)
Definition zget (l : list Z) (i : Z) : option Z := if (0 <=? i) && (i <? zlen l) then Some (znth l i) else None.

(** get_command_block_type .. get_literal_block_type, src/codec/interface.rs:478-486 *)
Definition command_block_type (b : bk) : Z := fst (nth_pair (btype_lru b) 1).
Definition distance_block_type (b : bk) : Z := fst (nth_pair (btype_lru b) 2).
(** get_distance_prior, src/codec/interface.rs:426-430; out of range = panic (index -1
    makes the prior lookup fail) *)
Definition distance_prior (b : bk) (copy_len : Z) : Z :=
  match zget (distance_context_map b) (distance_block_type b * 4 + Z.min (Z.max copy_len 2 - 2) 3) with
  | Some x => x | None => -1 end.
(** get_distance_from_mnemonic_code, src/codec/interface.rs:979-1009 *)
Definition distance_from_code (lru : list Z) (code : Z) : Z * bool :=
  if code <? 4 then (znth lru code, true) else
  let s := Z.shiftr code 2 in
  let signed := s - Z.shiftl (Z.land (- (Z.land code 1)) s) 1 in
  let index := Z.shiftr (Z.land code 2) 1 in
  let ret := i32 (i32 (znth lru index) + signed) in
  (ret mod 2 ^ 32, 0 <? ret).
(** distance_mnemonic_code, src/codec/interface.rs:469-477 *)
Definition distance_mnemonic_code (lru : list Z) (d : Z) : Z :=
  match find (fun i => let '(item, ok) := distance_from_code lru i in (item =? d) && ok)
             [0; 1; 2; 3; 4; 5; 6; 7; 8; 9; 10; 11; 12; 13; 14] with
  | Some i => i | None => 15 end.
(** obs_distance, src/codec/interface.rs:509-527 *)
Definition obs_distance (b : bk) (d : Z) : bk :=
  let l := distance_lru b in
  let l0 := znth l 0 in let l1 := znth l 1 in let l2 := znth l 2 in let l3 := znth l 3 in
  if d =? l1 then set_distance_lru b [d; l0; l2; l3]
  else if d =? l2 then set_distance_lru b [d; l0; l1; l3]
  else if negb (d =? l0) then set_distance_lru b [d; l0; l1; l2]
  else b.
(** next_state .. obs_literal_state, src/codec/interface.rs:493-508 *)
Definition next_state (b : bk) : bk := set_last_4_states b (Z.shiftr (last_4_states b) 2).
Definition obs_dict_state (b : bk) : bk := let b := next_state b in set_last_4_states b (Z.lor (last_4_states b) 192).
Definition obs_copy_state (b : bk) : bk := let b := next_state b in set_last_4_states b (Z.lor (last_4_states b) 64).
Definition obs_literal_state (b : bk) : bk := let b := next_state b in set_last_4_states b (Z.lor (last_4_states b) 128).
Definition upd {A} (i : Z) (v : A) (l : list A) : list A := firstn (Z.to_nat i) l ++ v :: skipn (S (Z.to_nat i)) l.
(** _obs_btype_helper, src/codec/interface.rs:528-532 *)
Definition obs_btype (b : bk) (i btype : Z) : bk :=
  let b := next_state b in
  set_btypes b (upd i (btype, fst (nth_pair (btype_lru b) i)) (btype_lru b))
               (upd i (Z.max (znth (btype_max_seen b) i) btype) (btype_max_seen b)).

(** ** Copy, src/codec/copy.rs *)
Inductive copy_sub :=
| CBegin | CCountSmall | CCountFirst | CCountGreater18 | CCountMant (len_decoded len_remaining decoded : Z)
| CCountDecoded | CDistMnemonic | CDistFirst | CDistGreater14 | CDistMant (len_decoded len_remaining decoded : Z)
| CFully.
(** CopyState, src/codec/copy.rs:32-35; begin, 40-48 *)
Record copy_st := CS { cc_distance : Z; cc_num_bytes : Z; c_sub : copy_sub }.
Definition copy_begin : copy_st := CS 0 0 CBegin.
Definition cset (s : copy_st) (u : copy_sub) : copy_st := CS (cc_distance s) (cc_num_bytes s) u.
Definition set_num (s : copy_st) (n : Z) (u : copy_sub) : copy_st := CS (cc_distance s) n u.
Definition set_dist (s : copy_st) (d : Z) (u : copy_sub) : copy_st := CS d (cc_num_bytes s) u.

(** encode_or_decode, src/codec/copy.rs:48-286: arms of the match *)
Definition copy_node (b : bk) (s : copy_st) : node (bk * copy_st) :=
  let ctype := command_block_type b in
  let dprior := distance_prior b (cc_num_bytes s) in
  match c_sub s with
  | CBegin => Silent (Next (b, cset s CCountSmall))
  | CCountSmall =>
      code b CopyP CountSmall [ctype; Z.land (Z.shiftr (last_4_states b) 4) 3 + 4 * Z.min (last_llen b - 1) 3] MUD
        (fun b v => if v =? 15 then Next (b, cset s CCountFirst)
                    else Next (set_last_clen b (bitlen v), set_num s v CCountDecoded))
  | CCountFirst =>
      code b CopyP CountBegNib [ctype; 0] FAST
        (fun b v => if v =? 15 then Next (b, cset s CCountGreater18)
                    else Next (set_last_clen b (v + 4), cset s (CCountMant 0 (round_up_mod_4 (v + 3)) (Z.shiftl 1 (v + 3)))))
  | CCountGreater18 =>
      code b CopyP CountLastNib [ctype; 0] FAST
        (fun b v => if v + 18 <? 32 then
                      Next (set_last_clen b (v + 19), cset s (CCountMant 0 (round_up_mod_4 (v + 18)) (Z.shiftl 1 (v + 18))))
                    else Panic (* 1 << 32 *))
  | CCountMant ld lr dsf =>
      let nlr := lr - 4 in
      code b CopyP CountMantissaNib [ctype; if ld =? 0 then last_clen b mod 4 + 1 else 0] SLOW
        (fun b v => let d := Z.lor dsf (Z.shiftl v nlr) in
                    if nlr =? 0 then Next (b, set_num s d CCountDecoded)
                    else Next (b, cset s (CCountMant (ld + 4) nlr d)))
  | CCountDecoded => Silent (Next (b, cset s CDistMnemonic))
  | CDistMnemonic =>
      code b CopyP DistanceMnemonic [dprior; if last_llen b <? 8 then 1 else 0] SLOW
        (fun b v => if v =? 15 then Next (b, cset s CDistFirst)
                    else let '(d, ok) := distance_from_code (distance_lru b) v in
                         if ok then Next (set_last_dlen b (bitlen d), set_dist s d CFully)
                         else Err CopyDistanceMnemonicCodeBad)
  | CDistFirst =>
      code b CopyP DistanceBegNib [dprior; Z.shiftr (bitlen (cc_num_bytes s)) 2] SLOW
        (fun b v => if v =? 14 then Next (b, cset s CDistGreater14)
                    else if v =? 15 then
                      let d := wsub32 (znth (distance_lru b) 1) 3 in
                      Next (set_last_dlen b (bitlen d), set_dist s d CFully)
                    else if v =? 0 then Next (set_last_dlen b (v + 1), set_dist s 1 CFully)
                    else Next (set_last_dlen b (v + 1), cset s (CDistMant 0 (round_up_mod_4 v) (Z.shiftl 1 v))))
  | CDistGreater14 =>
      code b CopyP DistanceLastNib [dprior; 0] ROCKET
        (fun b v => Next (set_last_dlen b (v + 15), cset s (CDistMant 0 (round_up_mod_4 (v + 14)) (Z.shiftl 1 (v + 14)))))
  | CDistMant ld lr dsf =>
      (* the for loop of lines 239-277, one round *)
      let nlr := Z.shiftl (Z.shiftr (lr + 3) 2 - 1) 2 in
      let index := if ld =? 0 then Z.land (last_dlen b) 3 + 1 else 0 in
      code b CopyP DistanceMantissaNib [dprior; index]
           (Z.shiftl 4 (Z.shiftl (Z.land index 6) (Z.shiftr (Z.land index 2) 1)), 16384)
        (fun b v => let d := Z.lor dsf (Z.shiftl v nlr) in
                    if nlr =? 0 then Next (b, set_dist s d CFully)
                    else Next (b, cset s (CDistMant (ld + 4) nlr d)))
  | CFully => Done
  end.
(** the values put by the encoder: lines 67-72, 89, 111, 133, 149, 179, 206-209, 239, 256 *)
Definition copy_want (d n : Z) (b : bk) (s : copy_st) : wanted :=
  let dlen := bitlen d in let clen := bitlen n in
  if dlen =? 0 then Refuse Distance0NotAllowed else
  Put match c_sub s with
  | CCountSmall => Z.min 15 n
  | CCountFirst => Z.min 15 (wsub8 clen 4)
  | CCountGreater18 => wsub8 clen 19
  | CCountMant _ lr dsf => mant_nib n dsf (lr - 4)
  | CDistMnemonic => distance_mnemonic_code (distance_lru b) d
  | CDistFirst => if wsub32 (znth (distance_lru b) 1) 3 =? d then 15 else Z.min 14 (dlen - 1)
  | CDistGreater14 => wsub8 dlen 15
  | CDistMant _ lr dsf => mant_nib d dsf (Z.shiftl (Z.shiftr (lr + 3) 2 - 1) 2)
  | _ => 0
  end.

(** ** Dictionary references, src/codec/dict.rs *)
Inductive dict_sub := DBegin | DSizeFirst | DSizeGreater18 | DIndex (len_decoded len_remaining decoded : Z)
| DTransformHigh | DTransformLow | DFully.
(** DictState, src/codec/dict.rs:32-35, begin 43-48 *)
Record dict_st := DS { dc_word_size : Z; dc_word_id : Z; dc_transform : Z; dc_final_size : Z; d_sub : dict_sub }.
Definition dict_begin : dict_st := DS 0 0 0 0 DBegin.
Definition dset (s : dict_st) (u : dict_sub) : dict_st := DS (dc_word_size s) (dc_word_id s) (dc_transform s) (dc_final_size s) u.
(** DICT_BITS, src/codec/dict.rs:36-39 *)
Definition DICT_BITS : list Z :=
  [0; 0; 0; 0; 10; 10; 11; 11; 10; 10; 10; 10; 10; 9; 9; 8; 7; 7; 8; 7; 7; 6; 6; 5; 5].
(** length of the transformed word as computed by dict.rs:150-160 (brotli's
    TransformDictionaryWord on the dictionary bytes found at [word_id]): a parameter *)
Definition word_len_fn := Z -> Z -> Z -> Z.
(** encode_or_decode, src/codec/dict.rs:49-176 *)
Definition dict_node (wl : word_len_fn) (b : bk) (s : dict_st) : node (bk * dict_st) :=
  let ctype := command_block_type b in
  let sized b ws := Next (b, DS ws (dc_word_id s) (dc_transform s) (dc_final_size s) (DIndex 0 (round_up_mod_4 (znth DICT_BITS ws)) 0)) in
  match d_sub s with
  | DBegin => Silent (Next (b, dset s DSizeFirst))
  | DSizeFirst =>
      code b DictP SizeBegNib [ctype] MUD
        (fun b v => if v =? 15 then Next (b, dset s DSizeGreater18) else sized b (v + 4))
  | DSizeGreater18 =>
      code b DictP SizeLastNib [ctype] MUD
        (fun b v => if 24 <? v + 19 then Err DictWordSizeTooLarge else sized b (v + 19))
  | DIndex ld lr dsf =>
      let nlr := lr - 4 in
      code b DictP Index [distance_prior b (dc_word_size s); if ld =? 0 then znth DICT_BITS (dc_word_size s) mod 4 + 1 else 0] MUD
        (fun b v => let d := Z.lor dsf (Z.shiftl v nlr) in
                    if nlr =? 0 then Next (b, DS (dc_word_size s) d (dc_transform s) (dc_final_size s) DTransformHigh)
                    else Next (b, dset s (DIndex (ld + 4) nlr d)))
  | DTransformHigh =>
      code b DictP Transform [0; Z.shiftr (dc_word_size s) 1] FAST
        (fun b v => Next (b, DS (dc_word_size s) (dc_word_id s) (Z.shiftl v 4) (dc_final_size s) DTransformLow))
  | DTransformLow =>
      code b DictP Transform [1; Z.shiftr (dc_transform s) 4] FAST
        (fun b v => let t := Z.lor (dc_transform s) v in
                    if 121 <=? t then Err DictTransformIndexUndefined
                    else Next (b, DS (dc_word_size s) (dc_word_id s) t (wl (dc_word_size s) (dc_word_id s) t mod 256) DFully))
  | DFully => Done
  end.
(** lines 78, 96, 113, 138, 149 *)
Definition dict_want (ws wid tr : Z) (s : dict_st) : wanted :=
  Put match d_sub s with
  | DSizeFirst => Z.min 15 (wsub8 ws 4)
  | DSizeGreater18 => wsub8 ws 19
  | DIndex _ lr dsf => mant_nib wid dsf (lr - 4)
  | DTransformHigh => Z.shiftr tr 4
  | DTransformLow => Z.land tr 15
  | _ => 0
  end.

(** ** Block type switches, src/codec/block_type.rs *)
Inductive btype_st := BtBegin | BtTwoNibble | BtFinal (first : Z) | BtFully (btype : Z).
(** BlockTypeState::encode_or_decode, src/codec/block_type.rs:31-110 *)
Definition btype_node (i : Z) (b : bk) (s : btype_st) : node (bk * btype_st) :=
  match s with
  | BtBegin =>
      code b BtypeP BtMnemonic [i] SLOW
        (fun b v => if v =? 0 then Next (b, BtFully (snd (nth_pair (btype_lru b) i)))
                    else if v =? 1 then Next (b, BtFully ((znth (btype_max_seen b) i + 1) mod 256))
                    else if v =? 15 then Next (b, BtTwoNibble)
                    else Next (b, BtFully (v - 2)))
  | BtTwoNibble => code b BtypeP BtFirstNibble [i] SLOW (fun b v => Next (b, BtFinal v))
  | BtFinal first => code b BtypeP BtSecondNibble [i] SLOW (fun b v => Next (b, BtFully (Z.lor (Z.shiftl v 4) first)))
  | BtFully _ => Done
  end.
(** lines 49-61 *)
Definition btype_want (t i : Z) (b : bk) (s : btype_st) : wanted :=
  Put match s with
  | BtBegin => if t =? snd (nth_pair (btype_lru b) i) then 0
               else if t =? (znth (btype_max_seen b) i + 1) mod 256 then 1
               else if t <=? 12 then t + 2 else 15
  | BtTwoNibble => Z.land t 15
  | BtFinal _ => Z.shiftr t 4
  | BtFully _ => 0
  end.
Inductive lbtype_st := LbBegin | LbInter (s : btype_st) | LbStride (ltype : Z) | LbFully (ltype stride : Z).
Definition map_outcome {A B} (f : A -> B) (o : outcome A) : outcome B :=
  match o with Next a => Next (f a) | Err e => Err e | Panic => Panic end.
Definition map_node {A B} (f : A -> B) (d : outcome B) (n : node A) : node B :=
  match n with
  | Code st c k => Code st c (fun v => map_outcome f (k v))
  | Silent o => Silent (map_outcome f o)
  | Done => Silent d
  end.
(** LiteralBlockTypeState::encode_or_decode, src/codec/block_type.rs:124-197.  A finished
    inner state is recognised in the next round instead of at once (no coding between). *)
Definition lbtype_node (b : bk) (s : lbtype_st) : node (bk * lbtype_st) :=
  match s with
  | LbBegin => Silent (Next (b, LbInter BtBegin))
  | LbInter (BtFully v) => Silent (Next (b, LbStride v))
  | LbInter u => map_node (fun p => (fst p, LbInter (snd p))) Panic (btype_node 0 b u)
  | LbStride t => code b BtypeP BtStrideNibble [0] SLOW (fun b v => Next (b, LbFully t v))
  | LbFully _ _ => Done
  end.
(** line 177-180 *)
Definition lbtype_want (g : cfg) (t stride : Z) (b : bk) (s : lbtype_st) : wanted :=
  match s with
  | LbInter u => btype_want t 0 b u
  | LbStride _ => Put (if want_stride g =? 9 then stride else want_stride g)
  | _ => Put 0
  end.
