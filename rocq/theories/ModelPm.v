(** Model of the prediction mode / context map coder, src/codec/context_map.rs. *)
From Verif Require Import Prelude ModelAns ModelCdf ModelMux ModelCmd ModelPriors ModelCodec ModelLit.

(** sizes fixed by the brotli crate: MAX_LITERAL_CONTEXT_MAP_SIZE (256 * 64), the
    distance map inside predmode_speed_and_distance_context_map (256 * 4) and
    NUM_MIXING_VALUES (8192, equal to the length of mixing_mask).  The model is
    parametric in them. *)
Record dims := DIMS { n_lit : Z; n_dist : Z; n_mix : Z }.
Definition real_dims : dims := DIMS 16384 1024 8192.

(** PredictionModeSubstate, src/codec/context_map.rs:32-43; ContextMapType: [true] =
    Distance.  The last argument of most states is combine_literal_predictions. *)
Inductive pm_sub :=
| PmBegin | PmDynMixing | PmDepth (combine : bool)
| PmAdapt (index : Z) (out : list (Z * Z)) (combine : bool)
| PmMnem (index : Z) (distance : bool) (combine : bool)
| PmFirst (index : Z) (distance : bool) (combine : bool)
| PmSecond (index : Z) (distance : bool) (msn : Z) (combine : bool)
| PmMixing (index : Z) (combine : bool)
| PmFully.
Definition pm_st : Type := predmode * pm_sub.

(** setters of brotli's PredictionModeContextMap *)
Definition pm_set_mode p x := PM (lit_map p) (dist_map p) (mixing p) x (pm_math p) (pm_adv p) (stride_f8 p) (cm_f8 p) (comb_f8 p) (has_speeds p).
Definition pm_set_math p x y := PM (lit_map p) (dist_map p) (mixing p) (pm_mode p) x y (stride_f8 p) (cm_f8 p) (comb_f8 p) (has_speeds p).
Definition pm_set_speeds p x y := PM (lit_map p) (dist_map p) (mixing p) (pm_mode p) (pm_math p) (pm_adv p) x y (comb_f8 p) (has_speeds p).
Definition pm_set_lit p x := PM x (dist_map p) (mixing p) (pm_mode p) (pm_math p) (pm_adv p) (stride_f8 p) (cm_f8 p) (comb_f8 p) (has_speeds p).
Definition pm_set_dist p x := PM (lit_map p) x (mixing p) (pm_mode p) (pm_math p) (pm_adv p) (stride_f8 p) (cm_f8 p) (comb_f8 p) (has_speeds p).
Definition pm_set_mixing p x := PM (lit_map p) (dist_map p) x (pm_mode p) (pm_math p) (pm_adv p) (stride_f8 p) (cm_f8 p) (comb_f8 p) (has_speeds p).
(** PredictionModeState::begin and reset, src/codec/context_map.rs:69-99: freshly
    allocated (zero) maps of full size, kept across commands *)
Definition pm_new (D : dims) : predmode :=
  PM (repeat 0 (Z.to_nat (n_lit D))) (repeat 0 (Z.to_nat (n_dist D))) (repeat 0 (Z.to_nat (n_mix D)))
     0 0 0 [(0, 0); (0, 0)] [(0, 0); (0, 0)] [(0, 0); (0, 0)] true.

(** reset_context_map_lru, reset_distance_context_map, src/codec/interface.rs:431-438 *)
Definition lru_reset : list Z := [0; 1; 2; 3; 4; 5; 6; 7; 8; 9; 10; 11; 12].
Definition reset_dcm (b : bk) : bk := set_dcm b (map (fun i => Z.land (Z.of_nat i) 3) (seq 0 (length (distance_context_map b)))).
(** position of the first element equal to [v] *)
Fixpoint index_of (v : Z) (l : list Z) : option nat :=
  match l with
  | [] => None
  | x :: l => if x =? v then Some O else option_map S (index_of v l)
  end.
(** obs_context_map_for_lru, src/codec/interface.rs:439-467 *)
Definition lru_touch (l : list Z) (v : Z) : list Z :=
  match index_of v l with
  | Some i => v :: firstn i l ++ skipn (S i) l
  | None => v :: firstn (length l - 1) l
  end.
Definition obs_context_map (b : bk) (distance : bool) (index v : Z) : option bk :=
  let b := set_cmap_lru b (lru_touch (cmap_lru b) v) in
  if negb distance then Some b
  else if index <? zlen (distance_context_map b) then Some (set_dcm b (upd index v (distance_context_map b)))
  else None.
(** cmap_lru.iter().max().unwrap().wrapping_add(1), lines 250, 277 *)
Definition lru_next (l : list Z) : Z := (fold_right Z.max 0 l + 1) mod 256.
(** out_context_map[index] = val with its bounds check, lines 287-295, 349-356 *)
Definition pm_store (p : predmode) (distance : bool) (index v : Z) : option predmode :=
  if distance then
    if index <? zlen (dist_map p) then Some (pm_set_dist p (upd index v (dist_map p))) else None
  else if index <? zlen (lit_map p) then Some (pm_set_lit p (upd index v (lit_map p))) else None.
Definition bit (x : bool) : Z := if x then 1 else 0.

(** u8_to_speed on a pair, then brotli's setter, which stores speed_to_u8 of it *)
Definition store_speed (p : Z * Z) : option (Z * Z) :=
  let? a := u8_to_speed (fst p) in let? b := u8_to_speed (snd p) in
  Some (speed_to_u8 a, speed_to_u8 b).
(** out_adapt_speed update, lines 210-221: index 0..15 = (speed, quarter) *)
Definition adapt_store (out : list (Z * Z)) (index v : Z) : list (Z * Z) :=
  let si := Z.shiftr index 2 in
  let '(x, y) := nth_pair out si in
  let q := Z.land index 3 in
  upd si (if q =? 0 then (Z.lor x (Z.shiftl v 3 mod 256), y)
          else if q =? 1 then (Z.lor x v, y)
          else if q =? 2 then (x, Z.lor y (Z.shiftl v 3 mod 256))
          else (x, Z.lor y v)) out.

(** encode_or_decode, src/codec/context_map.rs:102-428 *)
Definition pm_node (D : dims) (b : bk) (s : pm_st) : node (bk * pm_st) :=
  let '(p, u) := s in
  match u with
  | PmBegin =>
      let b := reset_dcm (set_cmap_lru b lru_reset) in
      code b PredP PmOnly [0] MED (fun b v => Next (b, (pm_set_mode p v, PmDynMixing)))
  | PmDynMixing =>
      code b PredP PmDynamicContextMixingSpeed [0] MED
        (fun b v => Next (b, (pm_set_math p (Z.land v 3) (Z.shiftr v 2), PmDepth (negb (v =? 0)))))
  | PmDepth combine =>
      code b PredP PmPriorDepth [0] FAST
        (fun b v => Next (b, (p, PmAdapt 0 [(0, 0); (0, 0); (0, 0); (0, 0)] combine)))
  | PmAdapt index out combine =>
      code b PredP PmContextMapSpeedPalette [Z.land index 3] FAST
        (fun b v =>
           let out := adapt_store out index v in
           if index + 1 =? 16 then
             match store_speed (nth_pair out 0), store_speed (nth_pair out 1), store_speed (nth_pair out 2), store_speed (nth_pair out 3) with
             | Some s0, Some s1, Some s2, Some s3 => Next (b, (pm_set_speeds p [s0; s1] [s2; s3], PmMnem 0 false combine))
             | _, _, _, _ => Panic
             end
           else Next (b, (p, PmAdapt (index + 1) out combine)))
  | PmMnem index distance combine =>
      code b PredP PmMnemonic [bit distance] MED
        (fun b v =>
           if v =? 14 then
             if distance then Next (b, (p, PmMixing 0 combine))
             else Next (set_cmap_lru b lru_reset, (p, PmMnem 0 true combine))
           else if v =? 15 then Next (b, (p, PmFirst index distance combine))
           else
             let x := if v =? 13 then lru_next (cmap_lru b) else znth (cmap_lru b) v in
             match obs_context_map b distance index x with
             | None => Err IndexBeyondContextMapSize
             | Some b =>
                 match pm_store p distance index x with
                 | None => Err IndexBeyondContextMapSize
                 | Some p => Next (b, (p, PmMnem (index + 1) distance combine))
                 end
             end)
  | PmFirst index distance combine =>
      code b PredP PmFirstNibble [bit distance] MED (fun b v => Next (b, (p, PmSecond index distance v combine)))
  | PmSecond index distance msn combine =>
      code b PredP PmSecondNibble [bit distance] MED
        (fun b v =>
           let x := Z.lor (Z.shiftl msn 4) v in
           match pm_store p distance index x with
           | None => Err IndexBeyondContextMapSize
           | Some p =>
               match obs_context_map b distance index x with
               | None => Err IndexBeyondContextMapSize
               | Some b => Next (b, (p, PmMnem (index + 1) distance combine))
               end
           end)
  | PmMixing index combine =>
      code b PredP PmPriorMixingValue
           [if (256 <=? index) && has_speeds p then Z.land (znth (mixing p) (index - 256)) 15 else 16] PLANE
        (fun b v =>
           if index <? zlen (mixing p) then
             let p := pm_set_mixing p (upd index v (mixing p)) in
             Next (b, (p, if index + 1 =? n_mix D then PmFully else PmMixing (index + 1) combine))
           else Panic)
  | PmFully => Done
  end.

(** desired_speeds, lines 122-149: (inc, lim) pairs; [None] = u8_to_speed panics *)
Definition pick_speed (f8 : Z * Z) (dflt : Z * Z) : option (Z * Z) :=
  if (fst f8 =? 0) && (snd f8 =? 0) then Some dflt
  else let? a := u8_to_speed (fst f8) in let? b := u8_to_speed (snd f8) in Some (a, b).
Definition desired_speeds (g : cfg) (src : predmode) : option (list (Z * Z)) :=
  match want_adapt g with
  | Some a => Some a
  | None =>
      if has_speeds src then
        let stride := if negb (want_mixing g =? 0) then comb_f8 src else stride_f8 src in
        let? s2 := pick_speed (nth_pair (cm_f8 src) 0) MUD in
        let? s3 := pick_speed (nth_pair (cm_f8 src) 1) MUD in
        let? s0 := pick_speed (nth_pair stride 0) MUD in
        let? s1 := pick_speed (nth_pair stride 1) MUD in
        Some [s0; s1; s2; s3]
      else Some [MUD; MUD; MUD; MUD]
  end.
(** res of lines 239-253: the last matching entry of the cache, 13 for "maximum plus
    one" (which wins over a match), else 15 *)
Fixpoint last_index (v i res : Z) (l : list Z) : Z :=
  match l with
  | [] => res
  | x :: l => last_index v (i + 1) (if x =? v then i else res) l
  end.
Definition cmap_mnemonic (lru : list Z) (v : Z) : Z :=
  if v =? lru_next lru then 13 else last_index v 0 15 lru.
Definition src_map (src : predmode) (distance : bool) : list Z :=
  if distance then (if has_speeds src then dist_map src else []) else lit_map src.
(** the values put: lines 175, 181-186, 203, 214-226, 231-256, 308-318, 330-341, 371-380 *)
Definition pm_want (g : cfg) (src : predmode) (b : bk) (s : pm_st) : wanted :=
  match desired_speeds g src with
  | None => WPanic
  | Some speeds =>
    match snd s with
    | PmBegin => Put (pm_mode src)
    | PmDynMixing =>
        if negb (Z.shiftr (pm_adv src) 1 =? 0) then Refuse AdvContextMapNotBoolean
        else if negb (Z.shiftr (want_mixing g) 3 =? 0) then WPanic
        else Put (Z.lor (want_mixing g) (Z.shiftl (pm_adv src) 3))
    | PmDepth _ => Put (want_depth g)
    | PmAdapt index _ _ =>
        let '(inc, lim) := nth_pair speeds (Z.shiftr index 2) in
        let q := Z.land index 3 in
        Put (if q =? 0 then Z.shiftr (Z.land (speed_to_u8 inc) 127) 3
             else if q =? 1 then Z.land (Z.land (speed_to_u8 inc) 127) 7
             else if q =? 2 then Z.shiftr (Z.land (speed_to_u8 lim) 127) 3
             else Z.land (Z.land (speed_to_u8 lim) 127) 7)
    | PmMnem index distance _ =>
        let m := if want_cmap g then src_map src distance else [] in
        Put (if zlen m <=? index then 14 else cmap_mnemonic (cmap_lru b) (znth m index))
    | PmFirst index distance _ =>
        let m := src_map src distance in
        Put (if zlen m <=? index then 0 else Z.shiftr (znth m index) 4)
    | PmSecond index distance _ _ =>
        let m := src_map src distance in
        Put (if zlen m <=? index then 0 else Z.land (znth m index) 15)
    | PmMixing index combine =>
        if negb (want_cmap g) then Put 4
        else if negb combine then Put 0
        else if has_speeds src then match zget (mixing src) index with Some x => Put x | None => WPanic end
        else Put 0
    | PmFully => Put 0
    end
  end.

(** ** What the literal coder learns from it: obs_prediction_mode_context_map,
    obs_dynamic_context_mixing and obs_pred_mode, src/codec/interface.rs:270-331.
    [None] = panic (Speed::from_f8_tuple or clone_from_slice of a different length) *)
Definition speed_of_f8 (p : Z * Z) : option (Z * Z) :=
  let? a := u8_to_speed (fst p) in let? b := u8_to_speed (snd p) in Some (a, b).
Definition set_mixing_param (w : weights) (m : Z) : weights := WT (w0 w) (w1 w) m (norm_weight w).
Definition obs_prediction_mode (l : lbk) (p : predmode) : outcome lbk :=
  if negb (pm_mode p <? 4) then Err PredictionModeOutOfBounds else
  match speed_of_f8 (nth_pair (stride_f8 p) 0), speed_of_f8 (nth_pair (stride_f8 p) 1),
        speed_of_f8 (nth_pair (cm_f8 p) 0), speed_of_f8 (nth_pair (cm_f8 p) 1) with
  | Some s0, Some s1, Some s2, Some s3 =>
      Next (LB (lpriors l) (last_8 l) (lit_map p) (btype_last l) (pm_mode p) [s0; s1; s2; s3] (mixing p)
               (set_mixing_param (wt_low l) (pm_math p)) (set_mixing_param (wt_high l) (pm_math p)))
  | _, _, _, _ => Panic
  end.
