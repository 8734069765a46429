(** The wire format: which nibbles a command becomes, in order, on the command stream and on
    the literal stream.  Written from the format's point of view, without the coder's
    states.  All numbers are most significant nibble first. *)
From Verif Require Import Prelude ModelMux ModelCdf ModelCmd ModelCodec ModelPm SpecCodec.

(** the [k] lowest nibbles of [e] *)
Fixpoint nibs (k : nat) (e : Z) : list Z :=
  match k with O => [] | S k => (e / 16 ^ Z.of_nat k) mod 16 :: nibs k e end.
(** a number whose highest bit is bit [L], without that bit, in whole nibbles *)
Definition mantissa (L n : Z) : list Z := nibs (Z.to_nat ((L + 3) / 4)) (n - 2 ^ L).

(** ** Copies *)
Definition count_long (n : Z) : list Z :=
  let L := Z.log2 n in (if L <? 18 then [L - 3] else [15; L - 18]) ++ mantissa L n.
Definition count_wire (n : Z) : list Z := if n <? 15 then [n] else 15 :: count_long n.
(** position of the first [x] in a list, counted from [i] *)
Fixpoint place (x i : Z) (l : list Z) : option Z :=
  match l with
  | [] => None
  | y :: l => if y =? x then Some i else place x (i + 1) l
  end.
(** short codes: the four recent distances, or one of the last two give or take up to 3 *)
Definition short_codes (recent : list Z) : list Z :=
  match recent with
  | [r0; r1; r2; r3] => [r0; r1; r2; r3; r0 + 1; r0 - 1; r1 + 1; r1 - 1; r0 + 2; r0 - 2; r1 + 2; r1 - 2; r0 + 3; r0 - 3; r1 + 3]
  | _ => []
  end.
Definition distance_long (recent : list Z) (d : Z) : list Z :=
  if znth recent 1 - 3 =? d then [15]
  else let L := Z.log2 d in (if L <? 14 then [L] else [14; L - 14]) ++ mantissa L d.
Definition distance_wire (recent : list Z) (d : Z) : list Z :=
  match place d 0 (short_codes recent) with Some i => [i] | None => 15 :: distance_long recent d end.

(** ** Dictionary references *)
(** bits of a word's number, for words of 4 to 24 bytes *)
Definition word_bits : list Z := [10; 10; 11; 11; 10; 10; 10; 10; 10; 9; 9; 8; 7; 7; 8; 7; 7; 6; 6; 5; 5].
Definition dict_wire (ws wid tr : Z) : list Z :=
  (if ws <? 19 then [ws - 4] else [15; ws - 19]) ++
  nibs (Z.to_nat ((znth word_bits (ws - 4) + 3) / 4)) wid ++ [tr / 16; tr mod 16].

(** ** Literals: the length, after a mark for high entropy *)
Definition length_long (m : Z) : list Z :=
  if m <? 2 then [m] else let L := Z.log2 m in (if L <? 14 then [L + 1] else [15; L - 14]) ++ mantissa L m.
Definition length_wire (n : Z) : list Z := if n <? 15 then [n - 1] else 14 :: length_long (n - 15).
Definition literal_wire (n : Z) (high_entropy : bool) : list Z := (if high_entropy then [15] else []) ++ length_wire n.
Definition byte_wire (x : Z) : list Z := [x / 16; x mod 16].

(** ** Block switches; [before]: the last type but one, [top]: the highest type so far *)
Definition btype_wire (before top t : Z) : list Z :=
  if t =? before then [0] else if t =? (top + 1) mod 256 then [1] else if t <=? 12 then [t + 2] else [15; t mod 16; t / 16].

(** ** Prediction modes *)
(** context maps: each entry is its place among the 13 most recent values, 13 for one more
    than the highest of them, or 15 and the value itself; 14 ends the map *)
Definition entry_wire (recent : list Z) (x : Z) : list Z :=
  if x =? (fold_right Z.max 0 recent + 1) mod 256 then [13]
  else match place x 0 recent with Some i => [i] | None => 15 :: byte_wire x end.
Definition to_front (recent : list Z) (x : Z) : list Z := x :: firstn 12 (remove Z.eq_dec x recent).
Fixpoint map_wire (recent : list Z) (m : list Z) : list Z :=
  match m with
  | [] => [14]
  | x :: m => entry_wire recent x ++ map_wire (to_front recent x) m
  end.
Definition recent0 : list Z := [0; 1; 2; 3; 4; 5; 6; 7; 8; 9; 10; 11; 12].
(** a speed: the 7 bit codes of its increment and limit, each as 4 and 3 bits *)
Definition speed_wire (s : Z * Z) : list Z :=
  let a := speed_to_u8 (fst s) mod 128 in let b := speed_to_u8 (snd s) mod 128 in [a / 8; a mod 8; b / 8; b mod 8].
(** the speeds announced: those set by the options, else those of the command (stride, or
    the combined ones if mixing is on, then context map), 16/8192 where it has none *)
Definition speed_meant (code : Z * Z) : Z * Z :=
  let value x := match u8_to_speed x with Some y => y | None => 0 end in
  if (fst code =? 0) && (snd code =? 0) then (16, 8192) else (value (fst code), value (snd code)).
Definition wanted_speeds (g : cfg) (p : predmode) : list (Z * Z) :=
  match want_adapt g with
  | Some speeds => speeds
  | None =>
      let literal := if want_mixing g =? 0 then stride_f8 p else comb_f8 p in
      if has_speeds p then map speed_meant [nth_pair literal 0; nth_pair literal 1; nth_pair (cm_f8 p) 0; nth_pair (cm_f8 p) 1]
      else repeat (16, 8192) 4
  end.
Definition mixing_wire (D : dims) (g : cfg) (p : predmode) : list Z :=
  if negb (want_cmap g) then repeat 4 (Z.to_nat (n_mix D))
  else if sends_mixing g p then firstn (Z.to_nat (n_mix D)) (mixing p)
  else repeat 0 (Z.to_nat (n_mix D)).
Definition pm_wire (D : dims) (g : cfg) (p : predmode) : list Z :=
  let m d := if want_cmap g then src_map p d else [] in
  [pm_mode p; mixing_nibble g p; want_depth g] ++ flat_map speed_wire (wanted_speeds g p) ++
  map_wire recent0 (m false) ++ map_wire recent0 (m true) ++ mixing_wire D g p.

(** ** What the format remembers from one command to the next *)
Record past := PAST {
  recent : list Z;            (* the four most recent distances *)
  types : list (Z * Z);       (* literal, command, distance blocks: last type, the one before *)
  tops : list Z }.            (* and the highest type so far *)
Definition past0 : past := PAST [4; 11; 15; 16] [(0, 1); (0, 1); (0, 1)] [0; 0; 0].
Definition switched (p : past) (i t : Z) : past :=
  PAST (recent p) (upd i (t, fst (nth_pair (types p) i)) (types p)) (upd i (Z.max (znth (tops p) i) t) (tops p)).
Definition after (p : past) (c : command) : past :=
  match c with
  | Copy d _ => PAST (firstn 4 (d :: filter (fun x => negb (x =? d)) (recent p))) (types p) (tops p)
  | BlockSwitchLiteral t _ => switched p 0 t
  | BlockSwitchCommand t => switched p 1 t
  | BlockSwitchDistance t => switched p 2 t
  | _ => p
  end.

(** ** A command on the command stream: its kind, then its fields *)
Definition command_wire (D : dims) (g : cfg) (p : past) (c : command) : list Z :=
  let bt i t := btype_wire (snd (nth_pair (types p) i)) (znth (tops p) i) t in
  match c with
  | Copy d n => 1 :: count_wire n ++ distance_wire (recent p) d
  | Dict ws wid tr _ => 2 :: dict_wire ws wid tr
  | Literal data he => 3 :: literal_wire (zlen data) he
  | BlockSwitchLiteral t s => 4 :: bt 0 t ++ [if want_stride g =? 9 then s else want_stride g]
  | BlockSwitchCommand t => 5 :: bt 1 t
  | BlockSwitchDistance t => 6 :: bt 2 t
  | PredictionMode m => 7 :: pm_wire D g m
  end.
(** the whole command stream, with its end mark *)
Fixpoint stream_wire (D : dims) (g : cfg) (p : past) (cmds : list command) : list Z :=
  match cmds with
  | [] => [15]
  | c :: cmds => command_wire D g p c ++ stream_wire D g (after p c) cmds
  end.
(** the literal stream: the bytes of the literals *)
Definition content_wire (c : command) : list Z :=
  match c with Literal data _ => flat_map byte_wire data | _ => [] end.
(** what a coder remembers *)
Definition past_of (b : bk) : past := PAST (distance_lru b) (btype_lru b) (btype_max_seen b).
