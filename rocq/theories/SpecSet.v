(** Settings, from the user's words to what the encoders are told: used by C76. *)
From Verif Require Import Prelude ModelFfi SpecFfi ModelSet.
From Verif Require ModelArgs SpecArgs.

(** what an encoder knows of a parameter after these calls: the last value told, if any *)
Definition heard (l : list (param * pvalue)) (p : param -> bool) : option pvalue :=
  fold_left (fun a x => if p (fst x) then Some (snd x) else a) l None.
Definition is (p q : param) : bool :=
  match p, q with
  | MODE, MODE | LGWIN, LGWIN | LGBLOCK, LGBLOCK | QUALITY, QUALITY | Q9_5, Q9_5 | METABLOCK_CALLBACK, METABLOCK_CALLBACK | CDF_ADAPTATION_DETECTION, CDF_ADAPTATION_DETECTION
  | STRIDE_DETECTION_QUALITY, STRIDE_DETECTION_QUALITY | LITERAL_BYTE_SCORE, LITERAL_BYTE_SCORE | PRIOR_BITMASK_DETECTION, PRIOR_BITMASK_DETECTION
  | CM_SPEED, CM_SPEED | CM_SPEED_MAX, CM_SPEED_MAX | CM_SPEED_LOW, CM_SPEED_LOW | CM_SPEED_LOW_MAX, CM_SPEED_LOW_MAX | SPEED, SPEED | SPEED_MAX, SPEED_MAX | SPEED_LOW, SPEED_LOW | SPEED_LOW_MAX, SPEED_LOW_MAX => true
  | _, _ => false
  end.
(** the parameters for the increment and the limit of a speed, by the place it is for:
    low stride, high stride, low context map, high context map *)
Definition inc_param (place : nat) : param := match place with 0%nat => SPEED_LOW | 1%nat => SPEED | 2%nat => CM_SPEED_LOW | _ => CM_SPEED end.
Definition lim_param (place : nat) : param := match place with 0%nat => SPEED_LOW_MAX | 1%nat => SPEED_MAX | 2%nat => CM_SPEED_LOW_MAX | _ => CM_SPEED_MAX end.
(** the priors by number *)
Definition prior_name (m : Z) : pvalue := match m with 0 => FORCE_LSB_PRIOR | 1 => FORCE_MSB_PRIOR | 2 => FORCE_UTF8_PRIOR | _ => FORCE_SIGNED_PRIOR end.
Definition in_bounds (w : Z) : Z := if w <? 10 then 10 else if 24 <? w then 24 else w.

(** What brotli's encoder is to hear, setting by setting. *)
Record wish := WISH { w_window : Z; w_block : Z; w_quality : Z; w_95 : bool; w_speedq : Z; w_strideq : Z; w_score : option Z; w_prior : Z; w_mode : option Z; w_speed : nat -> option (Z * Z) }.
Definition granted (w : wish) (l : list (param * pvalue)) : Prop :=
  heard l (is LGWIN) = Some (Num (in_bounds (w_window w))) /\
  heard l (is LGBLOCK) = Some (Num (w_block w)) /\
  heard l (is QUALITY) = Some (Num (w_quality w)) /\
  heard l (is Q9_5) = (if w_95 w then Some (Num 1) else None) /\
  heard l (is METABLOCK_CALLBACK) = Some (Num 1) /\
  heard l (is CDF_ADAPTATION_DETECTION) = Some (Num (w_speedq w)) /\
  heard l (is STRIDE_DETECTION_QUALITY) = Some (Num (w_strideq w)) /\
  heard l (is LITERAL_BYTE_SCORE) = option_map Num (w_score w) /\
  heard l (is PRIOR_BITMASK_DETECTION) = Some (Num (w_prior w)) /\
  heard l (is MODE) = option_map prior_name (w_mode w) /\
  forall place, (place < 4)%nat ->
    heard l (is (inc_param place)) = option_map (fun s => Num (fst s)) (w_speed w place) /\
    heard l (is (lim_param place)) = option_map (fun s => Num (snd s)) (w_speed w place).

(** ** Through the C API *)
(** the last value set for a selector *)
Definition last_set (sel : Z) (l : list (Z * Z)) : option Z := fold_left (fun a x => if fst x =? sel then Some (snd x) else a) l None.
Definition or_else (o : option Z) (d : Z) : Z := match o with Some v => v | None => d end.
(** the selectors of the four speeds; a speed is named by its number in the palette *)
Definition speed_selector (place : nat) : Z := match place with 0%nat => 14 | 1%nat => 12 | 2%nat => 13 | _ => 8 end.
Definition speed_set (l : list (Z * Z)) (place : nat) : option (Z * Z) :=
  option_map (fun v => nth (Z.to_nat v) PALETTE (0, 0))
    match last_set (speed_selector place) l with
    | Some v => Some v
    | None => option_map snd (find (fun x => (fst x =? 8) || (fst x =? 12) || (fst x =? 13) || (fst x =? 14)) l)
    end.
Definition api_wish (l : list (Z * Z)) : wish :=
  WISH (let v := or_else (last_set 2 l) 22 in if v <? 2 ^ 31 then v else v - 2 ^ 32) (or_else (last_set 3 l) 22) (or_else (last_set 1 l) 11 mod 65536)
    (negb (or_else (last_set 18 l) 0 mod 256 =? 0)) (or_else (last_set 16 l) 0 mod 256) (or_else (last_set 10 l) 0 mod 256) (last_set 15 l)
    (or_else (last_set 17 l) 1 mod 256) (option_map (fun v => v mod 256) (last_set 19 l)) (speed_set l).
(** every setting is one of those documented, and a 32 bit number *)
Definition documented (l : list (Z * Z)) : Prop := Forall (fun x => valid_option (fst x) (snd x) /\ 0 <= snd x < 2 ^ 32) l.

(** ** On the command line *)
Import SpecArgs.
Definition speed_said (args : list arg) (place : nat) : option (Z * Z) :=
  last_said (fun a => match a with ASpeed q s => if Nat.eqb q place then Some (Some s) else None | _ => None end) None args.
(** a place for which no speed was said has one of those that were said for others *)
Definition line_speeds (args : list arg) (f : nat -> option (Z * Z)) : Prop :=
  forall place, (place < 4)%nat ->
    match speed_said args place with
    | Some s => f place = Some s
    | None => if said (fun a => match a with ASpeed _ _ => true | _ => false end) args then exists q s, In (ASpeed q s) args /\ f place = Some s else f place = None
    end.
Definition line_wish (args : list arg) (f : nat -> option (Z * Z)) : wish :=
  WISH (last_said (fun a => match a with AWindow n => Some n | _ => None end) 22 args)
    (last_said (fun a => match a with ABlock n => Some n | _ => None end) 22 args)
    (last_said (fun a => match a with AQuality n => Some n | ANineFive x => Some (if x then 11 else 10) | _ => None end) 11 args)
    (said (fun a => match a with ANineFive _ => true | _ => false end) args)
    (if said (fun a => match a with AFindSpeed => true | _ => false end) args then 1 else 0)
    (last_said (fun a => match a with ABrotliStride q => Some q | _ => None end) 0 args)
    (number (fun a => match a with AScore n => Some n | _ => None end) args None)
    (if last_said (fun a => match a with AFindPrior b => Some b | _ => None end) true args then 1 else 0)
    (number (fun a => match a with AMode m => Some m | _ => None end) args None) f.
(** every speed said is one of the palette *)
Definition palette_only (args : list arg) : Prop := forall place s, In (ASpeed place s) args -> In s PALETTE.
