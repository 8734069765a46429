(** Exactly the lines the textual format's reader accepts, described without its parser:
    the format of SpecText with the liberties the reader takes. *)
From Coq Require Import String Ascii.
From Verif Require Import Prelude ModelMux ModelCdf ModelCmd ModelText SpecText.

(** A number: a numeral, a plus sign may be before it. *)
Definition count (top n : Z) (s : list Z) : Prop := n <= top /\ exists d, numeral n d /\ (s = d \/ s = 43 :: d).
(** An integer of 64 bits: either sign may be before it. *)
Definition integer (n : Z) (s : list Z) : Prop :=
  count (2 ^ 63 - 1) n s \/ - 2 ^ 63 <= n /\ exists d, numeral (- n) d /\ s = 45 :: d.
(** Tabs and line ends between hexadecimal digits do not matter. *)
Definition visible (c : Z) : bool := negb ((c =? 10) || (c =? 9) || (c =? 13)).
Definition data_text (data s : list Z) : Prop :=
  hex_text data (filter visible s) \/ exists q, quoted_text data q /\ s = [34] ++ q ++ [34].
(** [rest]: the words after the first [key], none if there is no [key] *)
Definition follows (key : list Z) (words rest : list (list Z)) : Prop :=
  (exists pre, words = pre ++ key :: rest /\ ~ In key pre) \/ (~ In key words /\ rest = []).
(** The numbers listed after [key], up to the first word that is no integer; all are
    between 0 and [top]. *)
Definition listed (top : Z) (key : list Z) (words : list (list Z)) (l : list Z) : Prop :=
  exists ts rest, follows key words (ts ++ rest) /\ Forall2 (fun n t => integer n t /\ 0 <= n <= top) l ts /\
    forall w more, rest = w :: more -> ~ exists n, integer n w.
(** Up to two speeds after [key]; what is not given is 0. *)
Definition two_speeds (key : list Z) (words : list (list Z)) (x y : Z) : Prop :=
  exists l ts rest, follows key words (ts ++ rest) /\ Forall2 (count 16384) l ts /\ x = nth 0 l 0 /\ y = nth 1 l 0 /\
    (zlen l = 2 \/ zlen l < 2 /\ forall w more, rest = w :: more -> ~ exists n, count 65535 n w).
(** the codes under which speeds are kept *)
Definition kept (i0 i1 m0 m1 : Z) : list (Z * Z) := [(speed_to_u8 i0, speed_to_u8 m0); (speed_to_u8 i1, speed_to_u8 m1)].

(** The line is read as the command. *)
Inductive accepts : command -> list Z -> Prop :=
| ac_copy n d sn sd more : count (2 ^ 32 - 1) n sn -> count (2 ^ 32 - 1) d sd -> n <> 0 -> Forall word more ->
    accepts (Copy d n) (line ([str "copy"; sn; str "from"; sd] ++ more))
| ac_dict len id t fin slen sid st sfin mid more :
    count (2 ^ 32 - 1) len slen -> count (2 ^ 32 - 1) id sid -> count (2 ^ 32 - 1) t st -> count (2 ^ 32 - 1) fin sfin ->
    Forall word mid -> ~ In (str "func") mid -> Forall word more ->
    accepts (Dict (len mod 256) id (t mod 256) (fin mod 256)) (line ([str "dict"; sfin; str "word"; slen ++ [44] ++ sid] ++ mid ++ [str "func"; st] ++ more))
| ac_insert data (e : bool) sn text : data <> [] -> count (2 ^ 64 - 1) (zlen data) sn -> data_text data text ->
    accepts (Literal data e) ((if e then str "rndins" else str "insert") ++ [32] ++ sn ++ [32] ++ text)
| ac_ctype t st : count (2 ^ 32 - 1) t st -> accepts (BlockSwitchCommand (t mod 256)) (line [str "ctype"; st])
| ac_dtype t st : count (2 ^ 32 - 1) t st -> accepts (BlockSwitchDistance (t mod 256)) (line [str "dtype"; st])
| ac_ltype t st k sk : count (2 ^ 32 - 1) t st -> count 8 k sk -> accepts (BlockSwitchLiteral (t mod 256) k) (line [str "ltype"; st; sk])
| ac_prediction mode name words lit dist mix ci0 ci1 cm0 cm1 si0 si1 sm0 sm1 mi0 mi1 mm0 mm1 :
    In (name, mode) [(str "lsb6", 0); (str "msb6", 1); (str "utf8", 2); (str "sign", 3)] -> Forall word words ->
    listed 255 (str "lcontextmap") words lit -> listed 255 (str "dcontextmap") words dist ->
    listed 8 (str "mixingvalues") words mix -> zlen mix <= 8192 ->
    two_speeds (str "cmspeedinc") words ci0 ci1 -> two_speeds (str "cmspeedmax") words cm0 cm1 ->
    two_speeds (str "stspeedinc") words si0 si1 -> two_speeds (str "stspeedmax") words sm0 sm1 ->
    two_speeds (str "mxspeedinc") words mi0 mi1 -> two_speeds (str "mxspeedmax") words mm0 mm1 ->
    accepts (PredictionMode (PM lit dist (mix ++ repeat 0 (Z.to_nat (8192 - zlen mix))) mode 0 0
               (kept si0 si1 sm0 sm1) (kept ci0 ci1 cm0 cm1) (kept mi0 mi1 mm0 mm1) true))
            (line (str "prediction" :: name :: words)).
(** The line is read as nothing. *)
Inductive ignored : list Z -> Prop :=
| ig_window more : Forall word more -> ignored (line (str "window" :: more))
| ig_insert (e : bool) : ignored (line [if e then str "rndins" else str "insert"; str "0"])
| ig_insert_more (e : bool) sn text : count 0 0 sn -> ignored ((if e then str "rndins" else str "insert") ++ [32] ++ sn ++ [32] ++ text)
| ig_copy sn d sd more : count 0 0 sn -> count (2 ^ 32 - 1) d sd -> Forall word more -> ignored (line ([str "copy"; sn; str "from"; sd] ++ more)).
