(** The textual command format, described independently of its parser. *)
From Coq Require Import String Ascii.
From Verif Require Import Prelude ModelMux ModelCdf ModelCmd ModelTool ModelText.

(** A decimal numeral: one or more digits. *)
Definition digit (c : Z) : Prop := 48 <= c <= 57.
Definition value (s : list Z) : Z := fold_left (fun a c => 10 * a + (c - 48)) s 0.
Definition numeral (n : Z) (s : list Z) : Prop := s <> [] /\ Forall digit s /\ value s = n.
(** Bytes written as pairs of hexadecimal digits, of either case. *)
Definition hex_digit (v c : Z) : Prop := 0 <= v <= 9 /\ c = 48 + v \/ 10 <= v <= 15 /\ (c = 55 + v \/ c = 87 + v).
Inductive hex_text : list Z -> list Z -> Prop :=
| hx_nil : hex_text [] []
| hx_cons h l b c1 c2 s : hex_digit h c1 -> hex_digit l c2 -> hex_text b s -> hex_text (16 * h + l :: b) (c1 :: c2 :: s).
(** Bytes written as characters; a backslash before n, r, t, itself, either quotation
    mark or a question mark stands for that character of C, before xHH for any byte. *)
Inductive quoted_text : list Z -> list Z -> Prop :=
| qt_nil : quoted_text [] []
| qt_plain c b s : c <> 34 -> c <> 92 -> quoted_text b s -> quoted_text (c :: b) (c :: s)
| qt_escape e c b s : In (e, c) [(110, 10); (114, 13); (116, 9); (92, 92); (39, 39); (34, 34); (63, 63)] -> quoted_text b s -> quoted_text (c :: b) (92 :: e :: s)
| qt_hex h l b c1 c2 s : hex_digit h c1 -> hex_digit l c2 -> quoted_text b s -> quoted_text (16 * h + l :: b) (92 :: 120 :: c1 :: c2 :: s).
Definition literal_text (data s : list Z) : Prop := hex_text data s \/ exists q, quoted_text data q /\ s = [34] ++ q ++ [34].
(** A word holds no space; a line is words with a space between. *)
Definition word (w : list Z) : Prop := ~ In 32 w.
Fixpoint line (ws : list (list Z)) : list Z := match ws with [] => [] | [w] => w | w :: ws => w ++ [32] ++ line ws end.

(** The sections of a prediction mode: a key and numerals. *)
Definition speed_keys : list (list Z) := [str "cmspeedinc"; str "cmspeedmax"; str "stspeedinc"; str "stspeedmax"; str "mxspeedinc"; str "mxspeedmax"].
Definition good_section (s : list Z * list (list Z)) : Prop :=
  let '(key, toks) := s in
  let each top := Forall (fun t => exists n, numeral n t /\ n <= top) toks in
  key = str "lcontextmap" /\ each 255 \/ key = str "dcontextmap" /\ each 255 \/
  key = str "mixingvalues" /\ each 8 /\ zlen toks <= 8192 \/
  In key speed_keys /\ each 16384 /\ zlen toks <= 2.
(** the numbers of the (first) section [key], none if it is not there *)
Definition numbers_of (key : list Z) (secs : list (list Z * list (list Z))) : list Z :=
  match find (fun s => same (fst s) key) secs with Some (_, toks) => map value toks | None => [] end.
Definition speeds_of (inc max : list Z) (secs : list (list Z * list (list Z))) : list (Z * Z) :=
  let at_ i k := speed_to_u8 (nth i (numbers_of k secs) 0) in [(at_ 0%nat inc, at_ 0%nat max); (at_ 1%nat inc, at_ 1%nat max)].
Definition mode_of (secs : list (list Z * list (list Z))) (mode : Z) : predmode :=
  let mix := numbers_of (str "mixingvalues") secs in
  PM (numbers_of (str "lcontextmap") secs) (numbers_of (str "dcontextmap") secs)
     (mix ++ repeat 0 (Z.to_nat (8192 - zlen mix))) mode 0 0
     (speeds_of (str "stspeedinc") (str "stspeedmax") secs)
     (speeds_of (str "cmspeedinc") (str "cmspeedmax") secs)
     (speeds_of (str "mxspeedinc") (str "mxspeedmax") secs) true.

(** The line [s] describes the command. *)
Inductive describes : command -> list Z -> Prop :=
| ds_copy n d sn sd more : numeral n sn -> numeral d sd -> 0 < n < 2 ^ 32 -> d < 2 ^ 32 -> Forall word more ->
    describes (Copy d n) (line ([str "copy"; sn; str "from"; sd] ++ more))
| ds_dict len id t fin slen sid st sfin mid more :
    numeral len slen -> numeral id sid -> numeral t st -> numeral fin sfin -> len < 256 -> id < 2 ^ 32 -> t < 256 -> fin < 256 ->
    Forall word mid -> ~ In (str "func") mid -> Forall word more ->
    describes (Dict len id t fin) (line ([str "dict"; sfin; str "word"; slen ++ [44] ++ sid] ++ mid ++ [str "func"; st] ++ more))
| ds_insert data (e : bool) sn text : data <> [] -> numeral (zlen data) sn -> zlen data < 2 ^ 64 -> literal_text data text ->
    describes (Literal data e) ((if e then str "rndins" else str "insert") ++ [32] ++ sn ++ [32] ++ text)
| ds_ctype t st : numeral t st -> t < 256 -> describes (BlockSwitchCommand t) (line [str "ctype"; st])
| ds_dtype t st : numeral t st -> t < 256 -> describes (BlockSwitchDistance t) (line [str "dtype"; st])
| ds_ltype t st k sk : numeral t st -> t < 256 -> numeral k sk -> k <= 8 -> describes (BlockSwitchLiteral t k) (line [str "ltype"; st; sk])
| ds_prediction mode name secs : In (name, mode) [(str "lsb6", 0); (str "msb6", 1); (str "utf8", 2); (str "sign", 3)] ->
    Forall good_section secs ->
    describes (PredictionMode (mode_of secs mode)) (line (str "prediction" :: name :: concat (map (fun s => fst s :: snd s) secs))).
(** The line [s] stands for no command. *)
Inductive says_nothing : list Z -> Prop :=
| sn_window more : Forall word more -> says_nothing (line (str "window" :: more))
| sn_insert (e : bool) : says_nothing (line [if e then str "rndins" else str "insert"; str "0"])
| sn_insert_more (e : bool) sn text : numeral 0 sn -> says_nothing ((if e then str "rndins" else str "insert") ++ [32] ++ sn ++ [32] ++ text)
| sn_copy sn d sd more : numeral 0 sn -> numeral d sd -> d < 2 ^ 32 -> Forall word more -> says_nothing (line ([str "copy"; sn; str "from"; sd] ++ more)).

(** ** Whole texts *)
(** [l] is the line [s], possibly with white space around it, [s] itself having none at
    its ends. *)
Definition padded (s l : list Z) : Prop :=
  exists before after c1 c2 m, l = before ++ s ++ after /\ forallb space before = true /\ forallb space after = true /\
    (s = [c1] /\ m = [] /\ c2 = c1 \/ s = c1 :: m ++ [c2]) /\ space c1 = false /\ space c2 = false.
(** the lines of a list of commands; reads may be interrupted, and lines that say nothing
    may be between *)
Inductive script : list command -> list line_event -> Prop :=
| sc_nil : script [] []
| sc_intr cmds src : script cmds src -> script cmds (LnIntr :: src)
| sc_skip s l cmds src : says_nothing s -> padded s l -> script cmds src -> script cmds (LnText l :: src)
| sc_cmd c s l cmds src : describes c s -> padded s l -> script cmds src -> script (c :: cmds) (LnText l :: src).
(** a text: the window line, then the commands *)
Inductive text : Z -> list command -> list line_event -> Prop :=
| tx_intr w cmds src : text w cmds src -> text w cmds (LnIntr :: src)
| tx_window w sw more l cmds src : numeral w sw -> w < 2 ^ 31 -> Forall word more -> padded (line (str "window" :: sw :: more)) l ->
    script cmds src -> text w cmds (LnText l :: src).
(** No write fails or takes nothing. *)
Definition good_output (evs : list wevent) : Prop := Forall (fun e => match e with WTake n => 0 < n | WIntr => True | WFault => False end) evs.
