(** The textual command format and the tool's loops over it.  src/bin/divans.rs,
    src/bin/util.rs.  Text is a list of byte values; the model is for ASCII text (the
    code works on UTF-8 strings and differs only in which characters [trim] removes). *)
From Coq Require Import String Ascii.
From Verif Require Import Prelude ModelMux ModelCdf ModelCmd ModelHeader ModelRecode ModelPriors ModelCodec ModelPm ModelTop ModelEnc ModelTool.

Definition str (s : string) : list Z := map (fun a => Z.of_N (N_of_ascii a)) (list_ascii_of_string s).
Fixpoint same (a b : list Z) : bool :=
  match a, b with [], [] => true | x :: a, y :: b => (x =? y) && same a b | _, _ => false end.
(** str::split(char) *)
Fixpoint split (c : Z) (s : list Z) : list (list Z) :=
  match s with
  | [] => [[]]
  | x :: s => if x =? c then [] :: split c s else match split c s with t :: ts => (x :: t) :: ts | [] => [[x]] end
  end.
(** str::trim *)
Definition space (c : Z) : bool := ((9 <=? c) && (c <=? 13)) || (c =? 32).
Fixpoint trim_start (s : list Z) : list Z := match s with c :: t => if space c then trim_start t else s | [] => [] end.
Definition trim (s : list Z) : list Z := rev (trim_start (rev (trim_start s))).

(** str::parse of the integer types (core::num::from_str_radix): an optional sign, then
    digits, an error on overflow *)
Fixpoint digits (max acc : Z) (s : list Z) : option Z :=
  match s with
  | [] => Some acc
  | c :: s => if (48 <=? c) && (c <=? 57) then (let a := acc * 10 + (c - 48) in if a <=? max then digits max a s else None) else None
  end.
Definition some_digits (max : Z) (s : list Z) : option Z := match s with [] => None | _ => digits max 0 s end.
Definition parse_unsigned (max : Z) (s : list Z) : option Z :=
  match s with c :: t => if c =? 43 then some_digits max t else some_digits max s | [] => None end.
Definition parse_signed (max : Z) (s : list Z) : option Z :=
  match s with
  | c :: t => if c =? 43 then some_digits max t else if c =? 45 then option_map Z.opp (some_digits (max + 1) t) else some_digits max s
  | [] => None
  end.
Definition parse_u16 := parse_unsigned 65535.
Definition parse_u32 := parse_unsigned 4294967295.
Definition parse_usize := parse_unsigned 18446744073709551615.
Definition parse_i32 := parse_signed 2147483647.
Definition parse_i64 := parse_signed 9223372036854775807.

(** hex_to_nibble, src/bin/util.rs:166-176 *)
Definition hex_to_nibble (c : Z) : option Z :=
  if (65 <=? c) && (c <=? 70) then Some (c - 65 + 10)
  else if (97 <=? c) && (c <=? 102) then Some (c - 97 + 10)
  else if (48 <=? c) && (c <=? 57) then Some (c - 48)
  else None.
(** hex_slice_to_vec, src/bin/util.rs:259-286; [rem], [buf] as in the code *)
Fixpoint hex_loop (s : list Z) (rem : bool) (buf : Z) : option (list Z) :=
  match s with
  | [] => if rem then None else Some []
  | c :: s =>
      match hex_to_nibble c with
      | Some b =>
          let buf := Z.lor (Z.land (Z.shiftl buf 4) 255) b in
          if rem then option_map (cons buf) (hex_loop s false buf) else hex_loop s true buf
      | None => if (c =? 10) || (c =? 9) || (c =? 13) then hex_loop s rem buf else None
      end
  end.
Definition hex_slice_to_vec (s : list Z) : option (list Z) := hex_loop s false 0.
(** the loop of quoted_slice_to_vec, src/bin/util.rs:177-245 *)
Fixpoint quoted_loop (s : list Z) (must_end escaped hexed : bool) (upper : option Z) : option (list Z) :=
  match s with
  | [] => if hexed || escaped || negb must_end then None else Some []
  | c :: s =>
      if must_end then None
      else if (c =? 34) && negb escaped then quoted_loop s true escaped hexed upper
      else if (c =? 92) && negb escaped then quoted_loop s must_end true hexed upper
      else if escaped then
        if hexed then
          match hex_to_nibble c with
          | Some nib =>
              match upper with
              | Some u => option_map (cons (Z.lor (Z.land (Z.shiftl u 4) 255) nib)) (quoted_loop s must_end false false None)
              | None => quoted_loop s must_end escaped hexed (Some nib)
              end
          | None => None
          end
        else if c =? 120 then quoted_loop s must_end escaped true upper
        else
          let out b := option_map (cons b) (quoted_loop s must_end false hexed upper) in
          if c =? 110 then out 10 else if c =? 114 then out 13 else if c =? 116 then out 9
          else if c =? 92 then out 92 else if c =? 39 then out 39 else if c =? 34 then out 34 else if c =? 63 then out 63
          else None
      else option_map (cons c) (quoted_loop s must_end escaped hexed upper)
  end.
Definition quoted_slice_to_vec (s : list Z) : option (list Z) :=
  if zlen s <? 2 then None else quoted_loop (tl s) false false false None.
(** literal_slice_to_vec, src/bin/util.rs:249-258 *)
Definition literal_slice_to_vec (s : list Z) : option (list Z) :=
  match s with [] => Some [] | c :: _ => if c =? 34 then quoted_slice_to_vec s else hex_slice_to_vec s end.

(** Result of command_parse: Ok(None), Ok(Some(c)), Err, a panic *)
Inductive parsed := PNone | PCmd (c : command) | PErr | PPanic.
Definition num (o : option Z) (k : Z -> parsed) : parsed := match o with Some v => k v | None => PErr end.
Definition u8 (x : Z) : Z := Z.land x 255.
(** the tokens after the first one equal to [key] (find, split_at) *)
Fixpoint after (key : list Z) (toks : list (list Z)) : list (list Z) :=
  match toks with [] => [] | t :: ts => if same t key then ts else after key ts end.
(** numbers up to the first token that is none; [None]: one is out of range, or there
    are more than [most].  src/bin/divans.rs:217-235, 238-256, 258-285 *)
Fixpoint numbers (most : option nat) (top : Z) (toks : list (list Z)) : option (list Z) :=
  match toks with
  | [] => Some []
  | t :: ts =>
      match parse_i64 t with
      | None => Some []
      | Some v =>
          match most with
          | Some O => None
          | _ => if (v <=? top) && (0 <=? v) then option_map (cons v) (numbers (option_map Nat.pred most) top ts) else None
          end
      end
  end.
(** two speeds, src/bin/divans.rs:294-313 *)
Definition speed_pair (toks : list (list Z)) : option (Z * Z) :=
  match toks with
  | [] => Some (0, 0)
  | a :: toks =>
      match parse_u16 a with
      | None => Some (0, 0)
      | Some x =>
          if 16384 <? x then None else
          match toks with
          | [] => Some (x, 0)
          | b :: _ => match parse_u16 b with None => Some (x, 0) | Some y => if 16384 <? y then None else Some (x, y) end
          end
      end
  end.
(** set_context_map_speed and its siblings (brotli crate): both pairs stored as codes *)
Definition stored (inc max : Z * Z) : list (Z * Z) :=
  [(speed_to_u8 (fst inc), speed_to_u8 (fst max)); (speed_to_u8 (snd inc), speed_to_u8 (snd max))].
Definition of_opt {A} (o : option A) (k : A -> parsed) : parsed := match o with Some a => k a | None => PErr end.
(** the arm of "prediction", src/bin/divans.rs:199-319 *)
Definition parse_prediction (v : list (list Z)) : parsed :=
  match v with
  | _ :: m :: _ =>
      of_opt (if same m (str "utf8") then Some 2 else if same m (str "sign") then Some 3
              else if same m (str "lsb6") then Some 0 else if same m (str "msb6") then Some 1 else None) (fun mode =>
      of_opt (numbers None 255 (after (str "lcontextmap") v)) (fun lit =>
      of_opt (numbers None 255 (after (str "dcontextmap") v)) (fun dist =>
      of_opt (numbers (Some (Z.to_nat 8192)) 8 (after (str "mixingvalues") v)) (fun mix =>
      of_opt (speed_pair (after (str "cmspeedinc") v)) (fun ci =>
      of_opt (speed_pair (after (str "cmspeedmax") v)) (fun cx =>
      of_opt (speed_pair (after (str "stspeedinc") v)) (fun si =>
      of_opt (speed_pair (after (str "stspeedmax") v)) (fun sx =>
      of_opt (speed_pair (after (str "mxspeedinc") v)) (fun mi =>
      of_opt (speed_pair (after (str "mxspeedmax") v)) (fun mx =>
      PCmd (PredictionMode (PM lit dist (mix ++ repeat 0 (Z.to_nat (8192 - zlen mix))) mode 0 0 (stored si sx) (stored ci cx) (stored mi mx) true))))))))))))
  | _ => PErr
  end.
(** the arm of "ctype", "ltype", "dtype", src/bin/divans.rs:320-362: the stride is looked
    up although only a vector shorter than 2 is excluded *)
Definition parse_type (cmd : list Z) (v : list (list Z)) : parsed :=
  match v with
  | [_; t] =>
      num (parse_u32 t) (fun t =>
      if same cmd (str "ctype") then PCmd (BlockSwitchCommand (u8 t))
      else if same cmd (str "dtype") then PCmd (BlockSwitchDistance (u8 t)) else PPanic)
  | [_; t; s] =>
      if same cmd (str "ltype") then
        num (parse_u32 t) (fun t => num (parse_u32 s) (fun s => if 8 <? s then PErr else PCmd (BlockSwitchLiteral (u8 t) s)))
      else PErr
  | _ => PErr
  end.
(** the arm of "copy", src/bin/divans.rs:363-390 *)
Definition parse_copy_line (v : list (list Z)) : parsed :=
  match v with
  | _ :: n :: from :: d :: _ =>
      num (parse_u32 n) (fun n =>
      if same from (str "from") then num (parse_u32 d) (fun d => if n =? 0 then PNone else PCmd (Copy d n)) else PErr)
  | _ => PErr
  end.
(** the arm of "dict", src/bin/divans.rs:391-436.  [func]: the loop of 419-435 *)
Fixpoint func (toks : list (list Z)) (k : Z -> parsed) : parsed :=
  match toks with
  | a :: ((b :: _) as rest) => if same a (str "func") then num (parse_u32 b) k else func rest k
  | _ => PErr
  end.
Definition parse_dict (v : list (list Z)) : parsed :=
  match v with
  | _ :: n :: word :: id :: ((_ :: _ :: _) as rest) =>
      num (parse_u32 n) (fun n =>
      if same word (str "word") then
        match split 44 id with
        | [len; index] =>
            num (parse_u32 len) (fun len => num (parse_u32 index) (fun index =>
            func rest (fun t => PCmd (Dict (u8 len) index (u8 t) (u8 n)))))
        | _ => PErr
        end
      else PErr)
  | _ => PErr
  end.
(** the arm of "insert", "rndins", src/bin/divans.rs:437-479 without feature
    external-literal-probability: probabilities given are an error *)
Definition parse_insert (cmd s : list Z) (v : list (list Z)) : parsed :=
  match v with
  | c0 :: n0 :: d0 :: more =>
      num (parse_usize n0) (fun n =>
      if n =? 0 then PNone else
      of_opt (literal_slice_to_vec (zskip (zlen c0 + zlen n0 + 2) s)) (fun data =>
      let given := match more, d0 with p :: _, c :: _ => if c =? 34 then None else Some p | _, _ => None end in
      let probs k := match given with
                     | Some p => of_opt (hex_slice_to_vec p) (fun prob => if zlen prob =? n * 8 then k prob else PPanic)
                     | None => k [] end in
      probs (fun prob =>
      if negb (zlen data =? n) then PErr else
      match prob with [] => PCmd (Literal data (same cmd (str "rndins"))) | _ => PErr end)))
  | [_; n0] => if same n0 (str "0") then PNone else PErr
  | _ => PErr
  end.
(** command_parse, src/bin/divans.rs:191-483 *)
Definition command_parse (s : list Z) : parsed :=
  let v := split 32 s in
  match v with
  | [] => PPanic
  | cmd :: _ =>
      if same cmd (str "window") then PNone
      else if same cmd (str "prediction") then parse_prediction v
      else if same cmd (str "ctype") || same cmd (str "ltype") || same cmd (str "dtype") then parse_type cmd v
      else if same cmd (str "copy") then parse_copy_line v
      else if same cmd (str "dict") then parse_dict v
      else if same cmd (str "insert") || same cmd (str "rndins") then parse_insert cmd s v
      else PErr
  end.
(** window_parse, src/bin/divans.rs:153-174 *)
Definition window_parse (s : list Z) : option Z :=
  match split 32 s with
  | w :: n :: _ => if same w (str "window") then parse_i32 n else None
  | _ => None
  end.

(** ** The loops *)
(** What the calls of read_line return: a line (with its newline, not shown); an
    interruption; an error.  After the list: the end, Ok(0). *)
Inductive line_event := LnText (l : list Z) | LnIntr | LnFail.
(** std's write_all: retries interruptions, fails if nothing is taken *)
Fixpoint write_all (o : list Z) (evs : list wevent) : list Z * list wevent * bool :=
  match o, evs with
  | [], _ => ([], evs, true)
  | _, [] => (o, [], true)
  | _, WTake n :: evs => if n <=? 0 then ([], evs, false) else let '(got, evs, ok) := write_all (zskip n o) evs in (zfirst n o ++ got, evs, ok)
  | _, WIntr :: evs => write_all o evs
  | _, WFault :: evs => ([], evs, false)
  end.
Definition put_all (f : outfile) (o : list Z) : outfile * bool :=
  let '(got, evs, ok) := write_all o (f_evs f) in (OF (f_got f ++ got) evs, ok).

(** interface::Compressor: encode_commands (output, commands left) and flush *)
Inductive eres := ESuccess | ENeedOut | EFail.
Record consumer (P : Type) := CS {
  take : P -> list command -> Z -> option (list Z * P * list command * eres);
  finish : P -> Z -> option (list Z * P * eres) }.
Arguments take {P}. Arguments finish {P}.
(** obuffer's length, src/bin/divans.rs:534, 627 *)
Definition OBUF : Z := 65536.
(** CMD_BUFFER_SIZE, src/codec/mod.rs:22 *)
Definition CMD_BUFFER_SIZE : nat := 16.
Section Ir.
Context {P : Type} (pr : consumer P) (strict : bool).
(** [strict]: recode_inner unwraps what compress_inner passes on *)
Definition bad : tend := if strict then TPanic else TError.
(** recode_cmd_buffer, src/bin/divans.rs:485-525 *)
Fixpoint push_cmds (fuel : nat) (p : P) (cmds : list command) (f : outfile) : outfile * (P + tend) :=
  match cmds with
  | [] => (f, inl p)
  | _ =>
      match fuel with
      | O => (f, inr TSpin)
      | S fuel =>
          match take pr p cmds OBUF with
          | None => (f, inr TPanic)
          | Some (o, p, rest, r) =>
              if OBUF <? zlen o then (f, inr TPanic) else
              match r with
              | ESuccess =>
                  match rest with
                  | [] => let '(f, ok) := put_all f o in (f, if ok then inl p else inr bad)
                  | _ => (f, inr TPanic)
                  end
              | ENeedOut =>
                  if zlen o =? 0 then (f, inr TPanic) else
                  let '(f, ok) := put_all f o in
                  if ok then push_cmds fuel p rest f else (f, inr bad)
              | EFail => (f, inr bad)
              end
          end
      end
  end.
(** the flush loop, src/bin/divans.rs:581-606, 683-707 *)
Fixpoint ir_flush (fuel : nat) (p : P) (f : outfile) : outfile * tend :=
  match fuel with
  | O => (f, TSpin)
  | S fuel =>
      match finish pr p OBUF with
      | None => (f, TPanic)
      | Some (o, p, r) =>
          if OBUF <? zlen o then (f, TPanic) else
          match r with
          | ESuccess => let '(f, ok) := put_all f o in (f, if ok then TDone else TError)
          | ENeedOut =>
              if zlen o =? 0 then (f, TPanic) else
              let '(f, ok) := put_all f o in
              if ok then ir_flush fuel p f else (f, TError)
          | EFail => (f, TError)
          end
      end
  end.
(** recode_inner, src/bin/divans.rs:527-608; compress_inner, 614-708 *)
Fixpoint ir_loop (fuel : nat) (src : list line_event) (p : P) (buf : list command) (f : outfile) : outfile * tend :=
  match src with
  | LnIntr :: src => ir_loop fuel src p buf f
  | LnFail :: _ => (f, TError)
  | [] =>
      match push_cmds fuel p buf f with
      | (f, inl p) => ir_flush fuel p f
      | (f, inr e) => (f, e)
      end
  | LnText l :: src =>
      let go p buf f :=
        match command_parse (trim l) with
        | PNone => ir_loop fuel src p buf f
        | PCmd c => ir_loop fuel src p (buf ++ [c]) f
        | PErr => (f, bad)
        | PPanic => (f, TPanic)
        end in
      if Nat.eqb (length buf) CMD_BUFFER_SIZE then
        match push_cmds fuel p buf f with
        | (f, inl p) => go p [] f
        | (f, inr e) => (f, e)
        end
      else go p buf f
  end.
End Ir.
(** the first line, src/bin/divans.rs:952-967, 1113-1128; [None]: a read failed *)
Fixpoint first_line (src : list line_event) : option (list Z * list line_event) :=
  match src with
  | [] => Some ([], [])
  | LnText l :: src => Some (l, src)
  | LnIntr :: src => first_line src
  | LnFail :: _ => None
  end.
Definition enc_eres (r : cres) : eres := match r with RSuccess => ESuccess | RNeedsMoreOutput => ENeedOut | _ => EFail end.
Section Instances.
Context (dict : dict_fn) (wl : word_len_fn) (D : dims) (g : cfg).
(** the compressor *)
Definition commands_compressor (fuel : nat) : consumer compressor := CS compressor
  (fun s cmds room => let? '(o, s, rest, r) := ModelEnc.encode_commands dict wl D g fuel s cmds room in Some (o, s, rest, enc_eres r))
  (fun s room => let? '(o, s, r) := ModelEnc.flush dict wl D g fuel s room in Some (o, s, enc_eres r)).
(** DivansRecodeState *)
Definition rec_eres (r : ores) : eres := match r with ModelRecode.OSuccess => ESuccess | ModelRecode.ONeedsMoreOutput => ENeedOut | _ => EFail end.
Definition recoder (fuel : nat) : consumer rcs := CS rcs
  (fun r cmds room => let? '(res, o, r, k) := ModelRecode.encode_commands fuel dict r cmds room in Some (o, r, skipn k cmds, rec_eres res))
  (fun r room => let? '(res, o, r) := rflush r room in Some (o, r, rec_eres res)).
(** compress_ir, src/bin/divans.rs:945-978 *)
Definition tool_compress_ir (fuel n : nat) (src : list line_event) (f : outfile) : outfile * tend :=
  match first_line src with
  | None => (f, TError)
  | Some (l, src) =>
      match window_parse (trim l) with
      | None => (f, TError)
      | Some w => ir_loop (commands_compressor fuel) false n src (compressor_new D (Some w)) [] f
      end
  end.
(** recode, src/bin/divans.rs:1108-1192 *)
Definition tool_recode (fuel n : nat) (src : list line_event) (f : outfile) : outfile * tend :=
  match first_line src with
  | None => (f, TError)
  | Some (l, src) =>
      match window_parse (trim l) with
      | None => (f, TPanic)
      | Some w =>
          if (10 <=? w) && (w <=? 24) then ir_loop (recoder fuel) true n src (rc_new (repeat 0 (Z.to_nat (2 ^ w)))) [] f
          else (f, TError)
      end
  end.
End Instances.
