(** Model of the example program for the C interface: c/example.c with c/vec_u8.h,
    c/arg.h and custom_atoi of c/custom_alloc.h, over the calls of ModelCapi.  Memory is
    never short.  The allocator is in ModelCustomAlloc. *)
From Verif Require Import Prelude ModelFfi ModelMux ModelCmd ModelRecode ModelPriors ModelCodec ModelPm ModelTop ModelEnc ModelDec ModelRaw ModelRawEnc ModelThread ModelHybrid ModelToolThread ModelCapi.
From Verif Require ModelIo.

(** a size_t or uint64_t *)
Definition u64 (x : Z) : Z := x mod 2 ^ 64.
(** struct VecU8, c/vec_u8.h:1-4; the memory behind [data] is [None] for NULL, and a cell
    is [None] until it is written *)
Record vec := VEC { v_data : option (list (option Z)); v_size : Z }.
(** new_vec_u8, c/vec_u8.h:5-10 *)
Definition new_vec : vec := VEC None 0.
(** round_up_to_power_of_two, c/vec_u8.h:11-25 *)
Definition smear (v : Z) (k : Z) : Z := Z.lor v (Z.shiftr v k).
Definition round_up (v : Z) : Z :=
  let v := u64 (v - 1) in
  let v := smear v 1 in
  let v := smear v 2 in
  let v := smear v 4 in
  let v := smear v 8 in
  let v := smear v 16 in
  let v := smear v 32 in
  u64 (v + 1).
(** memcpy into fresh memory of [n] cells of the first [k] cells at [data]; [None] if one of
    the two has fewer.  Copying no cells from NULL is taken to do nothing. *)
Definition copied (n k : Z) (data : option (list (option Z))) : option (list (option Z)) :=
  let old := match data with None => [] | Some l => l end in
  assert ((k <=? n) && (k <=? zlen old)) (Some (zfirst k old ++ repeat None (Z.to_nat (n - k)))).
(** push_vec_u8, c/vec_u8.h:28-52; [None]: abort, or an access outside the memory *)
Definition push_vec (v : vec) (data : list Z) : option vec :=
  let size := zlen data in
  let new_size := u64 (v_size v + size) in
  if (size =? 0) || (new_size <? v_size v) then Some v else
  let new_alloc := round_up new_size in
  let old_alloc := round_up (v_size v) in
  let? mem :=
    if (v_size v =? 0) || negb (old_alloc =? new_alloc)
    then copied new_alloc (if new_alloc <? old_alloc then new_alloc else old_alloc) (v_data v)
    else v_data v in
  if new_alloc <? new_size then None else
  assert (v_size v + size <=? zlen mem)
    (Some (VEC (Some (zfirst (v_size v) mem ++ map Some data ++ zskip (v_size v + size) mem)) new_size)).
(** the bytes data[0] .. data[size - 1]; [None] if one is not there or was never written *)
Fixpoint written (l : list (option Z)) : option (list Z) :=
  match l with
  | [] => Some []
  | None :: _ => None
  | Some x :: l => let? t := written l in Some (x :: t)
  end.
Definition bytes_of (v : vec) : option (list Z) :=
  if v_size v =? 0 then Some [] else
  let? mem := v_data v in
  assert (v_size v <=? zlen mem) (written (zfirst (v_size v) mem)).

(** c/arg.h:1-9 is the choice of the file; this is set_options, c/arg.h:10-75: the calls of
    divans_set_option in order.  A string is the list of its characters without the
    final zero. *)
Fixpoint starts_with (p s : list Z) : bool :=
  match p, s with
  | [], _ => true
  | x :: p, y :: s => (x =? y) && starts_with p s
  | _, _ => false
  end.
(** atoi and the conversion of its int to uint32_t; exact where atoi is defined *)
Fixpoint digits (a : Z) (s : list Z) : Z :=
  match s with
  | c :: s => if (48 <=? c) && (c <=? 57) then digits (10 * a + (c - 48)) s else a
  | [] => a
  end.
Definition is_space (c : Z) : bool := (c =? 32) || ((9 <=? c) && (c <=? 13)).
Fixpoint atoi (s : list Z) : Z :=
  match s with
  | [] => 0
  | c :: t => if is_space c then atoi t else if c =? 45 then - digits 0 t else if c =? 43 then digits 0 t else digits 0 s
  end.
Definition atoi_u32 (s : list Z) : Z := atoi s mod 2 ^ 32.
(** the selectors, c/divans/ffi.h:15-33 *)
Definition DIVANS_OPTION_QUALITY : Z := 1.
Definition DIVANS_OPTION_WINDOW_SIZE : Z := 2.
Definition DIVANS_OPTION_DYNAMIC_CONTEXT_MIXING : Z := 4.
Definition DIVANS_OPTION_USE_BROTLI_COMMAND_SELECTION : Z := 5.
Definition DIVANS_OPTION_USE_CONTEXT_MAP : Z := 7.
Definition DIVANS_OPTION_LITERAL_ADAPTATION_CM_HIGH : Z := 8.
Definition DIVANS_OPTION_FORCE_STRIDE_VALUE : Z := 9.
Definition DIVANS_OPTION_STRIDE_DETECTION_QUALITY : Z := 10.
Definition DIVANS_OPTION_PRIOR_BITMASK_DETECTION : Z := 17.
Definition DIVANS_OPTION_FORCE_LITERAL_CONTEXT_MODE : Z := 19.
(** c/arg.h:14-52, one argument: -q, -p, -l, -w, -a, -cm, -bs, -as.  The condition in line
    39 compares a pointer with 0 and always holds. *)
Definition opt_first (a : list Z) : list (Z * Z) :=
  (if starts_with [45; 113] a then [(DIVANS_OPTION_QUALITY, atoi_u32 (skipn 2 a))] else []) ++
  (if starts_with [45; 112] a then [(DIVANS_OPTION_PRIOR_BITMASK_DETECTION, atoi_u32 (skipn 2 a))] else []) ++
  (if starts_with [45; 108] a then [(DIVANS_OPTION_USE_BROTLI_COMMAND_SELECTION, 0)] else []) ++
  (if starts_with [45; 119] a then [(DIVANS_OPTION_WINDOW_SIZE, atoi_u32 (skipn 2 a))] else []) ++
  (if starts_with [45; 97] a then [(DIVANS_OPTION_LITERAL_ADAPTATION_CM_HIGH, atoi_u32 (skipn 2 a))] else []) ++
  (if starts_with [45; 99; 109] a then [(DIVANS_OPTION_USE_CONTEXT_MAP, 1); (DIVANS_OPTION_FORCE_LITERAL_CONTEXT_MODE, atoi_u32 (skipn 3 a))] else []) ++
  (if starts_with [45; 98; 115] a then [(DIVANS_OPTION_STRIDE_DETECTION_QUALITY, 1)] else []) ++
  (if starts_with [45; 97; 115] a then [(DIVANS_OPTION_STRIDE_DETECTION_QUALITY, 2)] else []).
(** c/arg.h:53-64: -s *)
Definition opt_stride (used_cm : bool) (a : list Z) : list (Z * Z) :=
  if starts_with [45; 115] a then
    (if used_cm then [(DIVANS_OPTION_DYNAMIC_CONTEXT_MIXING, 1)] else []) ++
    (match skipn 2 a with [] => [] | n => [(DIVANS_OPTION_FORCE_STRIDE_VALUE, atoi_u32 n)] end)
  else [].
(** c/arg.h:65-74: -m *)
Definition opt_mixing (a : list Z) : list (Z * Z) :=
  if starts_with [45; 109] a then
    match skipn 2 a with [] => [(DIVANS_OPTION_DYNAMIC_CONTEXT_MIXING, 2)] | n => [(DIVANS_OPTION_DYNAMIC_CONTEXT_MIXING, atoi_u32 n)] end
  else [].
(** the arguments after the name of the program *)
Definition options_of (args : list (list Z)) : list (Z * Z) :=
  flat_map opt_first args ++
  flat_map (opt_stride (existsb (starts_with [45; 99; 109]) args)) args ++
  flat_map opt_mixing args.
(** each call is followed by an assertion that it returned DIVANS_SUCCESS *)
Fixpoint set_options {X} (s : cstate X) (l : list (Z * Z)) : option (cstate X) :=
  match l with
  | [] => Some s
  | (sel, v) :: l => let '(k, s) := set_option s sel v in assert (k =? DIVANS_SUCCESS) (set_options s l)
  end.

(** What compress and decompress end with: DIVANS_SUCCESS and the filled vector, another
    code, an abort (a panic inside the library included), or not at all in the given
    number of calls *)
Inductive xres := XDone (v : vec) | XCode (k : Z) | XAbort | XSpin.
(** BUF_SIZE, c/example.c:23 *)
Definition BUF_SIZE : Z := 65536.
Section Example_.
Context (dict : dict_fn) (wl : word_len_fn) (D : dims).
Context {B : Type} (fe : frontend B) (create : opts -> B) (optimize : opts -> metablock -> option metablock).
(** the flushes of compress, c/example.c:45-54 *)
Fixpoint flush_loop (n fuel : nat) (s : @capi B) (buf : list Z) (ret : vec) : xres :=
  match n with
  | O => XSpin
  | S n =>
      match c_flush dict wl D fe create optimize fuel s buf 0 with
      | None => XAbort
      | Some (res, buf, off, s) =>
          if res =? DIVANS_FAILURE then XCode res else
          match push_vec ret (zfirst off buf) with
          | None => XAbort
          | Some ret => if res =? DIVANS_SUCCESS then XDone ret else flush_loop n fuel s buf ret
          end
      end
  end.
(** the calls before, c/example.c:30-43 *)
Fixpoint encode_loop (n fuel : nat) (s : @capi B) (data buf : list Z) (ret : vec) : xres :=
  match n with
  | O => XSpin
  | S n =>
      if zlen data =? 0 then flush_loop (S n) fuel s buf ret else
      match c_encode dict wl D fe create optimize fuel s data 0 buf 0 with
      | None => XAbort
      | Some (res, read, buf, off, s) =>
          if res =? DIVANS_FAILURE then XCode res else
          match push_vec ret (zfirst off buf) with
          | None => XAbort
          | Some ret => encode_loop n fuel s (zskip read data) buf ret
          end
      end
  end.
(** compress, c/example.c:24-57; [buf] is what the uninitialised buffer contains *)
Definition compress (n fuel : nat) (args : list (list Z)) (data buf : list Z) : xres :=
  match set_options (X := option (@comp B)) cs_new (options_of args) with
  | None => XAbort
  | Some s => encode_loop n fuel s data buf new_vec
  end.
End Example_.
Section Decode.
Context (dict : dict_fn) (wl : word_len_fn) (D : dims).
(** The decompressor.  The example's header divans/ffi.h declares the constructor with two
    arguments, src/ffi/mod.rs:211-233 has a third, [multithread]: either may be made. *)
Inductive machine := Alone (d : decompressor) | Both (p : pstate).
Definition m_decode (fuel : nat) (m : machine) (inb outb : list Z) : option (Z * Z * list Z * Z * machine) :=
  match m with
  | Alone d => let? '(k, i, b, o, d) := c_decode dict wl D false fuel d inb 0 outb 0 in Some (k, i, b, o, Alone d)
  | Both p => let? '(k, i, b, o, p) := c_decode_parallel dict wl D false p inb 0 outb 0 in Some (k, i, b, o, Both p)
  end.
(** divans_free_decompressor returns *)
Definition m_free (m : machine) : bool := match m with Alone _ => true | Both p => c_free_parallel dict wl D false p end.
(** decompress, c/example.c:59-80 *)
Fixpoint decode_loop (n fuel : nat) (m : machine) (data buf : list Z) (ret : vec) : xres :=
  match n with
  | O => XSpin
  | S n =>
      match m_decode fuel m data buf with
      | None => XAbort
      | Some (res, read, buf, off, m) =>
          if (res =? DIVANS_FAILURE) || ((res =? DIVANS_NEEDS_MORE_INPUT) && (zlen data =? 0))
          then if m_free m then XCode res else XSpin
          else
          match push_vec ret (zfirst off buf) with
          | None => XAbort
          | Some ret =>
              if res =? DIVANS_SUCCESS then (if m_free m then XDone ret else XSpin)
              else decode_loop n fuel m (zskip read data) buf ret
          end
      end
  end.
Definition decompress (n fuel : nat) (m : machine) (data buf : list Z) : xres := decode_loop n fuel m data buf new_vec.
End Decode.

(** custom_atoi, c/custom_alloc.h:57-76: the digits from the last to the first, turned
    round in place; the exchange loop is [rev].  [n] bounds the digits. *)
Fixpoint atoi_loop (n : nat) (data : Z) : list Z :=
  match n with
  | O => []
  | S n => if data =? 0 then [] else (48 + data mod 10) :: atoi_loop n (data / 10)
  end.
Definition custom_atoi (data : Z) : list Z := if data =? 0 then [48] else rev (atoi_loop 20 data).
(** the line written at the end, c/example.c:145-186 *)
Definition whole_percent (size len : Z) : list Z := custom_atoi (u64 (size * 100) / len).
Definition rest_percent (size len : Z) : list Z := tl (custom_atoi ((u64 (size * 1000000 + len / 2) / len) mod 10000 + 10000)).
Definition report (size len : Z) : list Z :=
  [70; 105; 108; 101; 32; 108; 101; 110; 103; 116; 104; 32] ++ custom_atoi len ++
  [32; 114; 101; 100; 117; 99; 101; 100; 32; 116; 111; 32] ++ custom_atoi size ++ [44; 32] ++
  whole_percent size len ++ [46] ++ rest_percent size len ++ [37; 10].

(** main from line 111 on, c/example.c:111-187: the line it writes, or [None] if it aborts
    or does not end in the given number of calls.  [buf1], [buf2]: what the two buffers contain at first. *)
Definition same_bytes (a b : list Z) : bool := if list_eq_dec Z.eq_dec a b then true else false.
Definition example dict wl D {B} (fe : frontend B) create optimize (n fuel : nat) (args : list (list Z)) (n2 fuel2 : nat) (m : machine) (data buf1 buf2 : list Z) : option (list Z) :=
  match compress dict wl D fe create optimize n fuel args data buf1 with
  | XDone v =>
      let? file := bytes_of v in
      match decompress dict wl D n2 fuel2 m file buf2 with
      | XDone w =>
          let? rt := bytes_of w in
          if (v_size w =? zlen data) && same_bytes rt data then Some (report (v_size v) (zlen data)) else None
      | _ => None
      end
  | _ => None
  end.
