(** The command line of the tool: main in src/bin/divans.rs:1198-1713 (builds with the
    standard library).  An argument is a list of byte values; as in ModelText the model is
    for ASCII text. *)
From Coq Require Import String Ascii.
From Verif Require Import Prelude ModelText.

(** StrideSelection, src/interface.rs; [FixedStride n] for Stride1 to Stride8 *)
Inductive stride_sel := UseBrotliRec | PriorDisabled | FixedStride (n : Z).
(** the variables of main, src/bin/divans.rs:1199-1225 *)
Record vars := VARS {
  v_do_compress : bool;
  v_raw_compress : bool;
  v_force : bool;
  v_recode : bool;
  v_f0 : list Z;
  v_f1 : list Z;
  v_bench : Z;
  v_cmap : bool;
  v_brotli : bool;
  v_stride : stride_sel;
  v_adapt : option (list (Z * Z));
  v_window : option Z;
  v_lgwin : option Z;
  v_quality : option Z;
  v_q95 : bool;
  v_strideq : option Z;
  v_speedq : option Z;
  v_mixing : option Z;
  v_bs : Z;
  v_depth : option Z;
  v_low : bool;
  v_score : option Z;
  v_dashes : bool;
  v_findprior : bool;
  v_lmode : option Z;
  v_skipcrc : bool;
  v_par : bool;
  v_irx : bool
}.
(** their first values, the same lines *)
Definition vars0 : vars := VARS true true false false [] [] 1 true true UseBrotliRec None (Some 22) (Some 22) (Some 11) false None None (Some 1) 65536 None false None false true None false true false.
(** an assignment to one of them *)
Definition set_do_compress (x : bool) (v : vars) : vars := VARS x (v_raw_compress v) (v_force v) (v_recode v) (v_f0 v) (v_f1 v) (v_bench v) (v_cmap v) (v_brotli v) (v_stride v) (v_adapt v) (v_window v) (v_lgwin v) (v_quality v) (v_q95 v) (v_strideq v) (v_speedq v) (v_mixing v) (v_bs v) (v_depth v) (v_low v) (v_score v) (v_dashes v) (v_findprior v) (v_lmode v) (v_skipcrc v) (v_par v) (v_irx v).
Definition set_raw_compress (x : bool) (v : vars) : vars := VARS (v_do_compress v) x (v_force v) (v_recode v) (v_f0 v) (v_f1 v) (v_bench v) (v_cmap v) (v_brotli v) (v_stride v) (v_adapt v) (v_window v) (v_lgwin v) (v_quality v) (v_q95 v) (v_strideq v) (v_speedq v) (v_mixing v) (v_bs v) (v_depth v) (v_low v) (v_score v) (v_dashes v) (v_findprior v) (v_lmode v) (v_skipcrc v) (v_par v) (v_irx v).
Definition set_force (x : bool) (v : vars) : vars := VARS (v_do_compress v) (v_raw_compress v) x (v_recode v) (v_f0 v) (v_f1 v) (v_bench v) (v_cmap v) (v_brotli v) (v_stride v) (v_adapt v) (v_window v) (v_lgwin v) (v_quality v) (v_q95 v) (v_strideq v) (v_speedq v) (v_mixing v) (v_bs v) (v_depth v) (v_low v) (v_score v) (v_dashes v) (v_findprior v) (v_lmode v) (v_skipcrc v) (v_par v) (v_irx v).
Definition set_recode (x : bool) (v : vars) : vars := VARS (v_do_compress v) (v_raw_compress v) (v_force v) x (v_f0 v) (v_f1 v) (v_bench v) (v_cmap v) (v_brotli v) (v_stride v) (v_adapt v) (v_window v) (v_lgwin v) (v_quality v) (v_q95 v) (v_strideq v) (v_speedq v) (v_mixing v) (v_bs v) (v_depth v) (v_low v) (v_score v) (v_dashes v) (v_findprior v) (v_lmode v) (v_skipcrc v) (v_par v) (v_irx v).
Definition set_f0 (x : list Z) (v : vars) : vars := VARS (v_do_compress v) (v_raw_compress v) (v_force v) (v_recode v) x (v_f1 v) (v_bench v) (v_cmap v) (v_brotli v) (v_stride v) (v_adapt v) (v_window v) (v_lgwin v) (v_quality v) (v_q95 v) (v_strideq v) (v_speedq v) (v_mixing v) (v_bs v) (v_depth v) (v_low v) (v_score v) (v_dashes v) (v_findprior v) (v_lmode v) (v_skipcrc v) (v_par v) (v_irx v).
Definition set_f1 (x : list Z) (v : vars) : vars := VARS (v_do_compress v) (v_raw_compress v) (v_force v) (v_recode v) (v_f0 v) x (v_bench v) (v_cmap v) (v_brotli v) (v_stride v) (v_adapt v) (v_window v) (v_lgwin v) (v_quality v) (v_q95 v) (v_strideq v) (v_speedq v) (v_mixing v) (v_bs v) (v_depth v) (v_low v) (v_score v) (v_dashes v) (v_findprior v) (v_lmode v) (v_skipcrc v) (v_par v) (v_irx v).
Definition set_bench (x : Z) (v : vars) : vars := VARS (v_do_compress v) (v_raw_compress v) (v_force v) (v_recode v) (v_f0 v) (v_f1 v) x (v_cmap v) (v_brotli v) (v_stride v) (v_adapt v) (v_window v) (v_lgwin v) (v_quality v) (v_q95 v) (v_strideq v) (v_speedq v) (v_mixing v) (v_bs v) (v_depth v) (v_low v) (v_score v) (v_dashes v) (v_findprior v) (v_lmode v) (v_skipcrc v) (v_par v) (v_irx v).
Definition set_cmap (x : bool) (v : vars) : vars := VARS (v_do_compress v) (v_raw_compress v) (v_force v) (v_recode v) (v_f0 v) (v_f1 v) (v_bench v) x (v_brotli v) (v_stride v) (v_adapt v) (v_window v) (v_lgwin v) (v_quality v) (v_q95 v) (v_strideq v) (v_speedq v) (v_mixing v) (v_bs v) (v_depth v) (v_low v) (v_score v) (v_dashes v) (v_findprior v) (v_lmode v) (v_skipcrc v) (v_par v) (v_irx v).
Definition set_brotli (x : bool) (v : vars) : vars := VARS (v_do_compress v) (v_raw_compress v) (v_force v) (v_recode v) (v_f0 v) (v_f1 v) (v_bench v) (v_cmap v) x (v_stride v) (v_adapt v) (v_window v) (v_lgwin v) (v_quality v) (v_q95 v) (v_strideq v) (v_speedq v) (v_mixing v) (v_bs v) (v_depth v) (v_low v) (v_score v) (v_dashes v) (v_findprior v) (v_lmode v) (v_skipcrc v) (v_par v) (v_irx v).
Definition set_stride (x : stride_sel) (v : vars) : vars := VARS (v_do_compress v) (v_raw_compress v) (v_force v) (v_recode v) (v_f0 v) (v_f1 v) (v_bench v) (v_cmap v) (v_brotli v) x (v_adapt v) (v_window v) (v_lgwin v) (v_quality v) (v_q95 v) (v_strideq v) (v_speedq v) (v_mixing v) (v_bs v) (v_depth v) (v_low v) (v_score v) (v_dashes v) (v_findprior v) (v_lmode v) (v_skipcrc v) (v_par v) (v_irx v).
Definition set_adapt (x : option (list (Z * Z))) (v : vars) : vars := VARS (v_do_compress v) (v_raw_compress v) (v_force v) (v_recode v) (v_f0 v) (v_f1 v) (v_bench v) (v_cmap v) (v_brotli v) (v_stride v) x (v_window v) (v_lgwin v) (v_quality v) (v_q95 v) (v_strideq v) (v_speedq v) (v_mixing v) (v_bs v) (v_depth v) (v_low v) (v_score v) (v_dashes v) (v_findprior v) (v_lmode v) (v_skipcrc v) (v_par v) (v_irx v).
Definition set_window (x : option Z) (v : vars) : vars := VARS (v_do_compress v) (v_raw_compress v) (v_force v) (v_recode v) (v_f0 v) (v_f1 v) (v_bench v) (v_cmap v) (v_brotli v) (v_stride v) (v_adapt v) x (v_lgwin v) (v_quality v) (v_q95 v) (v_strideq v) (v_speedq v) (v_mixing v) (v_bs v) (v_depth v) (v_low v) (v_score v) (v_dashes v) (v_findprior v) (v_lmode v) (v_skipcrc v) (v_par v) (v_irx v).
Definition set_lgwin (x : option Z) (v : vars) : vars := VARS (v_do_compress v) (v_raw_compress v) (v_force v) (v_recode v) (v_f0 v) (v_f1 v) (v_bench v) (v_cmap v) (v_brotli v) (v_stride v) (v_adapt v) (v_window v) x (v_quality v) (v_q95 v) (v_strideq v) (v_speedq v) (v_mixing v) (v_bs v) (v_depth v) (v_low v) (v_score v) (v_dashes v) (v_findprior v) (v_lmode v) (v_skipcrc v) (v_par v) (v_irx v).
Definition set_quality (x : option Z) (v : vars) : vars := VARS (v_do_compress v) (v_raw_compress v) (v_force v) (v_recode v) (v_f0 v) (v_f1 v) (v_bench v) (v_cmap v) (v_brotli v) (v_stride v) (v_adapt v) (v_window v) (v_lgwin v) x (v_q95 v) (v_strideq v) (v_speedq v) (v_mixing v) (v_bs v) (v_depth v) (v_low v) (v_score v) (v_dashes v) (v_findprior v) (v_lmode v) (v_skipcrc v) (v_par v) (v_irx v).
Definition set_q95 (x : bool) (v : vars) : vars := VARS (v_do_compress v) (v_raw_compress v) (v_force v) (v_recode v) (v_f0 v) (v_f1 v) (v_bench v) (v_cmap v) (v_brotli v) (v_stride v) (v_adapt v) (v_window v) (v_lgwin v) (v_quality v) x (v_strideq v) (v_speedq v) (v_mixing v) (v_bs v) (v_depth v) (v_low v) (v_score v) (v_dashes v) (v_findprior v) (v_lmode v) (v_skipcrc v) (v_par v) (v_irx v).
Definition set_strideq (x : option Z) (v : vars) : vars := VARS (v_do_compress v) (v_raw_compress v) (v_force v) (v_recode v) (v_f0 v) (v_f1 v) (v_bench v) (v_cmap v) (v_brotli v) (v_stride v) (v_adapt v) (v_window v) (v_lgwin v) (v_quality v) (v_q95 v) x (v_speedq v) (v_mixing v) (v_bs v) (v_depth v) (v_low v) (v_score v) (v_dashes v) (v_findprior v) (v_lmode v) (v_skipcrc v) (v_par v) (v_irx v).
Definition set_speedq (x : option Z) (v : vars) : vars := VARS (v_do_compress v) (v_raw_compress v) (v_force v) (v_recode v) (v_f0 v) (v_f1 v) (v_bench v) (v_cmap v) (v_brotli v) (v_stride v) (v_adapt v) (v_window v) (v_lgwin v) (v_quality v) (v_q95 v) (v_strideq v) x (v_mixing v) (v_bs v) (v_depth v) (v_low v) (v_score v) (v_dashes v) (v_findprior v) (v_lmode v) (v_skipcrc v) (v_par v) (v_irx v).
Definition set_mixing (x : option Z) (v : vars) : vars := VARS (v_do_compress v) (v_raw_compress v) (v_force v) (v_recode v) (v_f0 v) (v_f1 v) (v_bench v) (v_cmap v) (v_brotli v) (v_stride v) (v_adapt v) (v_window v) (v_lgwin v) (v_quality v) (v_q95 v) (v_strideq v) (v_speedq v) x (v_bs v) (v_depth v) (v_low v) (v_score v) (v_dashes v) (v_findprior v) (v_lmode v) (v_skipcrc v) (v_par v) (v_irx v).
Definition set_bs (x : Z) (v : vars) : vars := VARS (v_do_compress v) (v_raw_compress v) (v_force v) (v_recode v) (v_f0 v) (v_f1 v) (v_bench v) (v_cmap v) (v_brotli v) (v_stride v) (v_adapt v) (v_window v) (v_lgwin v) (v_quality v) (v_q95 v) (v_strideq v) (v_speedq v) (v_mixing v) x (v_depth v) (v_low v) (v_score v) (v_dashes v) (v_findprior v) (v_lmode v) (v_skipcrc v) (v_par v) (v_irx v).
Definition set_depth (x : option Z) (v : vars) : vars := VARS (v_do_compress v) (v_raw_compress v) (v_force v) (v_recode v) (v_f0 v) (v_f1 v) (v_bench v) (v_cmap v) (v_brotli v) (v_stride v) (v_adapt v) (v_window v) (v_lgwin v) (v_quality v) (v_q95 v) (v_strideq v) (v_speedq v) (v_mixing v) (v_bs v) x (v_low v) (v_score v) (v_dashes v) (v_findprior v) (v_lmode v) (v_skipcrc v) (v_par v) (v_irx v).
Definition set_low (x : bool) (v : vars) : vars := VARS (v_do_compress v) (v_raw_compress v) (v_force v) (v_recode v) (v_f0 v) (v_f1 v) (v_bench v) (v_cmap v) (v_brotli v) (v_stride v) (v_adapt v) (v_window v) (v_lgwin v) (v_quality v) (v_q95 v) (v_strideq v) (v_speedq v) (v_mixing v) (v_bs v) (v_depth v) x (v_score v) (v_dashes v) (v_findprior v) (v_lmode v) (v_skipcrc v) (v_par v) (v_irx v).
Definition set_score (x : option Z) (v : vars) : vars := VARS (v_do_compress v) (v_raw_compress v) (v_force v) (v_recode v) (v_f0 v) (v_f1 v) (v_bench v) (v_cmap v) (v_brotli v) (v_stride v) (v_adapt v) (v_window v) (v_lgwin v) (v_quality v) (v_q95 v) (v_strideq v) (v_speedq v) (v_mixing v) (v_bs v) (v_depth v) (v_low v) x (v_dashes v) (v_findprior v) (v_lmode v) (v_skipcrc v) (v_par v) (v_irx v).
Definition set_dashes (x : bool) (v : vars) : vars := VARS (v_do_compress v) (v_raw_compress v) (v_force v) (v_recode v) (v_f0 v) (v_f1 v) (v_bench v) (v_cmap v) (v_brotli v) (v_stride v) (v_adapt v) (v_window v) (v_lgwin v) (v_quality v) (v_q95 v) (v_strideq v) (v_speedq v) (v_mixing v) (v_bs v) (v_depth v) (v_low v) (v_score v) x (v_findprior v) (v_lmode v) (v_skipcrc v) (v_par v) (v_irx v).
Definition set_findprior (x : bool) (v : vars) : vars := VARS (v_do_compress v) (v_raw_compress v) (v_force v) (v_recode v) (v_f0 v) (v_f1 v) (v_bench v) (v_cmap v) (v_brotli v) (v_stride v) (v_adapt v) (v_window v) (v_lgwin v) (v_quality v) (v_q95 v) (v_strideq v) (v_speedq v) (v_mixing v) (v_bs v) (v_depth v) (v_low v) (v_score v) (v_dashes v) x (v_lmode v) (v_skipcrc v) (v_par v) (v_irx v).
Definition set_lmode (x : option Z) (v : vars) : vars := VARS (v_do_compress v) (v_raw_compress v) (v_force v) (v_recode v) (v_f0 v) (v_f1 v) (v_bench v) (v_cmap v) (v_brotli v) (v_stride v) (v_adapt v) (v_window v) (v_lgwin v) (v_quality v) (v_q95 v) (v_strideq v) (v_speedq v) (v_mixing v) (v_bs v) (v_depth v) (v_low v) (v_score v) (v_dashes v) (v_findprior v) x (v_skipcrc v) (v_par v) (v_irx v).
Definition set_skipcrc (x : bool) (v : vars) : vars := VARS (v_do_compress v) (v_raw_compress v) (v_force v) (v_recode v) (v_f0 v) (v_f1 v) (v_bench v) (v_cmap v) (v_brotli v) (v_stride v) (v_adapt v) (v_window v) (v_lgwin v) (v_quality v) (v_q95 v) (v_strideq v) (v_speedq v) (v_mixing v) (v_bs v) (v_depth v) (v_low v) (v_score v) (v_dashes v) (v_findprior v) (v_lmode v) x (v_par v) (v_irx v).
Definition set_par (x : bool) (v : vars) : vars := VARS (v_do_compress v) (v_raw_compress v) (v_force v) (v_recode v) (v_f0 v) (v_f1 v) (v_bench v) (v_cmap v) (v_brotli v) (v_stride v) (v_adapt v) (v_window v) (v_lgwin v) (v_quality v) (v_q95 v) (v_strideq v) (v_speedq v) (v_mixing v) (v_bs v) (v_depth v) (v_low v) (v_score v) (v_dashes v) (v_findprior v) (v_lmode v) (v_skipcrc v) x (v_irx v).
Definition set_irx (x : bool) (v : vars) : vars := VARS (v_do_compress v) (v_raw_compress v) (v_force v) (v_recode v) (v_f0 v) (v_f1 v) (v_bench v) (v_cmap v) (v_brotli v) (v_stride v) (v_adapt v) (v_window v) (v_lgwin v) (v_quality v) (v_q95 v) (v_strideq v) (v_speedq v) (v_mixing v) (v_bs v) (v_depth v) (v_low v) (v_score v) (v_dashes v) (v_findprior v) (v_lmode v) (v_skipcrc v) (v_par v) x.

(** str::starts_with *)
Fixpoint starts (pre s : list Z) : bool :=
  match pre, s with [], _ => true | x :: pre, y :: s => (x =? y) && starts pre s | _ :: _, [] => false end.
(** str::trim_matches(char), and a chain of them *)
Fixpoint cut (c : Z) (s : list Z) : list Z := match s with x :: t => if x =? c then cut c t else s | [] => [] end.
Definition trim_matches (c : Z) (s : list Z) : list Z := rev (cut c (rev (cut c s))).
Definition trims (cs : list Z) (s : list Z) : list Z := fold_left (fun s c => trim_matches c s) cs s.
(** Speed::from_str, src/probability/interface.rs:376-419; [None] stands for an error and
    for the panic of split_at on an empty text: the caller unwraps *)
Fixpoint comma (i : nat) (s : list Z) : nat := match s with [] => O | c :: s => if c =? 44 then i else comma (S i) s end.
Definition parse_speed (s : list Z) : option (Z * Z) :=
  if same s (str "GEOLOGIC") then Some (1, 16384) else if same s (str "GLACIAL") then Some (4, 2560)
  else if same s (str "MUD") then Some (16, 8192) else if same s (str "SLOW") then Some (32, 4096)
  else if same s (str "MED") then Some (48, 16384) else if same s (str "FAST") then Some (96, 16384)
  else if same s (str "PLANE") then Some (128, 16384) else if same s (str "ROCKET") then Some (384, 16384)
  else
    let at_ := comma 0 s in
    match s with
    | [] => None
    | _ =>
        let? inc := parse_u16 (firstn at_ s) in
        let? lim := parse_u16 (skipn (S at_) s) in
        if (lim <=? 16384) && (inc <? 16384) then Some (inc, lim) else None
    end.
(** what one argument does: the next one, the help text or the version, or a panic *)
Inductive astep := Next (v : vars) | Shown | Panicked.
Definition with_num {A} (o : option A) (k : A -> vars) : astep := match o with Some a => Next (k a) | None => Panicked end.
Definition u8 (x : Z) : Z := x mod 256.
(** the four speed options: src/bin/divans.rs:1476-1567 *)
Definition adapted (v : vars) (place other : nat) (spd : Z * Z) : list (Z * Z) :=
  match v_adapt v with
  | None => [spd; spd; spd; spd]
  | Some a =>
      let put i l := firstn i l ++ spd :: skipn (S i) l in
      let a := put place a in
      if v_low v then a else put other a
  end.
(** an argument that is no option: src/bin/divans.rs:1578-1586 *)
Definition name_arg (v : vars) (a : list Z) : astep :=
  if same (v_f0 v) [] then Next (set_f0 a v)
  else if same (v_f1 v) [] then Next (set_f1 a v)
  else Panicked.
(** one turn of the loop over the arguments: src/bin/divans.rs:1228-1587 *)
Definition one_arg (v : vars) (a : list Z) : astep :=
  if v_dashes v then name_arg v a
  else if same a (str "-d") then Next (set_do_compress false v)
  else if same a (str "-serial") then Next (set_par false v)
  else if same a (str "-skipcrc") then Next (set_skipcrc true v)
  else if same a (str "-nocrc") then Next (set_skipcrc true v)
  else if same a (str "--") then Next (set_dashes true v)
  else if starts (str "-bytescore") a then with_num (parse_u32 (trims (str "-bytescore=") a)) (fun n => set_score (Some n) v)
  else if same a (str "-utf8") then Next (set_lmode (Some 2) v)
  else if same a (str "-msb") then Next (set_lmode (Some 1) v)
  else if same a (str "-lsb") then Next (set_lmode (Some 0) v)
  else if starts (str "-sign") a then Next (set_lmode (Some 3) v)
  else if starts (str "-bs") a then with_num (parse_usize (trims (str "-bs") a)) (fun n => set_bs n v)
  else if starts (str "-benchmark") a then with_num (parse_usize (trims (str "-benchmark=") a)) (fun n => set_bench n v)
  else if same a (str "--recode") then Next (set_recode true v)
  else if starts (str "-lgwin") a then with_num (parse_u32 (trims (str "-lgwin=") a)) (fun n => set_lgwin (Some n) v)
  else if starts (str "-q9.5") a then Next (set_quality (Some (if same a (str "-q9.5x") then 11 else 10)) (set_q95 true v))
  else if starts (str "-q") a then with_num (parse_u16 (trims (str "-quality=") a)) (fun n => set_quality (Some n) v)
  else if starts (str "-p") a then with_num (parse_i32 (trims (str "-priordepth=") a)) (fun n => set_depth (Some (u8 n)) v)
  else if starts (str "-w") a || starts (str "-window=") a then with_num (parse_i32 (trims (str "-window=") a)) (fun n => set_window (Some n) v)
  else if same a (str "-brotlistride") then Next (set_strideq (Some 1) (set_stride UseBrotliRec v))
  else if same a (str "-advbrotlistride") then Next (set_strideq (Some 2) (set_stride UseBrotliRec v))
  else if same a (str "-expbrotlistride") then Next (set_strideq (Some 3) (set_stride UseBrotliRec v))
  else if starts (str "-nostride") a then Next (set_stride PriorDisabled v)
  else if starts (str "-stride") a || same a (str "-s") then
    if starts (str "-stride=") a then
      match parse_u32 (trims (str "-stride=") a) with
      | Some n => if (1 <=? n) && (n <=? 8) then Next (set_stride (FixedStride n) v) else Panicked
      | None => Panicked
      end
    else Next (match v_stride v with PriorDisabled => set_stride UseBrotliRec v | _ => v end)
  else if same a (str "-cm") || same a (str "-contextmap") then Next (set_cmap true v)
  else if same a (str "-nocm") || same a (str "-nocontextmap") then Next (set_cmap false v)
  else if same a (str "-i") then Next (set_raw_compress false (set_do_compress true v))
  else if starts (str "-O") a then Next (if same a (str "-O0") then v else set_irx true v)
  else if same a (str "-c") then Next (set_force true (set_raw_compress true (set_do_compress true v)))
  else if same a (str "-nobrotli") then Next (set_brotli false (set_raw_compress true (set_do_compress true v)))
  else if same a (str "-findprior") then Next (set_findprior true v)
  else if same a (str "-defaultprior") then Next (set_findprior false v)
  else if starts (str "-mixing=") a then with_num (parse_i32 (trims (str "-mixing=") a)) (fun n => set_mixing (Some (u8 n)) v)
  else if same a (str "-findspeed") then Next (set_speedq (Some 1) v)
  else if starts (str "-speed=") a then with_num (parse_speed (trims (str "-speed=") a)) (fun s => set_adapt (Some (adapted v 1 0 s)) v)
  else if starts (str "-speedlow=") a then with_num (parse_speed (trims (str "-speedlow=") a)) (fun s => set_low true (set_adapt (Some (adapted v 0 2 s)) v))
  else if starts (str "-cmspeed=") a then with_num (parse_speed (trims (str "-cmspeed=") a)) (fun s => set_adapt (Some (adapted v 3 2 s)) v)
  else if starts (str "-cmspeedlow=") a then with_num (parse_speed (trims (str "-cmspeedlow=") a)) (fun s => set_low true (set_adapt (Some (adapted v 2 0 s)) v))
  else if same a (str "-h") || same a (str "-help") || same a (str "--help") then Shown
  else if same a (str "-v") || same a (str "-version") || same a (str "--version") then Shown
  else name_arg v a.
Fixpoint all_args (v : vars) (args : list (list Z)) : astep :=
  match args with
  | [] => Next v
  | a :: args => match one_arg v a with Next v => all_args v args | r => r end
  end.

(** ** What main then does: src/bin/divans.rs:1588-1713 *)
Inductive job := JText | JCompress | JRecode | JDecompress.
Inductive ends := Standard | Named (name : list Z).
(** DivansCompressorOptions as main fills them in, src/bin/divans.rs:1588-1611 *)
Record opts := OPTS { o_score : option Z; o_brotli : bool; o_mixing : option Z; o_adapt : option (list (Z * Z)); o_cmap : bool; o_depth : option Z; o_stride : stride_sel;
  o_quality : option Z; o_q95 : bool; o_window : option Z; o_lgblock : option Z; o_strideq : option Z; o_speedq : option Z; o_findprior : bool; o_lmode : option Z; o_optimise : bool }.
Definition options (v : vars) : opts :=
  OPTS (v_score v) (v_brotli v) (v_mixing v) (v_adapt v) (v_cmap v) (v_depth v) (v_stride v) (v_quality v) (v_q95 v) (v_window v) (v_lgwin v) (v_strideq v) (v_speedq v) (v_findprior v) (v_lmode v) (v_irx v).
(** the job, where it reads and writes, how often it is done, and the arguments of
    compress_ir, compress_raw, recode and decompress *)
Record plan := PLAN { p_job : job; p_from : ends; p_to : ends; p_times : Z; p_opts : opts; p_buffer : Z; p_force : bool; p_skipcrc : bool; p_threads : bool }.
(** [MShown]: the help text or the version, nothing else *)
Inductive mainres := MRun (p : plan) | MShown | MPanic.
Definition the_job (v : vars) : job :=
  if v_do_compress v && negb (v_raw_compress v) then JText else if v_do_compress v then JCompress else if v_recode v then JRecode else JDecompress.
Definition the_plan (v : vars) : mainres :=
  if same (v_f0 v) [] then if v_bench v =? 1 then MRun (PLAN (the_job v) Standard Standard 1 (options v) (v_bs v) (v_force v) (v_skipcrc v) (v_par v)) else MPanic
  else if same (v_f1 v) [] then if v_bench v =? 1 then MRun (PLAN (the_job v) (Named (v_f0 v)) Standard 1 (options v) (v_bs v) (v_force v) (v_skipcrc v) (v_par v)) else MPanic
  else MRun (PLAN (the_job v) (Named (v_f0 v)) (Named (v_f1 v)) (v_bench v) (options v) (v_bs v) (v_force v) (v_skipcrc v) (v_par v)).
Definition main (args : list (list Z)) : mainres :=
  match all_args vars0 args with Next v => the_plan v | Shown => MShown | Panicked => MPanic end.
