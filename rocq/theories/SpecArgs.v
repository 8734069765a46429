(** The command line of the tool, described independently of how it is read: used by C73. *)
From Coq Require Import String Ascii.
From Verif Require Import Prelude ModelText ModelArgs SpecText.

(** what an argument can mean *)
Inductive arg :=
| AName (s : list Z)
| ADecompress | AText | ACompress | AInternal        (* which job *)
| ARecode | ASerial | ANoCrc | AOptimise (b : bool)
| AContextMap (b : bool) | AFindPrior (b : bool) | AMode (m : Z) | AFindSpeed
| AScore (n : Z) | ABuffer (n : Z) | ATimes (n : Z) | ABlock (n : Z) | AQuality (n : Z) | ANineFive (x : bool)
| ADepth (n : Z) | AWindow (n : Z) | AMixing (n : Z)
| ABrotliStride (q : Z) | ANoStride | AStride (n : Z) | AStrideOn
| ASpeed (place : nat) (s : Z * Z).
(** a speed: a word, or an increment below 16384 and a limit up to 16384 *)
Definition speed_words : list (list Z * (Z * Z)) :=
  [(str "GEOLOGIC", (1, 16384)); (str "GLACIAL", (4, 2560)); (str "MUD", (16, 8192)); (str "SLOW", (32, 4096)); (str "MED", (48, 16384)); (str "FAST", (96, 16384)); (str "PLANE", (128, 16384)); (str "ROCKET", (384, 16384))].
Definition speed_text (s : Z * Z) (t : list Z) : Prop :=
  In (t, s) speed_words \/ exists a b, numeral (fst s) a /\ numeral (snd s) b /\ fst s < 16384 /\ snd s <= 16384 /\ t = a ++ [44] ++ b.
(** the four speed options by the place they are for *)
Definition speed_option (place : nat) : list Z :=
  match place with 0%nat => str "-speedlow=" | 1%nat => str "-speed=" | 2%nat => str "-cmspeedlow=" | _ => str "-cmspeed=" end.
(** how each is written; numbers within the range of what they set *)
Inductive spelled : arg -> list Z -> Prop :=
| sp_name c t : c <> 45 -> spelled (AName (c :: t)) (c :: t)
| sp_word a s : In (a, s) [(ADecompress, str "-d"); (AText, str "-i"); (ACompress, str "-c"); (AInternal, str "-nobrotli"); (ARecode, str "--recode"); (ASerial, str "-serial");
    (ANoCrc, str "-skipcrc"); (ANoCrc, str "-nocrc"); (AOptimise true, str "-O1"); (AOptimise true, str "-O2"); (AOptimise false, str "-O0");
    (AContextMap true, str "-cm"); (AContextMap true, str "-contextmap"); (AContextMap false, str "-nocm"); (AContextMap false, str "-nocontextmap");
    (AFindPrior true, str "-findprior"); (AFindPrior false, str "-defaultprior"); (AMode 0, str "-lsb"); (AMode 1, str "-msb"); (AMode 2, str "-utf8"); (AMode 3, str "-sign");
    (AFindSpeed, str "-findspeed"); (ANineFive false, str "-q9.5"); (ANineFive true, str "-q9.5x"); (ABrotliStride 1, str "-brotlistride"); (ABrotliStride 2, str "-advbrotlistride");
    (ABrotliStride 3, str "-expbrotlistride"); (ANoStride, str "-nostride"); (AStrideOn, str "-stride"); (AStrideOn, str "-s")] -> spelled a s
| sp_number a p max n d : In (a, p, max) [(AScore, str "-bytescore=", 4294967295); (ABuffer, str "-bs", 18446744073709551615); (ATimes, str "-benchmark=", 18446744073709551615);
    (ABlock, str "-lgwin=", 4294967295); (ABlock, str "-lgwin", 4294967295); (AQuality, str "-q", 65535); (AQuality, str "-quality=", 65535); (ADepth, str "-p", 255); (ADepth, str "-priordepth=", 255);
    (AWindow, str "-w", 2147483647); (AWindow, str "-window=", 2147483647); (AMixing, str "-mixing=", 255)] -> numeral n d -> n <= max -> spelled (a n) (p ++ d)
| sp_stride n d : numeral n d -> 1 <= n <= 8 -> spelled (AStride n) (str "-stride=" ++ d)
| sp_speed place s t : (place < 4)%nat -> speed_text s t -> spelled (ASpeed place s) (speed_option place ++ t).

(** the last argument that says something about a setting decides it *)
Definition last_said {A} (says : arg -> option A) (default : A) (args : list arg) : A :=
  fold_left (fun a x => match says x with Some b => b | None => a end) args default.
Definition said (says : arg -> bool) (args : list arg) : bool := existsb says args.
Definition names (args : list arg) : list (list Z) := flat_map (fun a => match a with AName s => [s] | _ => [] end) args.
(** the direction: the last of four *)
Inductive direction := DText | DCompress | DDecompress.
Definition directed (a : arg) : option direction :=
  match a with ADecompress => Some DDecompress | AText => Some DText | ACompress | AInternal => Some DCompress | _ => None end.
Definition job_said (args : list arg) : job :=
  match last_said directed DCompress args with
  | DText => JText | DCompress => JCompress
  | DDecompress => if said (fun a => match a with ARecode => true | _ => false end) args then JRecode else JDecompress
  end.
Definition number (f : arg -> option Z) (args : list arg) (default : option Z) : option Z := last_said (fun a => option_map Some (f a)) default args.
(** the stride: last of the settings; plain -s undoes -nostride only *)
Fixpoint stride_said (latest_first : list arg) : stride_sel :=
  match latest_first with
  | [] => UseBrotliRec
  | ABrotliStride _ :: _ => UseBrotliRec
  | ANoStride :: _ => PriorDisabled
  | AStride n :: _ => FixedStride n
  | AStrideOn :: l => match stride_said l with PriorDisabled => UseBrotliRec | s => s end
  | _ :: l => stride_said l
  end.
(** input and output from the names given *)
Definition from_names (ns : list (list Z)) : ends := match ns with [] => Standard | n :: _ => Named n end.
Definition to_names (ns : list (list Z)) : ends := match ns with _ :: n :: _ => Named n | _ => Standard end.
(** what a run of the tool is to be, given what was said *)
Definition as_said (args : list arg) (ns : list (list Z)) (p : plan) : Prop :=
  p_job p = job_said args /\ p_from p = from_names ns /\ p_to p = to_names ns /\
  p_times p = last_said (fun a => match a with ATimes n => Some n | _ => None end) 1 args /\
  p_buffer p = last_said (fun a => match a with ABuffer n => Some n | _ => None end) 65536 args /\
  p_force p = said (fun a => match a with ACompress => true | _ => false end) args /\
  p_skipcrc p = said (fun a => match a with ANoCrc => true | _ => false end) args /\
  p_threads p = negb (said (fun a => match a with ASerial => true | _ => false end) args) /\
  let o := p_opts p in
  o_score o = number (fun a => match a with AScore n => Some n | _ => None end) args None /\
  o_brotli o = negb (said (fun a => match a with AInternal => true | _ => false end) args) /\
  o_mixing o = number (fun a => match a with AMixing n => Some n | _ => None end) args (Some 1) /\
  o_cmap o = last_said (fun a => match a with AContextMap b => Some b | _ => None end) true args /\
  o_depth o = number (fun a => match a with ADepth n => Some n | _ => None end) args None /\
  o_stride o = stride_said (rev args) /\
  o_quality o = number (fun a => match a with AQuality n => Some n | ANineFive x => Some (if x then 11 else 10) | _ => None end) args (Some 11) /\
  o_q95 o = said (fun a => match a with ANineFive _ => true | _ => false end) args /\
  o_window o = number (fun a => match a with AWindow n => Some n | _ => None end) args (Some 22) /\
  o_lgblock o = number (fun a => match a with ABlock n => Some n | _ => None end) args (Some 22) /\
  o_strideq o = number (fun a => match a with ABrotliStride q => Some q | _ => None end) args None /\
  o_speedq o = number (fun a => match a with AFindSpeed => Some 1 | _ => None end) args None /\
  o_findprior o = last_said (fun a => match a with AFindPrior b => Some b | _ => None end) true args /\
  o_lmode o = number (fun a => match a with AMode m => Some m | _ => None end) args None /\
  o_optimise o = said (fun a => match a with AOptimise b => b | _ => false end) args /\
  (* the speeds: none unless one is said; each that is said is at its place *)
  (o_adapt o = None <-> Forall (fun a => match a with ASpeed _ _ => False | _ => True end) args) /\
  (forall place s, last_said (fun a => match a with ASpeed q s => if Nat.eqb q place then Some (Some s) else None | _ => None end) None args = Some s ->
     exists l, o_adapt o = Some l /\ length l = 4%nat /\ nth_error l place = Some s) /\
  (* and there are no others than those said *)
  (forall l, o_adapt o = Some l -> length l = 4%nat /\ Forall (fun s => exists place, In (ASpeed place s) args) l).
