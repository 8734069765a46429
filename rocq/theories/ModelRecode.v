(** Model of src/cmd_to_raw/mod.rs: replaying commands through the history window.
    u32/usize arithmetic is unbounded here (window sizes are at most 2^24 and the
    quantities involved are sums of two window positions); subtractions that would
    underflow and out-of-range slices are explicit asserts; [None] is a panic (or an
    exhausted loop bound). *)
From Verif Require Import Prelude ModelMux ModelCmd.

(** DivansRecodeState with RingBufferIndexState, src/cmd_to_raw/mod.rs:26-36 *)
Record rcs := RC { ring : list Z; total_offset : Z; sub : Z; di : Z; oi : Z }.
(** new, src/cmd_to_raw/mod.rs:47-57 *)
Definition rc_new (rb : list Z) : rcs := RC rb 0 0 0 0.

Inductive ores := OSuccess | ONeedsMoreOutput | OFailure.

(** slice [off, off+n) with bounds check *)
Definition slice (l : list Z) (off n : Z) : option (list Z) :=
  if (0 <=? off) && (0 <=? n) && (off + n <=? zlen l) then Some (zfirst n (zskip off l)) else None.

(** fallback_last_8_literals, last_8_literals, src/cmd_to_raw/mod.rs:68-86 *)
Definition fallback_last_8 (r : rcs) : list Z :=
  map (fun i => nth (Z.to_nat (Z.land (di r + zlen (ring r) - Z.of_nat i - 1) (zlen (ring r) - 1))) (ring r) 0) (seq 0 8).
Definition last_8_literals (r : rcs) : option (list Z) :=
  if di r <? 8 then Some (fallback_last_8 r) else slice (ring r) (di r - 8) 8.

(** flush, src/cmd_to_raw/mod.rs:90-121; [room] = output.len() - output_offset *)
Definition rflush (r : rcs) (room : Z) : option (ores * list Z * rcs) :=
  let len := zlen (ring r) in
  let? '(o1, oi1) :=
    if di r <? oi r then
      let amount := Z.min (len - oi r) room in
      let? o := slice (ring r) (oi r) amount in
      let oi' := oi r + amount in
      Some (o, if oi' =? len then 0 else oi')
    else Some ([], oi r) in
  let? '(o2, oi2) :=
    if negb (zlen o1 =? room) && (oi1 <? di r) then
      let amount := Z.min (di r - oi1) (room - zlen o1) in
      let? o := slice (ring r) oi1 amount in
      let oi' := oi1 + amount in
      Some (o, if oi' =? len then 0 else oi')
    else Some ([], oi1) in
  Some (if oi2 =? di r then OSuccess else ONeedsMoreOutput, o1 ++ o2,
        RC (ring r) (total_offset r + zlen (o1 ++ o2)) (sub r) (di r) oi2).

(** decode_space_left_in_ring_buffer, src/cmd_to_raw/mod.rs:122-129 *)
Definition space_left (r : rcs) : Z :=
  if oi r <=? di r then oi r + zlen (ring r) - 1 - di r else oi r - 1 - di r.

(** copy_decoded_from_ring_buffer, src/cmd_to_raw/mod.rs:130-150, as called by
    parse_copy: output.len() = amount_to_copy *)
Definition copy_decoded (r : rcs) (distance amount : Z) : option (list Z) :=
  let? '(far, distance, amount) :=
    if di r <? distance then
      let far_distance := distance - di r in
      assert (far_distance <=? zlen (ring r)) (
      let far_start := zlen (ring r) - far_distance in
      let far_amount := Z.min far_distance amount in
      let? far := slice (ring r) far_start far_amount in
      Some (far, di r, amount - far_amount))
    else Some ([], distance, amount) in
  if negb (amount =? 0) then
    let? near := slice (ring r) (di r - distance) amount in Some (far ++ near)
  else Some far.

Definition set_pos (r : rcs) (rb : list Z) (s d : Z) : rcs := RC rb (total_offset r) s d (oi r).

(** copy_some_decoded_from_ring_buffer_to_decoded, src/cmd_to_raw/mod.rs:154-189;
    inner [None] = Err(()) *)
Definition copy_some (r : rcs) (distance desired : Z) : option (option (Z * rcs)) :=
  let len := zlen (ring r) in
  let desired := Z.min (space_left r) desired in
  let left_dst := len - di r in
  let src := if distance <=? di r then Some (di r - distance)
             else if distance <=? di r + len then Some (di r + len - distance) else None in
  match src with
  | None => Some None
  | Some src =>
      assert (src <=? len) (
      let left_src := len - src in
      let trunc := Z.min (Z.min left_dst left_src) desired in
      let? '(trunc, data) :=
        if src <? di r then
          assert (trunc <=? di r - src) (let? d := slice (ring r) src trunc in Some (trunc, d))
        else
          let trunc := Z.min trunc (Z.min (src - di r) (len - src)) in
          let? d := slice (ring r) src trunc in Some (trunc, d) in
      assert (di r + trunc <=? len) (
      let di' := di r + trunc in
      Some (Some (trunc, set_pos r (put_at (ring r) (di r) data) (sub r) (if di' =? len then 0 else di')))))
  end.

(** copy_to_ring_buffer, src/cmd_to_raw/mod.rs:193-210 *)
Definition copy_to_ring (r : rcs) (data : list Z) : option (Z * rcs) :=
  let len := zlen (ring r) in
  let data := zfirst (Z.min (zlen data) (space_left r)) data in
  let first_section := len - di r in
  let amount := Z.min (zlen data) first_section in
  let d1 := zfirst amount data in
  let d2 := zskip amount data in
  assert (di r + amount <=? len) (
  let rb := put_at (ring r) (di r) d1 in
  if di r + amount =? len then
    assert (zlen d2 <=? len) (Some (amount + zlen d2, set_pos r (put_at rb 0 d2) (sub r) (zlen d2)))
  else Some (amount, set_pos r rb (sub r) (di r + amount))).

Definition set_sub (r : rcs) (s : Z) : rcs := RC (ring r) (total_offset r) s (di r) (oi r).

(** parse_literal, src/cmd_to_raw/mod.rs:212-224 *)
Definition parse_literal (r : rcs) (data : list Z) : option (ores * rcs) :=
  if zlen data <? sub r then Some (OFailure, r) else
  let remainder := zskip (sub r) data in
  let? '(n, r) := copy_to_ring r remainder in
  let r := set_sub r (sub r + n) in
  Some (if n =? zlen remainder then OSuccess else ONeedsMoreOutput, r).

(** REPEAT_BUFFER_MAX_SIZE, src/cmd_to_raw/mod.rs:38 *)
Definition REPEAT_BUFFER_MAX_SIZE : Z := 64.
(** the [for _i in 0..num_repeat_iter] loop, src/cmd_to_raw/mod.rs:255-261;
    [false] = returned NeedsMoreOutput early *)
Fixpoint repeat_loop (n : nat) (r : rcs) (rep : list Z) : option (bool * rcs) :=
  match n with
  | O => Some (true, r)
  | S n =>
      let? '(k, r) := copy_to_ring r rep in
      let r := set_sub r (sub r + k) in
      if k =? zlen rep then repeat_loop n r rep else Some (false, r)
  end.
(** parse_copy, src/cmd_to_raw/mod.rs:245-283 *)
Definition parse_copy (r : rcs) (distance num_bytes : Z) : option (ores * rcs) :=
  assert (sub r <=? num_bytes) (
  let left := num_bytes - sub r in
  if (distance <=? REPEAT_BUFFER_MAX_SIZE) && (distance <? left) then
    let n := Z.min left (space_left r) in
    let? rep := copy_decoded r distance distance in
    assert (negb (distance =? 0)) (
    let iters := n / distance in
    let rem := n - iters * distance in
    let? '(done, r) := repeat_loop (Z.to_nat iters) r rep in
    if negb done then Some (ONeedsMoreOutput, r) else
    let? '(k, r) := copy_to_ring r (zfirst rem rep) in
    let r := set_sub r (sub r + k) in
    Some (if negb (k =? rem) || negb (n =? left) then ONeedsMoreOutput else OSuccess, r))
  else
    let n := Z.min left distance in
    let? res := copy_some r distance n in
    match res with
    | None => Some (OFailure, r)
    | Some (k, r) => Some (if k =? left then OSuccess else ONeedsMoreOutput, set_sub r (sub r + k))
    end).

(** parse_dictionary, src/cmd_to_raw/mod.rs:284-309.  The word table and the transform
    function belong to the brotli crate and are a parameter: [dict size id transform]
    is the transformed word, [None] = index out of range (panic). *)
Definition dict_fn := Z -> Z -> Z -> option (list Z).
Definition parse_dictionary (dict : dict_fn) (r : rcs) (word_size word_id transform final_size : Z) : option (ores * rcs) :=
  let? word := dict word_size word_id transform in
  let final_len := zlen word in
  if space_left r <? final_len then Some (ONeedsMoreOutput, r) else
  if negb (final_size =? 0) && negb (final_len =? final_size) then Some (OFailure, r) else
  let? r :=
    if negb (sub r =? 0) then assert (sub r =? final_len) (Some r)
    else let? '(k, r) := copy_to_ring r word in assert (k =? final_len) (Some r) in
  Some (OSuccess, set_sub r final_len).

(** parse_command, src/cmd_to_raw/mod.rs:311-326 *)
Definition parse_command (dict : dict_fn) (r : rcs) (c : command) : option (ores * rcs) :=
  match c with
  | Literal data _ => parse_literal r data
  | Copy distance num_bytes => parse_copy r distance num_bytes
  | Dict ws wid tr fs => parse_dictionary dict r ws wid tr fs
  | PredictionMode _ | BlockSwitchCommand _ | BlockSwitchDistance _ | BlockSwitchLiteral _ _ => Some (OSuccess, r)
  end.

(** the loop of encode_cmd, src/cmd_to_raw/mod.rs:332-348; [true] in the result: the
    command was parsed completely *)
Fixpoint encode_loop (fuel : nat) (dict : dict_fn) (r : rcs) (c : command) (room : Z) : option (option ores * list Z * rcs) :=
  match fuel with
  | O => None
  | S fuel =>
      let? '(res, r) := parse_command dict r c in
      match res with
      | OSuccess => Some (None, [], r)
      | OFailure => Some (Some OFailure, [], r)
      | ONeedsMoreOutput =>
          let? '(fres, o, r) := rflush r room in
          match fres with
          | OSuccess =>
              let? '(res, o2, r) := encode_loop fuel dict r c (room - zlen o) in Some (res, o ++ o2, r)
          | _ => Some (Some fres, o, r)
          end
      end
  end.
(** encode_cmd, src/cmd_to_raw/mod.rs:328-362 *)
Definition encode_cmd (fuel : nat) (dict : dict_fn) (r : rcs) (c : command) (room : Z) : option (ores * list Z * rcs) :=
  let? '(res, o, r) := encode_loop fuel dict r c room in
  match res with
  | Some e => Some (e, o, r)
  | None =>
      if Z.land (Z.lxor (di r) (oi r)) 4294966272 =? 0 then Some (OSuccess, o, set_sub r 0)
      else
        let? '(fres, o2, r) := rflush r (room - zlen o) in
        match fres with
        | OSuccess => Some (OSuccess, o ++ o2, set_sub r 0)
        | res => Some (res, o ++ o2, r)
        end
  end.

(** Compressor::encode_commands, src/cmd_to_raw/mod.rs:378-406: inner loop for one
    command, then the list; returns result, output, number of commands consumed *)
Fixpoint commands_loop (fuel : nat) (dict : dict_fn) (r : rcs) (c : command) (room : Z) : option (ores * list Z * rcs) :=
  match fuel with
  | O => None
  | S fuel =>
      let? '(fres, o, r) := rflush r room in
      match fres with
      | OSuccess =>
          let? '(res, r) := parse_command dict r c in
          match res with
          | OSuccess => Some (OSuccess, o, set_sub r 0)
          | OFailure => Some (OFailure, o, r)
          | ONeedsMoreOutput =>
              let? '(res, o2, r) := commands_loop fuel dict r c (room - zlen o) in Some (res, o ++ o2, r)
          end
      | _ => Some (fres, o, r)
      end
  end.
Fixpoint encode_commands (fuel : nat) (dict : dict_fn) (r : rcs) (cs : list command) (room : Z) : option (ores * list Z * rcs * nat) :=
  match cs with
  | [] => let? '(res, o, r) := rflush r room in Some (res, o, r, O)
  | c :: cs =>
      let? '(res, o, r) := commands_loop fuel dict r c room in
      match res with
      | OSuccess =>
          let? '(res, o2, r, n) := encode_commands fuel dict r cs (room - zlen o) in Some (res, o ++ o2, r, S n)
      | _ => Some (res, o, r, O)
      end
  end.
