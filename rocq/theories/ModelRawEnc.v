(** Model of DivansCompressor used on raw bytes: encode and flush with the raw input
    assembler, the command array and the commands kept for the next call when the output
    buffer is full.  src/divans_compressor.rs:189-426.  [None] is a panic or an exhausted
    loop bound. *)
From Verif Require Import Prelude ModelAns ModelCdf ModelMux ModelCmd ModelCrc ModelHeader ModelRecode ModelPriors ModelCodec ModelLit ModelPm ModelTop ModelEnc ModelRaw.

(** The prediction mode command of raw_to_cmd/mod.rs:117-135: literal map index mod 64,
    distance map index mod 4, mixing values 4, everything else zero (brotli's layout of
    the array is taken as separate fields). *)
Definition raw_pm (D : dims) : predmode :=
  PM (map Z.of_nat (seq 0 64)) [0; 1; 2; 3] (repeat 4 (Z.to_nat (n_mix D))) 0 0 0 [(0, 0); (0, 0)] [(0, 0); (0, 0)] [(0, 0); (0, 0)] true.
(** the fields of DivansCompressor, src/divans_compressor.rs:57-69; [rw_frz]: the slice
    freeze_dried_cmd_start..freeze_dried_cmd_end of freeze_dried_cmd_array *)
Record rawc := RWC { rw_cm : compressor; rw_asm : raws; rw_frz : list command }.
(** DivansCompressorFactory::new, src/divans_compressor.rs:87-123 *)
Definition rawc_new (D : dims) (opt : option Z) : rawc :=
  RWC (compressor_new D opt) (raw_new (repeat 0 (Z.to_nat (2 ^ choose_window opt)))) [].
(** thaw, src/divans_compressor.rs:132-138: a frozen literal refers to the ring of the
    assembler, which is not written between freezing and thawing, so its bytes are kept
    here (C36).  A frozen prediction mode would be read from the ring although its maps
    live elsewhere: that is modelled as a panic. *)
Definition thawable (c : command) : bool := match c with PredictionMode _ => false | _ => true end.
Section RawEnc.
Context (dict : dict_fn) (wl : word_len_fn) (D : dims) (g : cfg).
(** flush_freeze_dried_cmds, src/divans_compressor.rs:189-208 *)
Definition flush_frozen (fuel : nat) (s : rawc) (room : Z) : option (list Z * rawc * cres) :=
  match rw_frz s with
  | [] => Some ([], s, RSuccess)
  | frz =>
      assert (forallb thawable frz) (
      let cm := rw_cm s in
      let? '(o, c, rest, r) := codec_encode dict wl D g fuel frz (cm_codec cm) room in
      Some (o, RWC (CM (cm_hdr cm) (cm_ws cm) c) (rw_asm s) rest, match r with RNeedsMoreInput => RSuccess | r => r end))
  end.
(** header and frozen commands: the common start of encode and flush, 281-291, 366-376 *)
Definition raw_start (fuel : nat) (s : rawc) (room : Z) : option (list Z * rawc * cres) :=
  let '(h, cm, ok) := start_call (rw_cm s) room in
  let s := RWC cm (rw_asm s) (rw_frz s) in
  if negb ok then Some (h, s, RNeedsMoreOutput) else
  let? '(o, s, r) := flush_frozen fuel s (room - zlen h) in Some (h ++ o, s, r).
(** handing commands to the codec and freezing those not taken, 311-335, 400-421 *)
Definition hand_over (fuel : nat) (cs : list command) (s : rawc) (room : Z) : option (list Z * rawc * cres) :=
  let cm := rw_cm s in
  let? '(o, c, rest, r) := codec_encode dict wl D g fuel cs (cm_codec cm) room in
  let cm := CM (cm_hdr cm) (cm_ws cm) c in
  match r with
  | RNeedsMoreInput | RSuccess => assert (zlen rest =? 0) (Some (o, RWC cm (rw_asm s) (rw_frz s), RSuccess))
  | r => Some (o, RWC cm (rw_asm s) rest, r)
  end.
(** the loop of encode, 294-336; returns the unread input *)
Fixpoint encode_loop (rounds fuel : nat) (s : rawc) (input : list Z) (room : Z) : option (list Z * list Z * rawc * cres) :=
  match rounds with
  | O => None
  | S rounds =>
      let? '(res, cs, a, input) := raw_stream (raw_pm D) (rw_asm s) input CMD_BUFFER in
      let s := RWC (rw_cm s) a (rw_frz s) in
      match res, cs with
      | SNeedsMoreInput, [] => Some (input, [], s, RNeedsMoreInput)
      | _, _ =>
          let? '(o, s, r) := hand_over fuel cs s room in
          match r with
          | RSuccess =>
              match res with
              | SNeedsMoreInput => Some (input, o, s, RNeedsMoreInput)
              | SNeedsMoreOutput => let? '(rest, o2, s, r) := encode_loop rounds fuel s input (room - zlen o) in Some (rest, o ++ o2, s, r)
              end
          | r => Some (input, o, s, r)
          end
      end
  end.
(** encode, 276-337; returns the number of bytes read *)
Definition encode_raw (fuel : nat) (s : rawc) (input : list Z) (room : Z) : option (Z * list Z * rawc * cres) :=
  let? '(h, s, r) := raw_start fuel s room in
  match r with
  | RSuccess =>
      let? '(rest, o, s, r) := encode_loop (length input + 3) fuel s input (room - zlen h) in
      Some (zlen input - zlen rest, h ++ o, s, r)
  | r => Some (0, h, s, r)
  end.
(** the loop of flush, 378-424; [RSuccess] = go on to flush the codec *)
Fixpoint flush_loop (rounds fuel : nat) (s : rawc) (room : Z) : option (list Z * rawc * cres) :=
  match rounds with
  | O => None
  | S rounds =>
      let? '(res, cs, a) := raw_flush (raw_pm D) (rw_asm s) CMD_BUFFER in
      let s := RWC (rw_cm s) a (rw_frz s) in
      match res, cs with
      | OSuccess, [] => Some ([], s, RSuccess)
      | OFailure, _ => Some ([], s, RFailure ReplayFailure)
      | _, _ =>
          let? '(o, s, r) := hand_over fuel cs s room in
          match r with
          | RSuccess =>
              match res with
              | OSuccess => Some (o, s, RSuccess)
              | _ => let? '(o2, s, r) := flush_loop rounds fuel s (room - zlen o) in Some (o ++ o2, s, r)
              end
          | r => Some (o, s, r)
          end
      end
  end.
(** flush, 363-426 *)
Definition flush_raw (fuel : nat) (s : rawc) (room : Z) : option (list Z * rawc * cres) :=
  let? '(h, s, r) := raw_start fuel s room in
  match r with
  | RSuccess =>
      let? '(o, s, r) := flush_loop 3 fuel s (room - zlen h) in
      match r with
      | RSuccess =>
          let cm := rw_cm s in
          let? '(o2, c, r) := codec_flush dict wl D g fuel (cm_codec cm) (room - zlen h - zlen o) in
          Some (h ++ o ++ o2, RWC (CM (cm_hdr cm) (cm_ws cm) c) (rw_asm s) (rw_frz s), r)
      | r => Some (h ++ o, s, r)
      end
  | r => Some (h, s, r)
  end.
End RawEnc.
