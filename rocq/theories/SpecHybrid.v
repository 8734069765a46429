(** Using the default compressor, and what is expected of brotli's encoder. *)
From Verif Require Import Prelude ModelMux ModelCmd ModelRecode SpecLz ModelPriors ModelCodec ModelPm ModelTop ModelEnc SpecFile ModelIo ModelHybrid.

(** How a session ended: flush reported success; the flush calls ran out; the encode
    calls ran out while some input was not consumed; a failure, an overfull buffer, more
    consumed than offered, or more space wanted although some is left. *)
Inductive hend := HFinished | HWaiting | HLeft | HBroken.
Section S.
Context {P : Type} (pr : processor P).
(** flush called until it reports success, once per element of [rooms] *)
Fixpoint hfinish (p : P) (rooms : list Z) : option (list Z * hend) :=
  match rooms with
  | [] => Some ([], HWaiting)
  | room :: rooms =>
      let? '(o, p, r) := close pr p room in
      if room <? zlen o then Some (o, HBroken) else
      match r with
      | PSuccess => Some (o, HFinished)
      | PNeedOut => if zlen o <? room then Some (o, HBroken) else let? '(o2, v) := hfinish p rooms in Some (o ++ o2, v)
      | _ => Some (o, HBroken)
      end
  end.
(** One encode call per element of [calls]: the input that arrived since the last call
    and the free space of the output buffer; input not consumed is offered again.  When
    all calls are made and everything is consumed, the flush. *)
Fixpoint hsession (p : P) (rest : list Z) (calls : list (list Z * Z)) (rooms : list Z) : option (list Z * hend) :=
  match calls with
  | [] => match rest with [] => hfinish p rooms | _ => Some ([], HLeft) end
  | (piece, room) :: calls =>
      let input := rest ++ piece in
      let? '(n, o, p, r) := process pr p input room in
      if (room <? zlen o) || (n <? 0) || (zlen input <? n) then Some (o, HBroken) else
      match r with
      | PNeedIn => let? '(o2, v) := hsession p (zskip n input) calls rooms in Some (o ++ o2, v)
      | PNeedOut => if zlen o <? room then Some (o, HBroken) else let? '(o2, v) := hsession p (zskip n input) calls rooms in Some (o ++ o2, v)
      | _ => Some (o, HBroken)
      end
  end.
End S.

Section F.
Context (dict : dict_fn) (wl : word_len_fn) (D : dims) (g : cfg) (ws : Z).
Context {B : Type} (fe : frontend B) (optimize : metablock -> option metablock).
(** the commands of a metablock *)
Definition block (m : metablock) : list command :=
  match optimize m with Some (pm, cmds) => PredictionMode pm :: cmds | None => [] end.
(** [reaches b0 b x cmds]: the encoder started in [b0], has consumed [x], has invoked the
    callback for [cmds], and is in [b].  Its output buffer always has 256 free bytes. *)
Inductive reaches (b0 : B) : B -> list Z -> list command -> Prop :=
| reaches_start : reaches b0 b0 [] []
| reaches_step b x cmds fin input room k w ms b' :
    reaches b0 b x cmds -> b_finished fe b = false -> (fin = true -> input = []) -> bytes input -> 256 <= room ->
    b_step fe b fin input room = Some (k, w, ms, b') ->
    reaches b0 b' (x ++ zfirst k input) (cmds ++ concat (map block ms)).
(** finished after at most [n] calls of FINISH *)
Fixpoint ends (n : nat) (b : B) : Prop :=
  b_finished fe b = true \/
  match n with
  | O => False
  | S n => forall room k w ms b', 256 <= room -> b_step fe b true [] room = Some (k, w, ms, b') -> ends n b'
  end.
(** What divans expects of the encoder (and of the optimiser).  It never fails; it
    consumes at most what is there and puts out at most what fits; the optimiser does not
    fail; PROCESS does not finish the stream, and consumes all input or fills the output
    buffer; FINISH finishes it or fills the buffer, and finishes it after finitely many
    calls; the commands are acceptable. *)
Record good_frontend (b0 : B) : Prop := {
  gf_new : b_finished fe b0 = false;
  gf_works : forall b x cmds fin input room, reaches b0 b x cmds -> b_finished fe b = false -> (fin = true -> input = []) -> bytes input -> 256 <= room ->
    exists k w ms b', b_step fe b fin input room = Some (k, w, ms, b') /\ 0 <= k <= zlen input /\ 0 <= w <= room /\ Forall (fun m => optimize m <> None) ms /\
      (fin = false -> b_finished fe b' = false /\ (k = zlen input \/ w = room)) /\ (fin = true -> b_finished fe b' = true \/ w = room);
  gf_says : forall b x cmds, reaches b0 b x cmds -> acceptable dict wl D g ws cmds;
  gf_ends : forall b x cmds, reaches b0 b x cmds -> exists n, ends n b }.
(** When the stream is finished the commands stand for the input consumed. *)
Definition faithful (b0 : B) : Prop := forall b x cmds, reaches b0 b x cmds -> b_finished fe b = true -> meaning dict (window ws) cmds = x.
(** each call with some input consumes at least one byte *)
Definition eager : Prop := forall b input room k w ms b', input <> [] -> b_step fe b false input room = Some (k, w, ms, b') -> 1 <= k.
(** each call consumes all of its input *)
Definition greedy : Prop := forall b input room k w ms b', b_step fe b false input room = Some (k, w, ms, b') -> k = zlen input.
(** the same input offered again and again: after at most [n] calls some of it is consumed *)
Fixpoint takes (n : nat) (b : B) (input : list Z) : Prop :=
  match n with
  | O => False
  | S n => forall room k w ms b', 256 <= room -> b_step fe b false input room = Some (k, w, ms, b') -> 1 <= k \/ takes n b' input
  end.
(** input offered again and again is consumed in the end *)
Definition hungry (b0 : B) : Prop := forall b x cmds input, reaches b0 b x cmds -> b_finished fe b = false -> input <> [] -> bytes input -> exists n, takes n b input.
End F.
