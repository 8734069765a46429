(** The default compressor with its command optimiser: what the callback of
    src/brotli_ir_gen.rs does with a metablock before the codec sees it. *)
From Verif Require Import Prelude ModelMux ModelCmd ModelRecode ModelIr ModelHybrid.

(** The arguments of the callback, src/brotli_ir_gen.rs:133-136: the context map, the
    commands with literals as ranges, and the input pair: both halves one after the other
    and the length of the first.  [i_merge] and [i_trial] are what the cost model answers
    while this metablock is optimised (see ModelIr).
    Simplified: orig_offset of the first half is 0. *)
Record iblock := IB { i_pm : predmode; i_cmds : list icmd; i_inp : list Z; i_half : Z; i_merge : nat -> option bool; i_trial : nat -> bool }.
(** brotli::thaw_pair, called in ThawingSliceArray, src/brotli_ir_gen.rs:449-456: the
    range of a literal must lie within one of the halves, otherwise it panics. *)
Definition thaw_pair (inp : list Z) (half : Z) (c : icmd) : option command :=
  match c with
  | IOther c => Some c
  | ILit off len he =>
      if (if off <? half then half <? off + len else zlen inp <? off + len) then None
      else Some (Literal (zfirst len (zskip off inp)) he)
  end.
Fixpoint thaw_all (inp : list Z) (half : Z) (l : list icmd) : option (list command) :=
  match l with
  | [] => Some []
  | c :: l => let? c := thaw_pair inp half c in let? l := thaw_all inp half l in Some (c :: l)
  end.
(** src/brotli_ir_gen.rs:139-163 up to the codec.  [tune] is opt.divans_ir_optimizer != 0.
    Simplified: an error of the optimiser and a panic are both [None]. *)
Definition prepare (tune : bool) (m : iblock) : option metablock :=
  let? l := (if tune then match ir_optimize (i_half m) (i_merge m) (i_trial m) (i_cmds m) with IrOk l => Some l | _ => None end else Some (i_cmds m)) in
  let? cmds := thaw_all (i_inp m) (i_half m) l in
  Some (i_pm m, cmds).
Fixpoint prepare_all (tune : bool) (ms : list iblock) : option (list metablock) :=
  match ms with
  | [] => Some []
  | m :: ms => let? m := prepare tune m in let? ms := prepare_all tune ms in Some (m :: ms)
  end.
(** Brotli's encoder as in [frontend], before the metablocks are prepared. *)
Record ifrontend (B : Type) := IFE {
  ib_step : B -> bool -> list Z -> Z -> option (Z * Z * list iblock * B);
  ib_finished : B -> bool }.
Arguments IFE {B}. Arguments ib_step {B}. Arguments ib_finished {B}.
(** The encoder together with the optimiser, as seen by the codec.  Simplified: a metablock
    that cannot be prepared makes the call fail; C61 is about errors of the optimiser. *)
Definition prepared {B} (tune : bool) (fe : ifrontend B) : frontend B := FE
  (fun b fin input room => let? '(k, w, ms, b) := ib_step fe b fin input room in let? ms := prepare_all tune ms in Some (k, w, ms, b))
  (ib_finished fe).
