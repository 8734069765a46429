(** Model of the command loop, DivansCodec::encode_or_decode_one_command,
    src/codec/mod.rs:333-376 and 652-940, serial mode (ThreadContext::MainThread).
    Shutdown, checksum and buffers belong to ModelFlow. *)
From Verif Require Import Prelude ModelAns ModelCdf ModelMux ModelCmd ModelPriors ModelCodec ModelLit ModelPm.

(** EncodeOrDecodeState, src/codec/mod.rs:114-130, with the state of the sub-coder that
    is active (the Rust struct keeps one field per sub-coder and resets it on entry).
    [TEnd]: the end command was coded (DivansSuccess when encoding, WriteChecksum(0)
    when decoding). *)
Inductive top :=
| TBegin | TLit (s : lit_st) | TDict (s : dict_st) | TCopy (s : copy_st)
| TBsl (s : lbtype_st) | TBsc (s : btype_st) | TBsd (s : btype_st) | TPm (u : pm_sub)
| TPop (c : command) | TEnd.

(** command_type_to_nibble, src/codec/mod.rs:143-158 *)
Definition command_type_to_nibble (c : command) (is_end : bool) : Z :=
  if is_end then 15 else
  match c with
  | Copy _ _ => 1 | Dict _ _ _ _ => 2 | Literal _ _ => 3 | BlockSwitchLiteral _ _ => 4
  | BlockSwitchCommand _ => 5 | BlockSwitchDistance _ => 6 | PredictionMode _ => 7
  end.

(** The replay buffer (DivansRecodeState): [rpop] executes a command completely,
    [rlast8] packs last_8_literals into a word.  ModelFlow instantiates it with
    ModelRecode. *)
Record replayer (R : Type) := RP { rpop : R -> command -> outcome R; rlast8 : R -> Z }.
Arguments rpop {R}. Arguments rlast8 {R}.

Record codec (R : Type) := K { k_bk : bk; k_lbk : lbk; k_mix : bool; k_pm : predmode; k_rec : R; k_st : top }.
Arguments K {R}. Arguments k_bk {R}. Arguments k_lbk {R}. Arguments k_mix {R}. Arguments k_pm {R}. Arguments k_rec {R}. Arguments k_st {R}.
(** DivansCodec::new, src/codec/mod.rs:214-275 *)
Definition codec_new {R} (D : dims) (r : R) : codec R := K bk_new lbk_new false (pm_new D) r TBegin.

Inductive tnode (R : Type) :=
| NCode (st : stream) (c : list Z) (k : Z -> outcome (codec R))
| NSilent (o : outcome (codec R))
| NAdvance (s : codec R) (c : command)    (* OneCommandReturn::Advance; [c] is the command just finished *)
| NEnd.
Arguments NCode {R}. Arguments NSilent {R}. Arguments NAdvance {R}. Arguments NEnd {R}.

Section Top.
Context {R : Type} (RR : replayer R) (wl : word_len_fn) (D : dims).
Definition kset (c : codec R) (b : bk) (t : top) : codec R := K b (k_lbk c) (k_mix c) (k_pm c) (k_rec c) t.
Definition lift {A} (f : A -> codec R) (d : outcome (codec R)) (n : node A) : tnode R :=
  match map_node f d n with
  | Code st c k => NCode st c k
  | Silent o => NSilent o
  | Done => NSilent Panic
  end.

(** update_command_state_from_nibble, src/codec/mod.rs:333-376, and the observations
    after it (682-687) *)
Definition begin_command (c : codec R) (b : bk) (v : Z) : outcome (codec R) :=
  if v =? 1 then Next (kset c (obs_copy_state b) (TCopy copy_begin))
  else if v =? 2 then Next (kset c (obs_dict_state b) (TDict dict_begin))
  else if v =? 3 then Next (kset c (obs_literal_state b) (TLit lit_begin))
  else if v =? 4 then Next (kset c b (TBsl LbBegin))
  else if v =? 5 then Next (kset c b (TBsc BtBegin))
  else if v =? 6 then Next (kset c b (TBsd BtBegin))
  else if v =? 7 then Next (kset c b (TPm PmBegin))
  else if v =? 15 then Next (kset c b TEnd)
  else Err CommandCodeOutOfBounds.

(** one round of encode_or_decode_one_command, src/codec/mod.rs:660-930 *)
Definition top_node (c : codec R) : tnode R :=
  let b := k_bk c in
  match k_st c with
  | TBegin =>
      match code b CcP FullSelection [Z.shiftr (last_4_states b) 4; 0] ROCKET (fun b v => begin_command c b v) with
      | Code st d k => NCode st d k
      | Silent o => NSilent o
      | Done => NSilent Panic
      end
  | TCopy s =>
      lift (fun p => kset c (fst p) (TCopy (snd p)))
           (Next (kset c (obs_distance b (cc_distance s)) (TPop (Copy (cc_distance s) (cc_num_bytes s)))))
           (copy_node b s)
  | TDict s =>
      lift (fun p => kset c (fst p) (TDict (snd p)))
           (Next (kset c b (TPop (Dict (dc_word_size s) (dc_word_id s) (dc_transform s) (dc_final_size s)))))
           (dict_node wl b s)
  | TLit s =>
      lift (fun p => K (fst (fst p)) (snd (fst p)) (k_mix c) (k_pm c) (k_rec c) (TLit (snd p)))
           (Next (kset c b (TPop (Literal (l_data s) (l_high_entropy s)))))
           (lit_node (k_mix c) b (k_lbk c) s)
  | TPop cmd =>
      match rpop RR (k_rec c) cmd with
      | Next r => NAdvance (K b (set_last_8 (k_lbk c) (rlast8 RR r)) (k_mix c) (k_pm c) r TBegin) cmd
      | Err e => NSilent (Err e)
      | Panic => NSilent Panic
      end
  | TBsl (LbFully t stride) =>
      NAdvance (K (obs_btype b 0 t) (set_btype_last (k_lbk c) t) (k_mix c) (k_pm c) (k_rec c) TBegin) (BlockSwitchLiteral t stride)
  | TBsl s => lift (fun p => kset c (fst p) (TBsl (snd p))) Panic (lbtype_node b s)
  | TBsc (BtFully t) => NAdvance (kset c (obs_btype b 1 t) TBegin) (BlockSwitchCommand t)
  | TBsc s => lift (fun p => kset c (fst p) (TBsc (snd p))) Panic (btype_node 1 b s)
  | TBsd (BtFully t) => NAdvance (kset c (obs_btype b 2 t) TBegin) (BlockSwitchDistance t)
  | TBsd s => lift (fun p => kset c (fst p) (TBsd (snd p))) Panic (btype_node 2 b s)
  | TPm PmFully =>
      match obs_prediction_mode (k_lbk c) (k_pm c) with
      | Next l => NAdvance (K b l (should_mix (wt_low l) || should_mix (wt_high l)) (k_pm c) (k_rec c) TBegin) (PredictionMode (k_pm c))
      | Err e => NSilent (Err e)
      | Panic => NSilent Panic
      end
  | TPm u => lift (fun p => K (fst p) (k_lbk c) (k_mix c) (fst (snd p)) (k_rec c) (TPm (snd (snd p)))) Panic (pm_node D b (k_pm c, u))
  | TEnd => NEnd
  end.

(** what the encoder puts.  A sub-coder only runs on a command of its own kind (the
    first nibble decides), so the mismatch cases are unreachable. *)
Definition top_want (g : cfg) (cmd : command) (is_end : bool) (c : codec R) : wanted :=
  match k_st c, cmd with
  | TBegin, _ => Put (command_type_to_nibble cmd is_end)
  | TCopy s, Copy d n => copy_want d n (k_bk c) s
  | TDict s, Dict ws wid tr _ => dict_want ws wid tr s
  | TLit s, Literal data he => lit_want data he s
  | TBsl s, BlockSwitchLiteral t stride => lbtype_want g t stride (k_bk c) s
  | TBsc s, BlockSwitchCommand t => btype_want t 1 (k_bk c) s
  | TBsd s, BlockSwitchDistance t => btype_want t 2 (k_bk c) s
  | TPm u, PredictionMode src => pm_want g src (k_bk c) (k_pm c, u)
  | TPop _, _ | TEnd, _ => Put 0
  | _, _ => WPanic
  end.
End Top.
