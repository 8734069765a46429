(** Model of the decompressor in its serial form: DivansDecompressor::decode and
    DivansProcess::decode (src/divans_decompressor.rs), the worker that decodes commands
    (src/codec/mod.rs with ThreadContext::Worker), the queue between them
    (SerialWorker and ThreadToMainDemuxer, src/threading.rs) and the main thread's part,
    which decodes literals and replays commands (src/codec/decoder.rs,
    src/codec/literal.rs:262-490).  [None] is a panic (including debug_assert) or an
    exhausted loop bound. *)
From Verif Require Import Prelude ModelAns ModelCdf ModelMux ModelCmd ModelCrc ModelHeader ModelRecode ModelPriors ModelCodec ModelLit ModelPm ModelTop ModelEnc SpecLz.

(** drain_or_fill_static_buffer for a decoder, src/codec/interface.rs:898-915 with
    src/arithmetic_coder.rs:185-199, on the readable part of [b]; [false] =
    NeedsMoreInput *)
Definition fill_from (d : decoder) (b : mbuf) : option (decoder * mbuf * bool) :=
  if num_push_bytes_avail d =? 0 then Some (d, b, true)
  else
    let? '(d, n) := ModelAns.push_data d (mb_data b) in
    Some (d, MB (mem b) (rd b + Z.of_nat n) (wr b), num_push_bytes_avail d =? 0).

(** ** The queue: SerialWorker, src/threading.rs:89-100 and 170-261, 458-556 *)
(** empty_prediction_mode_context_map, src/threading.rs:25-30 *)
Definition pm_nop : predmode := PM [] [] [] 0 0 0 [] [] [] false.
Record squeue := SQ {
  q_data : list mbuf;            (* data[..data_len] *)
  q_cm : list predmode;          (* cm[..cm_len], last element first *)
  q_res : list command;          (* result *)
  q_rdata : list mbuf;           (* the used slots of result_data *)
  q_rcm : predmode * predmode;   (* result_cm *)
  q_eof : bool }.                (* eof_present_in_result is Eof *)
Definition squeue_new : squeue := SQ [] [] [] [] (pm_nop, pm_nop) false.
Definition q_set_data q x := SQ x (q_cm q) (q_res q) (q_rdata q) (q_rcm q) (q_eof q).
Definition q_set_cm q x := SQ (q_data q) x (q_res q) (q_rdata q) (q_rcm q) (q_eof q).
Definition q_set_rdata q x := SQ (q_data q) (q_cm q) (q_res q) x (q_rcm q) (q_eof q).
Definition q_set_eof q x := SQ (q_data q) (q_cm q) (q_res q) (q_rdata q) (q_rcm q) x.
(** push, src/threading.rs:235-242; [None] = Err *)
Definition q_push (q : squeue) (b : mbuf) : option squeue :=
  if (2 <=? zlen (q_data q)) || (zlen (mb_data b) =? 0) then None
  else Some (q_set_data q (q_data q ++ [b])).
(** downcast_command, src/threading.rs:440-456: a literal keeps its length only (its
    bytes stand for the placeholder), a prediction mode nothing *)
Definition downcast (c : command) : command :=
  match c with
  | PredictionMode _ => PredictionMode pm_nop
  | Literal data he => Literal (repeat 0 (length data)) he
  | c => c
  end.
(** NUM_SERIAL_COMMANDS_BUFFERED, src/threading.rs:88 *)
Definition NUM_BUFFERED : Z := 256.
(** push_cmd, src/threading.rs:494-526; [None] = NeedsMoreOutput *)
Definition q_push_cmd (q : squeue) (c : command) : option squeue :=
  if zlen (q_res q) <? NUM_BUFFERED then
    let res := q_res q ++ [downcast c] in
    match c with
    | PredictionMode pm =>
        if has_speeds (fst (q_rcm q)) then
          if has_speeds (snd (q_rcm q)) then None
          else Some (SQ (q_data q) (q_cm q) res (q_rdata q) (fst (q_rcm q), pm) (q_eof q))
        else Some (SQ (q_data q) (q_cm q) res (q_rdata q) (pm, snd (q_rcm q)) (q_eof q))
    | _ => Some (SQ (q_data q) (q_cm q) res (q_rdata q) (q_rcm q) (q_eof q))
    end
  else None.
(** pull_if_necessary of ThreadToMainDemuxer with push_consumed_data and pull_data,
    src/threading.rs:285-313, 462-475, 528-543; its result is ignored by read_buffer
    (328) *)
Definition pull_slice (s : mbuf) (q : squeue) : mbuf * squeue :=
  if negb (zlen (mb_data s) =? 0) then (s, q) else
  let '(s, q, sent) :=
    if zlen (mem s) =? 0 then (s, q, true)
    else if zlen (q_rdata q) <? 2 then (mb_empty, q_set_rdata q (q_rdata q ++ [s]), true)
    else (s, q, false) in
  if sent then match q_data q with b :: bs => (b, q_set_data q bs) | [] => (s, q) end
  else (s, q).

(** ** The worker *)
(** [wk_c]: the command coder; it has no literal state and no ring buffer.  [wk_done]:
    state DivansSuccess. *)
Record worker := WK { wk_c : codec unit; wk_dec : decoder; wk_slice : mbuf; wk_done : bool }.
Definition wk_set_c w c := WK c (wk_dec w) (wk_slice w) (wk_done w).
Definition no_replayer : replayer unit := RP unit (fun r _ => Next r) (fun _ => 0).
Definition kset_pm {R} (c : codec R) (p : predmode) (t : top) : codec R := K (k_bk c) (k_lbk c) (k_mix c) p (k_rec c) t.
Inductive wres := WSuccess | WNeedIn | WNeedOut | WFail (e : err).

(** in which states the command stream is filled first; the places are those of
    [drains] in ModelEnc.  A worker leaves the literal coder when the content starts,
    after one more fill (src/codec/literal.rs:699-706). *)
Definition w_fills (t : top) : bool :=
  match t with
  | TPop _ | TEnd | TBsl (LbFully _ _) => false
  | TDict s => match d_sub s with DFully => false | _ => true end
  | _ => true
  end.
Section Dec.
Context (dict : dict_fn) (wl : word_len_fn) (D : dims).
(** what a state does once the buffer is filled: src/codec/mod.rs:660-930 with
    ThreadContext::Worker.  Differences to the serial coder: the content of a literal is
    skipped, a block switch of literals and a prediction mode are sent on (849-854,
    882-885), the latter with its memory. *)
Definition w_node (c : codec unit) : tnode unit :=
  match k_st c with
  | TLit s =>
      match l_sub s with
      | LNibble _ | LLower _ _ | LFully =>
          NSilent (Next (kset c (k_bk c) (TPop (Literal (repeat 0 (Z.to_nat (l_len s))) (l_high_entropy s)))))
      | _ => top_node no_replayer wl D c
      end
  | TBsl (LbFully t stride) => NSilent (Next (kset c (obs_btype (k_bk c) 0 t) (TPop (BlockSwitchLiteral t stride))))
  | TPm PmFully => NSilent (Next (kset_pm c pm_nop (TPop (PredictionMode (k_pm c)))))
  | _ => top_node no_replayer wl D c
  end.
(** one round; [None] in the last component: go on *)
Definition w_step (w : worker) (q : squeue) : option (worker * squeue * option wres) :=
  let c := wk_c w in
  if wk_done w then Some (w, q, Some WSuccess) else
  match k_st c with
  | TEnd => (* WriteChecksum: push_eof, src/threading.rs:545-552 *)
      Some (WK c (wk_dec w) (wk_slice w) true, q_set_eof q true, Some WSuccess)
  | TPop cmd => (* PopulateRingBuffer, src/codec/mod.rs:733-747 *)
      match q_push_cmd q cmd with
      | Some q => Some (wk_set_c w (kset c (k_bk c) TBegin), q, None)
      | None => Some (w, q, Some WNeedOut)
      end
  | t =>
      let wants_map := match t with TPm _ => negb (has_speeds (k_pm c)) | _ => false end in
      if wants_map then (* pull_context_map, src/codec/mod.rs:812-826, src/threading.rs:477-492 *)
        match q_cm q with
        | [] => Some (w, q, Some WNeedOut)
        | p :: ps => Some (wk_set_c w (kset_pm c p t), q_set_cm q ps, None)
        end
      else
        let? '(d, s, q, ok) :=
          if w_fills t then
            if num_push_bytes_avail (wk_dec w) =? 0 then Some (wk_dec w, wk_slice w, q, true)
            else let '(s, q) := pull_slice (wk_slice w) q in
                 let? '(d, s, ok) := fill_from (wk_dec w) s in Some (d, s, q, ok)
          else Some (wk_dec w, wk_slice w, q, true) in
        if negb ok then Some (WK c d s false, q, Some WNeedIn) else
        match w_node c with
        | NCode _ cdf k =>
            let? '(v, d) := get_sym d (ref_lookup cdf) in
            match k v with
            | Next c => Some (WK c d s false, q, None)
            | Err e => Some (WK c d s false, q, Some (WFail e))
            | Panic => None
            end
        | NSilent (Next c) => Some (WK c d s false, q, None)
        | NSilent (Err e) => Some (WK c d s false, q, Some (WFail e))
        | NSilent Panic => None
        | NAdvance c _ => Some (WK c d s false, q, None)
        | NEnd => None
        end
  end.
(** encode_or_decode of the worker with an empty command array, src/codec/mod.rs:562-651 *)
Fixpoint w_run (fuel : nat) (w : worker) (q : squeue) : option (worker * squeue * wres) :=
  match fuel with
  | O => None
  | S fuel =>
      let? '(w, q, r) := w_step w q in
      match r with Some r => Some (w, q, r) | None => w_run fuel w q end
  end.

(** ** The main thread: DivansDecoderCodec, src/codec/decoder.rs:36-63.  [m_lit]: the
    literal being decoded and whether its state is SafeLiteralNibbleIndex; [m_pop]:
    is_populating_ring_buffer with its command; [m_cmds]: cmd_buffer from
    cmd_buffer_offset; [self.eof] is never set and left out. *)
Record main := MN {
  m_mux : mux; m_crc : Z; m_trailer : list Z; m_out : Z;
  m_lbk : lbk; m_mix : bool; m_dec : decoder; m_rec : rcs;
  m_lit : option (bool * lit_st); m_pop : option command;
  m_cmds : list command; m_eof : bool; m_pred : predmode * predmode }.
Definition m_set_in m x c t o := MN x c t o (m_lbk m) (m_mix m) (m_dec m) (m_rec m) (m_lit m) (m_pop m) (m_cmds m) (m_eof m) (m_pred m).
Definition m_set_coder m d b := MN (setb (m_mux m) 1 b) (m_crc m) (m_trailer m) (m_out m) (m_lbk m) (m_mix m) d (m_rec m) (m_lit m) (m_pop m) (m_cmds m) (m_eof m) (m_pred m).
Definition m_set_lbk m l mix := MN (m_mux m) (m_crc m) (m_trailer m) (m_out m) l mix (m_dec m) (m_rec m) (m_lit m) (m_pop m) (m_cmds m) (m_eof m) (m_pred m).
Definition m_set_nib m d l s := MN (m_mux m) (m_crc m) (m_trailer m) (m_out m) l (m_mix m) d (m_rec m) s (m_pop m) (m_cmds m) (m_eof m) (m_pred m).
Definition m_set_lit m s := MN (m_mux m) (m_crc m) (m_trailer m) (m_out m) (m_lbk m) (m_mix m) (m_dec m) (m_rec m) s (m_pop m) (m_cmds m) (m_eof m) (m_pred m).
Definition m_set_pop m p := MN (m_mux m) (m_crc m) (m_trailer m) (m_out m) (m_lbk m) (m_mix m) (m_dec m) (m_rec m) (m_lit m) p (m_cmds m) (m_eof m) (m_pred m).
Definition m_set_rec m r p := MN (m_mux m) (m_crc m) (m_trailer m) (m_out m) (m_lbk m) (m_mix m) (m_dec m) r (m_lit m) p (m_cmds m) (m_eof m) (m_pred m).
Definition m_set_cmds m c := MN (m_mux m) (m_crc m) (m_trailer m) (m_out m) (m_lbk m) (m_mix m) (m_dec m) (m_rec m) (m_lit m) (m_pop m) c (m_eof m) (m_pred m).
Definition m_set_pred m p := MN (m_mux m) (m_crc m) (m_trailer m) (m_out m) (m_lbk m) (m_mix m) (m_dec m) (m_rec m) (m_lit m) (m_pop m) (m_cmds m) (m_eof m) p.
(** bytes ready for one stream: data_ready, src/mux.rs:203-205 *)
Definition ready (m : main) (s : Z) : Z := wr (getb (m_mux m) s) - rd (getb (m_mux m) s).

(** decode_process_input, src/codec/decoder.rs:121-163; also returns the number of bytes
    consumed; [false] = NeedsMoreInput *)
Definition process_input (skip : bool) (q : squeue) (m : main) (input : list Z) : option (Z * squeue * main * bool) :=
  let? '(n, x) := deserialize (m_mux m) input in
  let crc := if skip then m_crc m else crc32c_update (m_crc m) (zfirst n input) in
  let rest := zskip n input in
  let '(tr, amt) := if is_done (eof x) then read_trailer (m_trailer m) rest else (m_trailer m, 0%nat) in
  let n := n + Z.of_nat amt in
  if negb (wr (buf0 x) - rd (buf0 x) =? 0) then
    match q_push q (buf0 x) with
    | Some q => Some (n, q, m_set_in m (setb x 0 mb_empty) crc tr (m_out m + 1), true)
    | None => Some (n, q, m_set_in m x crc tr (m_out m), negb (m_out m =? 0))
    end
  else Some (n, q, m_set_in m x crc tr (m_out m), is_done (eof x) || (0 <? m_out m)).

(** ** The content of a literal, src/codec/literal.rs:262-490 *)
Definition lit_fill (m : main) : option (main * bool) :=
  let? '(d, b, ok) := fill_from (m_dec m) (buf1 (m_mux m)) in Some (m_set_coder m d b, ok).
(** one nibble: code_nibble (300-308 or 339-356) with the stored byte *)
Definition lit_nibble (m : main) : option main :=
  match m_lit m with
  | None => None
  | Some (safe, s) =>
      match lit_node (m_mix m) bk_new (m_lbk m) s with
      | Code LIT cdf k =>
          let? '(v, d) := get_sym (m_dec m) (ref_lookup cdf) in
          match k v with
          | Next (_, l, s) => Some (m_set_nib m d l (Some (safe, s)))
          | _ => None
          end
      | _ => None
      end
  end.
Definition lit_done (m : main) : bool :=
  match m_lit m with Some (_, s) => match l_sub s with LFully => true | _ => false end | None => true end.
(** state_literal_nibble_index, 729-735 *)
Definition set_safe (m : main) : main :=
  m_set_lit m (match m_lit m with Some (_, s) => Some (16 <=? ready m 1, s) | None => None end).
(** encode_or_decode_content_bytes with code_nibble_array.  Outside the safe state one
    round is one nibble: the code fills the buffer after each nibble and again on
    re-entry, which is the same as filling before the next one, except after the last
    nibble, where the fill is done and its result ignored (381-386).  [true] = Success *)
Fixpoint content (fuel : nat) (m : main) : option (main * bool) :=
  match fuel with
  | O => None
  | S fuel =>
      let? '(m, ok) := lit_fill m in
      if negb ok then Some (m, false) else
      match m_lit m with
      | None => None
      | Some (true, _) =>
          let? m := lit_nibble m in
          let? '(m, ok) := lit_fill m in
          assert ok (
          let low_buffer_warning := ready m 1 <? 16 in
          let? m := lit_nibble m in
          if low_buffer_warning then
            if lit_done m then Some (m, true) else content fuel (set_safe m)
          else
            let? '(m, ok) := lit_fill m in
            assert ok (if lit_done m then Some (m, true) else content fuel m))
      | Some (false, _) =>
          let? m := lit_nibble m in
          let high := match m_lit m with Some (_, s) => match l_sub s with LLower _ _ => true | _ => false end | None => false end in
          if high then content fuel m else
          let? '(m, ok) := lit_fill m in
          if lit_done m then Some (m, true)
          else if ok then content fuel m else Some (set_safe m, false)
      end
  end.
(** rounds: each codes at least one nibble *)
Definition content_fuel (m : main) : nat :=
  match m_lit m with Some (_, s) => S (Z.to_nat (2 * l_len s)) | None => 0%nat end.

(** ** decode_process_output, src/codec/decoder.rs:229-419 *)
Inductive dres := DSuccess | DNeedIn | DNeedOut | DFail.
Inductive presult := Processed (r : dres) | Yield.
(** the loop over the returned buffers, 302-335 *)
Definition m_set_buf m b o := m_set_in m (setb (m_mux m) 0 b) (m_crc m) (m_trailer m) o.
Fixpoint take_back (bufs : list mbuf) (q : squeue) (m : main) : option (squeue * main * bool) :=
  match bufs with
  | [] => Some (q, m, false)
  | dat :: bufs =>
      assert (1 <=? m_out m) (
      let out := m_out m - 1 in
      let cmd := buf0 (m_mux m) in
      let '(q, cmd, out, need) :=
        match q_push q cmd with
        | Some q => (q, mb_empty, out + 1, false)
        | None => (q, cmd, out, (out =? 0) && (negb (wr cmd - rd cmd =? 0) || negb (is_done (eof (m_mux m)))))
        end in
      let cmd := if zlen (mem cmd) =? 0 then MB (mem dat) (rd cmd) (wr cmd) else cmd in
      let? '(q, m, need2) := take_back bufs q (m_set_buf m cmd out) in
      Some (q, m, need || need2))
  end.
(** 290-344: get the worker's commands; [true] = NeedsMoreInput *)
Definition pull_commands (q : squeue) (m : main) : option (squeue * main * bool) :=
  match m_cmds m with
  | _ :: _ => Some (q, m, false)
  | [] =>
      if m_eof m then Some (q, m, false) else
      assert (negb (has_speeds (fst (m_pred m))) && negb (has_speeds (snd (m_pred m)))) (
      assert (match q_res q with [] => negb (has_speeds (fst (q_rcm q))) && negb (has_speeds (snd (q_rcm q))) | _ => true end) (
      let q' := SQ (q_data q) (q_cm q) [] [] (m_pred m) (q_eof q) in
      let m := MN (m_mux m) (m_crc m) (m_trailer m) (m_out m) (m_lbk m) (m_mix m) (m_dec m) (m_rec m) (m_lit m) (m_pop m) (q_res q) (m_eof m || q_eof q) (q_rcm q) in
      take_back (q_rdata q) q' m))
  end.
(** process_eof, 186-213, with the recoder's flush *)
Definition finish (skip : bool) (m : main) (room : Z) : option (list Z * main * dres) :=
  let? '(res, o, r) := rflush (m_rec m) room in
  let m := m_set_rec m r (m_pop m) in
  match res with
  | ModelRecode.OSuccess =>
      Some (o, m, match process_eof skip (m_crc m) (m_trailer m) with
                  | EofNeedsMoreInput => DNeedIn | EofBadChecksum _ _ => DFail | EofSuccess => DSuccess end)
  | ModelRecode.ONeedsMoreOutput => Some (o, m, DNeedOut)
  | ModelRecode.OFailure => Some (o, m, DFail)
  end.
(** construct_codec_trait_from_bookkeeping, src/codec/interface.rs *)
Definition traits (l : lbk) : bool := should_mix (wt_low l) || should_mix (wt_high l).
(** one command taken from the buffer, 355-417; [true] = Yield *)
Definition take_command (c : command) (q : squeue) (m : main) : option (squeue * main * option presult) :=
  match c with
  | Literal data _ =>
      let l := set_last_8 (m_lbk m) (pack8 (m_rec m)) in
      let m := m_set_lbk m l (m_mix m) in
      Some (q, m_set_lit m (Some (16 <=? ready m 1, LS [] (zlen data) false (LNibble 0))), Some Yield)
  | PredictionMode _ =>
      let p := fst (m_pred m) in
      let m := m_set_pred m (snd (m_pred m), pm_nop) in
      match obs_prediction_mode (m_lbk m) p with
      | Next l =>
          assert (zlen (q_cm q) <? 2) (Some (q_set_cm q (p :: q_cm q), m_set_lbk m l (traits l), None))
      | Err _ => Some (q, m, Some (Processed DFail))
      | Panic => None
      end
  | BlockSwitchLiteral t _ => let l := set_btype_last (m_lbk m) t in Some (q, m_set_lbk m l (traits l), None)
  | c => Some (q, m_set_pop m (Some c), None)
  end.
Fixpoint process_output (skip : bool) (fuel : nat) (q : squeue) (m : main) (room : Z) : option (list Z * squeue * main * presult) :=
  match fuel with
  | O => None
  | S fuel =>
      let? '(m, ok) :=
        match m_lit m with
        | None => Some (m, true)
        | Some _ =>
            let? '(m, ok) := content (content_fuel m) m in
            if ok then
              match m_lit m with
              | Some (_, s) => Some (m_set_pop (m_set_lit m None) (Some (Literal (l_data s) (l_high_entropy s))), true)
              | None => None
              end
            else Some (m, false)
        end in
      if negb ok then Some ([], q, m, Processed DNeedIn) else
      let? '(o, m, r) := (* populate_ring_buffer, 165-184 *)
        match m_pop m with
        | None => Some ([], m, ModelRecode.OSuccess)
        | Some c =>
            let? '(r, o, x) := encode_cmd (cmd_fuel dict c) dict (m_rec m) c room in
            Some (o, m_set_rec m x (match r with ModelRecode.OSuccess => None | _ => Some c end), r)
        end in
      match r with
      | ModelRecode.ONeedsMoreOutput => Some (o, q, m, Processed DNeedOut)
      | ModelRecode.OFailure => Some (o, q, m, Processed DFail)
      | ModelRecode.OSuccess =>
          let? '(q, m, need) := pull_commands q m in
          if need then Some (o, q, m, Processed DNeedIn) else
          match m_cmds m with
          | [] =>
              if m_eof m then let? '(o2, m, r) := finish skip m (room - zlen o) in Some (o ++ o2, q, m, Processed r)
              else Some (o, q, m, Yield)
          | c :: cs =>
              let? '(q, m, r) := take_command c q (m_set_cmds m cs) in
              match r with
              | Some r => Some (o, q, m, r)
              | None => let? '(o2, q, m, r) := process_output skip fuel q m (room - zlen o) in Some (o ++ o2, q, m, r)
              end
          end
      end
  end.

(** ** DivansProcess::decode, src/divans_decompressor.rs:111-161 *)
Record proc := PR { p_w : worker; p_q : squeue; p_m : main }.
Fixpoint process (skip : bool) (fuel : nat) (p : proc) (input : list Z) (room : Z) : option (Z * list Z * proc * dres) :=
  match fuel with
  | O => None
  | S rounds =>
      let? '(n, q, m, ok) := process_input skip (p_q p) (p_m p) input in
      if negb ok then Some (n, [], PR (p_w p) q m, DNeedIn) else
      let? '(w, q, r) := w_run fuel (p_w p) q in
      match r with
      | WFail _ => Some (n, [], PR w q m, DFail)
      | _ =>
          if (match r with WNeedIn => true | _ => false end) && (m_out m =? 0) then Some (n, [], PR w q m, DNeedIn) else
          let? '(o, q, m, r) := process_output skip fuel q m room in
          match r with
          | Processed r => Some (n, o, PR w q m, r)
          | Yield =>
              let? '(n2, o2, p, r) := process skip rounds (PR w q m) (zskip n input) (room - zlen o) in
              Some (n + n2, o ++ o2, p, r)
          end
      end
  end.
(** finish_parsing_header_serial, src/divans_decompressor.rs:212-291, and fork,
    src/codec/mod.rs:293-315 *)
Definition worker_new : worker := WK (codec_new D tt) dec_new mb_empty false.
Definition main_new (crc : Z) (ws : Z) : main :=
  MN mux_new crc [] 0 lbk_new false dec_new (rc_new (repeat 0 (Z.to_nat (2 ^ ws)))) None None [] false (pm_nop, pm_nop).
Definition proc_new (skip : bool) (header : list Z) (ws : Z) : proc :=
  PR worker_new squeue_new (main_new (if skip then 0 else crc32c_update 0 header) ws).
(** DivansDecompressor without MultiDecode *)
Inductive decompressor := DHeader (h : hdr_parser) | DDecode (p : proc).
Definition decompressor_new : decompressor := DHeader hp_new.
(** DivansDecompressor::decode (decode_body!), src/divans_decompressor.rs:352-399 *)
Definition decode (skip : bool) (fuel : nat) (d : decompressor) (input : list Z) (room : Z) : option (Z * list Z * decompressor * dres) :=
  let run p input := let? '(n, o, p, r) := process skip fuel p input room in Some (n, o, DDecode p, r) in
  match d with
  | DHeader h =>
      let '(h, n, r) := hp_decode h input in
      match r with
      | HNeedsMoreInput => Some (Z.of_nat n, [], DHeader h, DNeedIn)
      | HErr _ => Some (Z.of_nat n, [], DHeader h, DFail)
      | HOk ws =>
          let p := proc_new skip (hp_header h) ws in
          if Z.of_nat n <? zlen input then
            let? '(n2, o, d, r) := run p (zskip (Z.of_nat n) input) in Some (Z.of_nat n + n2, o, d, r)
          else Some (Z.of_nat n, [], DDecode p, DNeedIn)
      end
  | DDecode p => run p input
  end.
End Dec.
