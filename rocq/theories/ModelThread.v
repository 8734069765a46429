(** Model of the decompressor with two threads: ParallelDivansProcess
    (src/parallel_decompressor.rs), MultiWorker and BufferedMultiWorker
    (src/multithreading.rs) over the queue of ModelDec, and the same codec halves as in
    ModelDec.  A step is what a thread does while it holds the queue's lock, together with
    the work on its own data up to the next time it wants the lock; a schedule is any
    sequence of steps of the two threads.  Work on data no other thread can see commutes
    with the other thread's steps, so this loses no behaviour.  [None] is a panic. *)
From Verif Require Import Prelude ModelAns ModelCdf ModelMux ModelCmd ModelCrc ModelHeader ModelRecode ModelPriors ModelCodec ModelLit ModelPm ModelTop ModelEnc SpecLz ModelDec.

(** The condition variable: [Asleep] is inside wait; [Woken] has been notified (or woken
    spuriously) and will take the lock again, count itself out of [waiters] and look
    again at what it was waiting for. *)
Inductive sleep := Awake | Asleep | Woken.
Definition wake (x : sleep) : sleep := match x with Asleep => Woken | x => x end.

(** SerialWorker under the mutex: the queue, whether eof_present_in_result is an error,
    whether err is set, and waiters; src/threading.rs:89-110 *)
Record shared := SH { sh_q : squeue; sh_failed : bool; sh_err : bool; sh_waiters : Z }.
Definition shared_new : shared := SH squeue_new false false 0.
Definition sh_set_q s q := SH q (sh_failed s) (sh_err s) (sh_waiters s).
Definition sh_wait s k := SH (sh_q s) (sh_failed s) (sh_err s) (sh_waiters s + k).
(** [if worker.waiters != 0 {cvar.notify_one()}] *)
Definition notify (s : shared) : bool := negb (sh_waiters s =? 0).
(** broadcast_err_internal, src/threading.rs:102-105 *)
Definition broadcast s := SH (sh_q s) true true (sh_waiters s).
(** result_ready, src/threading.rs:106-111 *)
Definition result_ready (s : shared) : bool :=
  sh_failed s || q_eof (sh_q s) || negb (zlen (q_res (sh_q s)) =? 0) || negb (zlen (q_rdata (sh_q s)) =? 0).

(** ** The worker thread *)
(** What a force_push was called for: push_cmd, push_eof or push_consumed_data. *)
Inductive after := KRun | KEof | KPull.
(** Where the thread is: running the codec; in force_push; in pull_data; in
    pull_context_map; ended with success; ended with a failure *)
Inductive wpc := WRun | WPush (k : after) (pm : option predmode) | WPull | WMap | WDone | WFailed.
(** BufferedMultiWorker: [tw_buf] is buffer, [tw_min] min_buffer_push_len *)
Record wthread := TW { tw_w : worker; tw_buf : list command; tw_min : Z; tw_pc : wpc; tw_st : sleep }.
Definition tw_go t pc := TW (tw_w t) (tw_buf t) (tw_min t) pc Awake.
Definition tw_set_w t w pc := TW w (tw_buf t) (tw_min t) pc Awake.
Definition tw_sleep t := TW (tw_w t) (tw_buf t) (tw_min t) (tw_pc t) Asleep.
(** the start of force_push, src/multithreading.rs:377-380 *)
Definition start_push t k pm :=
  TW (tw_w t) (tw_buf t) (if tw_min t * 2 <? NUM_BUFFERED then tw_min t * 4 else tw_min t) (WPush k pm) Awake.

(** one round of the loop of force_push, src/multithreading.rs:381-428.  First the empty
    slice is handed back: push_consumed_data, src/threading.rs:528-543.  [sent]: the
    branch that notifies; [full]: both slots are taken *)
Definition send_back (s : shared) (w : worker) (k : after) : shared * worker * bool * bool :=
  let has_data := match k with KPull => negb (zlen (mem (wk_slice w)) =? 0) | _ => false end in
  if has_data then
    if sh_err s then (SH (sh_q s) true true (sh_waiters s), w, true, false)
    else if zlen (q_rdata (sh_q s)) <? 2 then
      (sh_set_q s (q_set_rdata (sh_q s) (q_rdata (sh_q s) ++ [wk_slice w])), WK (wk_c w) (wk_dec w) mb_empty (wk_done w), true, false)
    else (s, w, false, true)
  else (s, w, false, false).
(** Then the results: result_multi_space_ready (src/threading.rs:118-120), set_eof_hint
    (135-139) and insert_results (147-169).  A failure of push_cmd or push_eof ends the
    thread after a broadcast (src/parallel_decompressor.rs:119-123); one of
    push_consumed_data is dropped by read_buffer (src/threading.rs:328). *)
Definition push_results (s : shared) (t : wthread) (k : after) (pm : option predmode) (sent : bool) : option (shared * wthread * bool) :=
  let q := sh_q s in
  let w := tw_w t in
  if zlen (tw_buf t) <=? NUM_BUFFERED - zlen (q_res q) then
    assert (match pm with Some _ => negb (has_speeds (snd (q_rcm q))) | None => true end) (
    let rcm := match pm with
               | Some p => if has_speeds (fst (q_rcm q)) then (fst (q_rcm q), p) else (p, snd (q_rcm q))
               | None => q_rcm q end in
    let ends := match k with KEof => true | _ => false end in
    let q' := SQ (q_data q) (q_cm q) (q_res q ++ tw_buf t) (q_rdata q) rcm (q_eof q || (ends && negb (sh_failed s))) in
    let min := if zlen (q_res q) <=? 16 then Z.max (tw_min t / 2) 4 else tw_min t in
    let pc := match k with KRun => WRun | KEof => WDone | KPull => WPull end in
    Some (sh_set_q s q', TW (WK (wk_c w) (wk_dec w) (wk_slice w) ends) [] min pc Awake, notify s))
  else if sh_err s then
    match k with
    | KPull => Some (s, tw_go t WRun, sent && notify s)
    | _ => Some (broadcast s, tw_go t WFailed, notify s)
    end
  else Some (sh_wait s 1, tw_sleep t, sent && notify s).
Definition force_push (s : shared) (t : wthread) (k : after) (pm : option predmode) : option (shared * wthread * bool) :=
  let '(s, w, sent, full) := send_back s (tw_w t) k in
  let t := TW w (tw_buf t) (tw_min t) (tw_pc t) (tw_st t) in
  if full then Some (sh_wait s 1, tw_sleep t, false) else push_results s t k pm sent.

Section Thread.
Context (dict : dict_fn) (wl : word_len_fn) (D : dims) (skip : bool).
(** the codec's work on the worker's own data: as in [w_step] of ModelDec, src/codec/mod.rs:660-930 *)
Definition w_code (w : worker) : option (worker * option wres) :=
  let c := wk_c w in
  let? '(d, s, ok) :=
    if w_fills (k_st c) then fill_from (wk_dec w) (wk_slice w) else Some (wk_dec w, wk_slice w, true) in
  if negb ok then Some (WK c d s false, Some WNeedIn) else
  match w_node wl D c with
  | NCode _ cdf k =>
      let? '(v, d) := get_sym d (ref_lookup cdf) in
      match k v with
      | Next c => Some (WK c d s false, None)
      | Err e => Some (WK c d s false, Some (WFail e))
      | Panic => None
      end
  | NSilent (Next c) => Some (WK c d s false, None)
  | NSilent (Err e) => Some (WK c d s false, Some (WFail e))
  | NSilent Panic => None
  | NAdvance c _ => Some (WK c d s false, None)
  | NEnd => None
  end.
(** does the codec want bytes, with none at hand?  pull_if_necessary, src/threading.rs:294-313, called by
    drain_or_fill_static_buffer, src/codec/interface.rs:898-915 *)
Definition starving (w : worker) : bool :=
  w_fills (k_st (wk_c w)) && negb (num_push_bytes_avail (wk_dec w) =? 0) && (zlen (mb_data (wk_slice w)) =? 0).
Definition wants_map (c : codec unit) : bool := match k_st c with TPm _ => negb (has_speeds (k_pm c)) | _ => false end.
(** push_cmd of BufferedMultiWorker, src/multithreading.rs:451-472 *)
Definition push_command (t : wthread) (cmd : command) : option wthread :=
  assert (zlen (tw_buf t) <? NUM_BUFFERED) (
  let c := wk_c (tw_w t) in
  let buf := tw_buf t ++ [downcast cmd] in
  let t := TW (wk_set_c (tw_w t) (kset c (k_bk c) TBegin)) buf (tw_min t) WRun Awake in
  Some (match cmd with
        | PredictionMode pm => start_push t KRun (Some pm)
        | _ => if (zlen buf =? NUM_BUFFERED) || (zlen buf =? tw_min t) then start_push t KRun None else t
        end)).
(** One step of an awake worker thread: the queue, the thread, and whether it notifies.
    The thread's loop is src/parallel_decompressor.rs:104-133; the calls it makes are
    pull_data (src/multithreading.rs:237-256), pull_context_map (257-278) and those above. *)
Definition wstep (s : shared) (t : wthread) : option (shared * wthread * bool) :=
  let w := tw_w t in
  match tw_pc t with
  | WRun =>
      match k_st (wk_c w) with
      | TEnd => Some (s, start_push t KEof None, false)
      | TPop cmd => let? t := push_command t cmd in Some (s, t, false)
      | _ =>
          if wants_map (wk_c w) then Some (s, tw_go t WMap, false)
          else if starving w then
            Some (s, if zlen (mem (wk_slice w)) =? 0 then tw_go t WPull else start_push t KPull None, false)
          else
            let? '(w, r) := w_code w in
            match r with
            | Some (WFail _) => Some (broadcast s, tw_set_w t w WFailed, notify s)
            | _ => Some (s, tw_set_w t w WRun, false)
            end
      end
  | WPush k pm => force_push s t k pm
  | WPull =>
      match q_data (sh_q s) with
      | [] => Some (sh_wait s 1, tw_sleep t, false)
      | b :: bs =>
          if sh_err s then Some (s, tw_go t WRun, false)
          else Some (sh_set_q s (q_set_data (sh_q s) bs), tw_set_w t (WK (wk_c w) (wk_dec w) b (wk_done w)) WRun, false)
      end
  | WMap =>
      match q_cm (sh_q s) with
      | [] => Some (sh_wait s 1, tw_sleep t, false)
      | p :: ps =>
          if sh_err s then Some (s, tw_go t WRun, notify s)
          else Some (sh_set_q s (q_set_cm (sh_q s) ps), tw_set_w t (wk_set_c w (kset_pm (wk_c w) p (k_st (wk_c w)))) WRun, notify s)
      end
  | WDone | WFailed => Some (s, t, false)
  end.

(** ** The main thread, during a call of decode *)
(** Where it is: not in a call, the last one having returned [r]; in decode_process_input;
    in decode_process_output at the top of the loop; about to look at the next command; in
    pull; in the loop over returned buffers, with need_input and whether the status was an
    error; in push_context_map *)
Inductive mpc := MRet (r : dres) | MIn | MOut | MNext | MPull | MBack (bufs : list mbuf) (need bad : bool) | MMap (p : predmode).
(** [tm_in]: the input not yet consumed; [tm_n]: bytes consumed by this call; [tm_out]:
    bytes put out by this call; [tm_room]: free space left *)
Record mthread := TM { tm_m : main; tm_pc : mpc; tm_st : sleep; tm_in : list Z; tm_n : Z; tm_out : list Z; tm_room : Z }.
Definition tm_go t m pc := TM m pc Awake (tm_in t) (tm_n t) (tm_out t) (tm_room t).
Definition tm_put t m pc o := TM m pc Awake (tm_in t) (tm_n t) (tm_out t ++ o) (tm_room t - zlen o).
Definition tm_sleep t := TM (tm_m t) (tm_pc t) Asleep (tm_in t) (tm_n t) (tm_out t) (tm_room t).
(** commands_or_data_to_receive, src/codec/decoder.rs:117-120 *)
Definition receiving (m : main) : bool := (0 <? m_out m) || (is_done (eof (m_mux m)) && (ready m 0 =? 0)).
(** the top of the loop, src/codec/decoder.rs:236-287, as in [process_output] of ModelDec *)
Inductive tres := TOk | TIn | TOut | TFail.
Definition output_front (m : main) (room : Z) : option (list Z * main * tres) :=
  let? '(m, ok) :=
    match m_lit m with
    | None => Some (m, true)
    | Some _ =>
        let? '(m, ok) := content (content_fuel m) m in
        if ok then
          match m_lit m with
          | Some (_, s) => Some (m_set_pop (m_set_lit m None) (Some (Literal (l_data s) (l_high_entropy s))), true)
          | None => None
          end
        else Some (m, false)
    end in
  if negb ok then Some ([], m, TIn) else
  match m_pop m with
  | None => Some ([], m, TOk)
  | Some c =>
      let? '(r, o, x) := encode_cmd (cmd_fuel dict c) dict (m_rec m) c room in
      Some (o, m_set_rec m x (match r with ModelRecode.OSuccess => None | _ => Some c end),
            match r with ModelRecode.OSuccess => TOk | ModelRecode.ONeedsMoreOutput => TOut | ModelRecode.OFailure => TFail end)
  end.
(** One step of an awake main thread in a call; src/parallel_decompressor.rs:172-206 with
    src/codec/decoder.rs:229-419 and, of MultiWorker, push (src/multithreading.rs:177-202),
    pull (205-230) and push_context_map (156-175) *)
Definition mstep (s : shared) (t : mthread) : option (shared * mthread * bool) :=
  let m := tm_m t in
  match tm_pc t with
  | MRet _ => Some (s, t, false)
  | MIn =>
      let? '(n, q, m, ok) := process_input skip (sh_q s) m (tm_in t) in
      let pushed := zlen (q_data (sh_q s)) <? zlen (q_data q) in
      let pc := if negb ok then MRet DNeedIn else if receiving m then MOut else MIn in
      Some (sh_set_q s q, TM m pc Awake (zskip n (tm_in t)) (tm_n t + n) (tm_out t) (tm_room t), pushed && notify s)
  | MOut =>
      let? '(o, m, r) := output_front m (tm_room t) in
      Some (s, tm_put t m (match r with TOk => MNext | TIn => MRet DNeedIn | TOut => MRet DNeedOut | TFail => MRet DFail end) o, false)
  | MNext =>
      match m_cmds m with
      | [] =>
          if m_eof m then let? '(o, m, r) := finish skip m (tm_room t) in Some (s, tm_put t m (MRet r) o, false)
          else Some (s, tm_go t m MPull, false)
      | PredictionMode _ :: cs =>
          let p := fst (m_pred m) in
          let m := m_set_pred (m_set_cmds m cs) (snd (m_pred m), pm_nop) in
          match obs_prediction_mode (m_lbk m) p with
          | Next l => Some (s, tm_go t (m_set_lbk m l (traits l)) (MMap p), false)
          | Err _ => Some (s, tm_go t m (MRet DFail), false)
          | Panic => None
          end
      | c :: cs =>
          let? '(q, m, r) := take_command c (sh_q s) (m_set_cmds m cs) in
          Some (sh_set_q s q, tm_go t m MOut, false)
      end
  | MPull =>
      assert (negb (has_speeds (fst (m_pred m))) && negb (has_speeds (snd (m_pred m)))) (
      let q := sh_q s in
      if result_ready s then
        assert (match q_res q with [] => negb (has_speeds (fst (q_rcm q))) && negb (has_speeds (snd (q_rcm q))) | _ => true end) (
        let q' := SQ (q_data q) (q_cm q) [] [] (m_pred m) (q_eof q) in
        let m' := MN (m_mux m) (m_crc m) (m_trailer m) (m_out m) (m_lbk m) (m_mix m) (m_dec m) (m_rec m) (m_lit m) (m_pop m) (q_res q) (m_eof m || (q_eof q && negb (sh_failed s))) (q_rcm q) in
        Some (sh_set_q s q', tm_go t m' (MBack (q_rdata q) false (sh_failed s)), notify s))
      else if sh_err s then Some (s, tm_go t m (MRet DFail), false)
      else Some (sh_wait s 1, tm_sleep t, false))
  | MBack (dat :: bufs) need bad =>
      assert (1 <=? m_out m) (
      let out := m_out m - 1 in
      let cmd := buf0 (m_mux m) in
      let '(q, cmd, out, need2, pushed) :=
        match q_push (sh_q s) cmd with
        | Some q => (q, mb_empty, out + 1, false, true)
        | None => (sh_q s, cmd, out, (out =? 0) && (negb (wr cmd - rd cmd =? 0) || negb (is_done (eof (m_mux m)))), false)
        end in
      let cmd := if zlen (mem cmd) =? 0 then MB (mem dat) (rd cmd) (wr cmd) else cmd in
      Some (sh_set_q s q, tm_go t (m_set_buf m cmd out) (MBack bufs (need || need2) bad), pushed && notify s))
  | MBack [] need bad =>
      Some (s, tm_go t m (if bad then MRet DFail else if need then MRet DNeedIn else
                          match m_cmds m with [] => if m_eof m then MNext else MOut | _ => MNext end), false)
  | MMap p =>
      if zlen (q_cm (sh_q s)) <? 2 then Some (sh_set_q s (q_set_cm (sh_q s) (p :: q_cm (sh_q s))), tm_go t m MOut, notify s)
      else Some (sh_wait s 1, tm_sleep t, false)
  end.

(** ** The two threads *)
Record world := WD { wd_sh : shared; wd_w : wthread; wd_m : mthread }.
Inductive event := ByMain | ByWorker | WakeMain | WakeWorker.
Definition tm_set_st t x := TM (tm_m t) (tm_pc t) x (tm_in t) (tm_n t) (tm_out t) (tm_room t).
Definition tw_set_st t x := TW (tw_w t) (tw_buf t) (tw_min t) (tw_pc t) x.
Definition in_call (t : mthread) : bool := match tm_pc t with MRet _ => false | _ => true end.
Definition ended (t : wthread) : bool := match tw_pc t with WDone | WFailed => true | _ => false end.
(** A step of one thread.  A thread asleep does nothing; one that was woken first counts
    itself out.  notify_one wakes the only other thread, if it is asleep.  The last two
    events are spurious wake-ups, which condition variables may have. *)
Definition leave_wait (x : sleep) (s : shared) : shared := match x with Woken => sh_wait s (-1) | _ => s end.
Definition step (e : event) (x : world) : option world :=
  let s := wd_sh x in let w := wd_w x in let m := wd_m x in
  match e with
  | ByMain =>
      match tm_st m with
      | Asleep => Some x
      | st =>
          if in_call m then
            let? '(s, m, note) := mstep (leave_wait st s) (tm_set_st m Awake) in
            Some (WD s (if note then tw_set_st w (wake (tw_st w)) else w) m)
          else Some x
      end
  | ByWorker =>
      match tw_st w with
      | Asleep => Some x
      | st =>
          if ended w then Some x
          else
            let? '(s, w, note) := wstep (leave_wait st s) (tw_set_st w Awake) in
            Some (WD s w (if note then tm_set_st m (wake (tm_st m)) else m))
      end
  | WakeMain => Some (WD s w (tm_set_st m (wake (tm_st m))))
  | WakeWorker => Some (WD s (tw_set_st w (wake (tw_st w))) m)
  end.

(** ** DivansDecompressor with MultiDecode: ParallelDivansProcess::new
    (src/parallel_decompressor.rs:55-141) once the header is read, and the start of a call
    of decode (src/divans_decompressor.rs:352-399) *)
Inductive pdec := PHeader (h : hdr_parser) | PDecode (x : world).
Definition pdec_new : pdec := PHeader hp_new.
Definition wthread_new : wthread := TW (worker_new D) [] 2 WRun Awake.
Definition world_new (header : list Z) (ws : Z) (pc : mpc) (input : list Z) (n room : Z) : world :=
  WD shared_new wthread_new (TM (main_new (if skip then 0 else crc32c_update 0 header) ws) pc Awake input n [] room).
(** [Some]: the call returns at once, with the bytes consumed *)
Definition begin_call (d : pdec) (input : list Z) (room : Z) : pdec * option (Z * dres) :=
  match d with
  | PHeader h =>
      let '(h, n, r) := hp_decode h input in
      let n := Z.of_nat n in
      match r with
      | HNeedsMoreInput => (PHeader h, Some (n, DNeedIn))
      | HErr _ => (PHeader h, Some (n, DFail))
      | HOk ws =>
          if n <? zlen input then (PDecode (world_new (hp_header h) ws MIn (zskip n input) n room), None)
          else (PDecode (world_new (hp_header h) ws (MRet DNeedIn) [] n room), Some (n, DNeedIn))
      end
  | PDecode x => (PDecode (WD (wd_sh x) (wd_w x) (TM (tm_m (wd_m x)) MIn Awake input 0 [] room)), None)
  end.
(** free and free_ref, src/parallel_decompressor.rs:142-171: broadcast_err (128-136 of
    src/multithreading.rs), then wait for the codec's mutex, which the worker thread holds
    from its first turn until it ends.  [free_returns]: the mutex is free again.  (Before
    the worker's first turn free finds the mutex free and returns; the tool's model,
    ModelToolThread.v, has that case.) *)
Definition begin_free (x : world) : world :=
  WD (broadcast (wd_sh x)) (if notify (wd_sh x) then tw_set_st (wd_w x) (wake (tw_st (wd_w x))) else wd_w x) (wd_m x).
Definition free_returns (x : world) : bool := ended (wd_w x).
End Thread.
