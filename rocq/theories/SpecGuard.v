(** Specification vocabulary for C52: the whole decompressor on bytes no compressor
    wrote, whatever the sizes of the caller's buffers. *)
From Verif Require Import Prelude ModelAns ModelCdf ModelMux ModelCmd ModelCrc ModelHeader ModelRecode ModelPriors ModelCodec ModelLit ModelPm ModelTop ModelEnc SpecCodec SpecLz SpecHostile ModelDec.

(** What can go wrong.  Each is a property of the data met while decoding:
    - a copy of 2^32 bytes or more, or a literal of 2^31 bytes or more, is announced;
    - a prediction mode carries a speed that does not decode or is out of range;
    - a copy of at least one byte reaches back 0 bytes, or as far as the window or further
      but not further than the window and what was written since its start;
    - a dictionary command names no word, or one that does not fit in the window;
    - 65536 symbols of a literal stream have been read while the other coder state is
      below its lower limit (an encoder ends a chunk with both states above it);
    - an arithmetic coder state is so small that reading a symbol would make it negative. *)
Inductive danger := CopyTooLong | LiteralTooLong | UnusableSpeeds | CopyOutsideWindow | NoSuchWord | RaggedChunk | StateUnderflow.
(** a computation that stops at the first danger; [Stuck] is a panic, or a loop that does
    not end within its bound *)
Inductive guarded (A : Type) := Fine (a : A) | Unsafe (h : danger) | Stuck.
Arguments Fine {A}. Arguments Unsafe {A}. Arguments Stuck {A}.
Definition gbind {A B} (x : guarded A) (f : A -> guarded B) : guarded B :=
  match x with Fine a => f a | Unsafe h => Unsafe h | Stuck => Stuck end.
Notation "'let!' x ':=' e 'in' f" :=
  (gbind e (fun x => f)) (at level 200, x name, e at level 100, f at level 200).
Notation "'let!' ' p ':=' e 'in' f" :=
  (gbind e (fun p => f)) (at level 200, p pattern, e at level 100, f at level 200).
Definition of_opt {A} (x : option A) : guarded A := match x with Some a => Fine a | None => Stuck end.

(** The dangers, one by one. *)
Definition underflows (d : decoder) (cdf : list Z) : bool :=
  let '(_, start, freq) := ref_lookup cdf (Z.land (state_a d) SCALE_MASK) in
  freq * Z.shiftr (state_a d) LOG2_SCALE + Z.land (state_a d) SCALE_MASK <? start.
Definition ragged (d : decoder) : bool := (4 <? num_push_bytes_avail d) && negb (b_req d =? 0).
Definition of_hazard (s : stop) : danger := match s with HugeCopy => CopyTooLong | _ => LiteralTooLong end.
Definition replay_danger (dict : dict_fn) (r : rcs) (c : command) : option danger :=
  match c with
  | Copy d n =>
      if (n =? 0) || ((1 <=? d) && (d <? zlen (ring r))) || (di r + zlen (ring r) <? d) then None else Some CopyOutsideWindow
  | Dict ws wid tr _ =>
      match dict ws wid tr with
      | Some w => if zlen w <? zlen (ring r) then None else Some NoSuchWord
      | None => Some NoSuchWord
      end
  | _ => None
  end.
Definition speeds_danger (c : command) (m : main) : option danger :=
  match c with
  | PredictionMode _ => if (pm_mode (fst (m_pred m)) <? 4) && negb (usable_speeds (fst (m_pred m))) then Some UnusableSpeeds else None
  | _ => None
  end.
Definition unless {A} (h : option danger) (x : guarded A) : guarded A := match h with Some h => Unsafe h | None => x end.

Section Guard.
Context (dict : dict_fn) (wl : word_len_fn) (D : dims).
(** the danger in the next round of the worker: it looks at the symbol that [w_step] will
    read *)
Definition w_danger (w : worker) (q : squeue) : option danger :=
  let c := wk_c w in
  if wk_done w then None else
  match k_st c with
  | TEnd | TPop _ => None
  | t =>
      if (match t with TPm _ => negb (has_speeds (k_pm c)) | _ => false end) then None else
      let filled :=
        if w_fills t then
          if num_push_bytes_avail (wk_dec w) =? 0 then Some (wk_dec w, true)
          else let? '(d, _, ok) := fill_from (wk_dec w) (fst (pull_slice (wk_slice w) q)) in Some (d, ok)
        else Some (wk_dec w, true) in
      match filled, w_node wl D c with
      | Some (d, true), NCode _ cdf _ =>
          if underflows d cdf then Some StateUnderflow else
          match get_sym d (ref_lookup cdf) with
          | Some (v, _) => match hazard c v with Some s => Some (of_hazard s) | None => None end
          | None => None
          end
      | _, _ => None
      end
  end.
Fixpoint gw_run (fuel : nat) (w : worker) (q : squeue) : guarded (worker * squeue * wres) :=
  match fuel with
  | O => Stuck
  | S fuel =>
      let! '(w, q, r) := unless (w_danger w q) (of_opt (w_step wl D w q)) in
      match r with Some r => Fine (w, q, r) | None => gw_run fuel w q end
  end.
(** one nibble of a literal *)
Definition g_nibble (m : main) : guarded main :=
  match m_lit m with
  | None => Stuck
  | Some (_, s) =>
      match lit_node (m_mix m) bk_new (m_lbk m) s with
      | Code _ cdf _ =>
          if underflows (m_dec m) cdf then Unsafe StateUnderflow else
          let! m := of_opt (lit_nibble m) in
          if ragged (m_dec m) then Unsafe RaggedChunk else Fine m
      | _ => Stuck
      end
  end.
(** [content], ModelDec *)
Fixpoint g_content (fuel : nat) (m : main) : guarded (main * bool) :=
  match fuel with
  | O => Stuck
  | S fuel =>
      let! '(m, ok) := of_opt (lit_fill m) in
      if negb ok then Fine (m, false) else
      match m_lit m with
      | None => Stuck
      | Some (true, _) =>
          let! m := g_nibble m in
          let! '(m, ok) := of_opt (lit_fill m) in
          if negb ok then Stuck else
          let low_buffer_warning := ready m 1 <? 16 in
          let! m := g_nibble m in
          if low_buffer_warning then
            if lit_done m then Fine (m, true) else g_content fuel (set_safe m)
          else
            let! '(m, ok) := of_opt (lit_fill m) in
            if negb ok then Stuck else if lit_done m then Fine (m, true) else g_content fuel m
      | Some (false, _) =>
          let! m := g_nibble m in
          let high := match m_lit m with Some (_, s) => match l_sub s with LLower _ _ => true | _ => false end | None => false end in
          if high then g_content fuel m else
          let! '(m, ok) := of_opt (lit_fill m) in
          if lit_done m then Fine (m, true)
          else if ok then g_content fuel m else Fine (set_safe m, false)
      end
  end.
(** [process_output], ModelDec *)
Fixpoint g_output (skip : bool) (fuel : nat) (q : squeue) (m : main) (room : Z) : guarded (list Z * squeue * main * presult) :=
  match fuel with
  | O => Stuck
  | S fuel =>
      let! '(m, ok) :=
        match m_lit m with
        | None => Fine (m, true)
        | Some _ =>
            let! '(m, ok) := g_content (content_fuel m) m in
            if ok then
              match m_lit m with
              | Some (_, s) => Fine (m_set_pop (m_set_lit m None) (Some (Literal (l_data s) (l_high_entropy s))), true)
              | None => Stuck
              end
            else Fine (m, false)
        end in
      if negb ok then Fine ([], q, m, Processed DNeedIn) else
      let! '(o, m, r) :=
        match m_pop m with
        | None => Fine ([], m, ModelRecode.OSuccess)
        | Some c =>
            let! '(r, o, x) := unless (replay_danger dict (m_rec m) c) (of_opt (encode_cmd (cmd_fuel dict c) dict (m_rec m) c room)) in
            Fine (o, m_set_rec m x (match r with ModelRecode.OSuccess => None | _ => Some c end), r)
        end in
      match r with
      | ModelRecode.ONeedsMoreOutput => Fine (o, q, m, Processed DNeedOut)
      | ModelRecode.OFailure => Fine (o, q, m, Processed DFail)
      | ModelRecode.OSuccess =>
          let! '(q, m, need) := of_opt (pull_commands q m) in
          if need then Fine (o, q, m, Processed DNeedIn) else
          match m_cmds m with
          | [] =>
              if m_eof m then let! '(o2, m, r) := of_opt (finish skip m (room - zlen o)) in Fine (o ++ o2, q, m, Processed r)
              else Fine (o, q, m, Yield)
          | c :: cs =>
              let! '(q, m, r) := unless (speeds_danger c m) (of_opt (take_command c q (m_set_cmds m cs))) in
              match r with
              | Some r => Fine (o, q, m, r)
              | None => let! '(o2, q, m, r) := g_output skip fuel q m (room - zlen o) in Fine (o ++ o2, q, m, r)
              end
          end
      end
  end.
(** [process] and [decode], ModelDec *)
Fixpoint g_process (skip : bool) (fuel : nat) (p : proc) (input : list Z) (room : Z) : guarded (Z * list Z * proc * dres) :=
  match fuel with
  | O => Stuck
  | S rounds =>
      let! '(n, q, m, ok) := of_opt (process_input skip (p_q p) (p_m p) input) in
      if negb ok then Fine (n, [], PR (p_w p) q m, DNeedIn) else
      let! '(w, q, r) := gw_run fuel (p_w p) q in
      match r with
      | WFail _ => Fine (n, [], PR w q m, DFail)
      | _ =>
          if (match r with WNeedIn => true | _ => false end) && (m_out m =? 0) then Fine (n, [], PR w q m, DNeedIn) else
          let! '(o, q, m, r) := g_output skip fuel q m room in
          match r with
          | Processed r => Fine (n, o, PR w q m, r)
          | Yield =>
              let! '(n2, o2, p, r) := g_process skip rounds (PR w q m) (zskip n input) (room - zlen o) in
              Fine (n + n2, o ++ o2, p, r)
          end
      end
  end.
Definition g_decode (skip : bool) (fuel : nat) (d : decompressor) (input : list Z) (room : Z) : guarded (Z * list Z * decompressor * dres) :=
  let run p input := let! '(n, o, p, r) := g_process skip fuel p input room in Fine (n, o, DDecode p, r) in
  match d with
  | DHeader h =>
      let '(h, n, r) := hp_decode h input in
      match r with
      | HNeedsMoreInput => Fine (Z.of_nat n, [], DHeader h, DNeedIn)
      | HErr _ => Fine (Z.of_nat n, [], DHeader h, DFail)
      | HOk ws =>
          let p := proc_new D skip (hp_header h) ws in
          if Z.of_nat n <? zlen input then
            let! '(n2, o, d, r) := run p (zskip (Z.of_nat n) input) in Fine (Z.of_nat n + n2, o, d, r)
          else Fine (Z.of_nat n, [], DDecode p, DNeedIn)
      end
  | DDecode p => run p input
  end.

(** ** A caller: any sequence of calls, each with some bytes and some room, until a call
    fails.  The answers: bytes consumed, bytes written, result. *)
Definition answer := (Z * list Z * dres)%type.
Fixpoint session (skip : bool) (fuel : nat) (d : decompressor) (calls : list (list Z * Z)) : option (list answer) :=
  match calls with
  | [] => Some []
  | (input, room) :: calls =>
      let? '(n, o, d, r) := decode dict wl D skip fuel d input room in
      match r with
      | DFail => Some [(n, o, r)]
      | _ => let? xs := session skip fuel d calls in Some ((n, o, r) :: xs)
      end
  end.
Fixpoint g_session (skip : bool) (fuel : nat) (d : decompressor) (calls : list (list Z * Z)) : guarded (list answer) :=
  match calls with
  | [] => Fine []
  | (input, room) :: calls =>
      let! '(n, o, d, r) := g_decode skip fuel d input room in
      match r with
      | DFail => Fine [(n, o, r)]
      | _ => let! xs := g_session skip fuel d calls in Fine ((n, o, r) :: xs)
      end
  end.
(** answers respect the buffers of the calls they belong to *)
Fixpoint within (calls : list (list Z * Z)) (xs : list answer) : Prop :=
  match calls, xs with
  | _, [] => True
  | [], _ :: _ => False
  | (input, room) :: calls, (n, o, _) :: xs => 0 <= n <= zlen input /\ zlen o <= room /\ within calls xs
  end.
End Guard.
