(** Specification vocabulary for C54: the two-threaded decompressor on bytes no compressor
    wrote.  The dangers are those of SpecGuard. *)
From Verif Require Import Prelude ModelAns ModelCdf ModelMux ModelCmd ModelCrc ModelHeader ModelRecode ModelPriors ModelCodec ModelLit ModelPm ModelTop ModelEnc SpecCodec SpecLz SpecHostile ModelDec SpecGuard ModelThread SpecTany.

Section Guard.
Context (dict : dict_fn) (wl : word_len_fn) (D : dims) (skip : bool).
(** the danger in finishing the literal or command in hand: what [output_front] does *)
Definition front_danger (m : main) : option danger :=
  match
    match m_lit m with
    | None => Fine (m, true)
    | Some _ =>
        let! '(m, ok) := g_content (content_fuel m) m in
        if ok then
          match m_lit m with
          | Some (_, s) => Fine (m_set_pop (m_set_lit m None) (Some (Literal (l_data s) (l_high_entropy s))), true)
          | None => Stuck
          end
        else Fine (m, false)
    end
  with
  | Fine (m, true) => match m_pop m with Some c => replay_danger dict (m_rec m) c | None => None end
  | Unsafe h => Some h
  | _ => None
  end.
(** the danger in the next step of a thread *)
Definition t_danger (e : event) (x : world) : option danger :=
  let m := tm_m (wd_m x) in
  match e with
  | ByMain =>
      match tm_pc (wd_m x), m_cmds m with
      | MOut, _ => front_danger m
      | MNext, c :: _ => speeds_danger c m
      | _, _ => None
      end
  | ByWorker => match tw_pc (wd_w x) with WRun => w_danger wl D (tw_w (wd_w x)) squeue_new | _ => None end
  | _ => None
  end.
(** [yevent] and [yrun] of SpecTany, stopped at the first danger; [Stuck] is a panic *)
Definition gyevent (e : event) (s : ysess) : guarded ysess :=
  unless
    (if y_over s then None else
     match e, y_call s, y_d s with
     | ByMain, None, _ => None
     | _, _, PDecode x => t_danger e x
     | _, _, _ => None
     end)
    (of_opt (yevent dict wl D skip e s)).
Fixpoint gyrun (sched : list event) (s : ysess) : guarded ysess :=
  match sched with
  | [] => Fine s
  | e :: sched => let! s := gyevent e s in gyrun sched s
  end.
End Guard.
(** Nothing is left to do: success or failure has been reported, or all calls returned. *)
Definition y_ended (s : ysess) : Prop := y_over s = true \/ (y_call s = None /\ y_calls s = []).
(** Neither thread can move although a call is under way. *)
Definition y_stuck (s : ysess) : Prop :=
  y_over s = false /\ y_call s <> None /\
  match y_d s with
  | PHeader _ => True
  | PDecode x => tm_st (wd_m x) = Asleep /\ (tw_st (wd_w x) = Asleep \/ ended (wd_w x) = true)
  end.
(** The streams have ended and all their bytes have been handed to the worker, whose
    codec has used them up and wants more; the main thread waits for commands. *)
Definition exhausted (s : ysess) : Prop :=
  y_call s <> None /\
  match y_d s with
  | PHeader _ => False
  | PDecode x =>
      let m := tm_m (wd_m x) in let q := sh_q (wd_sh x) in
      is_done (eof (m_mux m)) = true /\ mb_data (buf0 (m_mux m)) = [] /\ q_data q = [] /\ starving (tw_w (wd_w x)) = true /\
      tw_pc (wd_w x) = WPull /\ tm_pc (wd_m x) = MPull /\ m_cmds m = [] /\ result_ready (wd_sh x) = false
  end.
(** Has the worker thread ended, with success or failure? *)
Definition worker_is (pc : wpc) (s : ysess) : Prop := match y_d s with PHeader _ => False | PDecode x => tw_pc (wd_w x) = pc end.
