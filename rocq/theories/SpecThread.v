(** Using the decompressor with two threads: any calls, any schedule. *)
From Verif Require Import Prelude ModelMux ModelCmd ModelRecode ModelPriors ModelCodec ModelPm ModelTop ModelEnc ModelDec ModelThread SpecEnc SpecDec.

(** The user's side.  [ts_call]: the input and the space of the call under way; [ts_rest]:
    input not consumed by the calls made so far; [ts_calls]: the calls to come, each with
    the input that arrives before it and the space it offers; [ts_out]: what the calls
    that have returned put out; [ts_v]: [Waiting] until a call reports success
    ([Finished]) or something goes wrong ([Broken], as in SpecDec). *)
Record tsess := TS { ts_d : pdec; ts_call : option (list Z * Z); ts_rest : list Z; ts_calls : list (list Z * Z); ts_out : list Z; ts_v : verdict }.
Definition tsess_new (calls : list (list Z * Z)) : tsess := TS pdec_new None [] calls [] Waiting.
(** A call with this input and space returns: [n] bytes consumed, [o] put out. *)
Definition returned (d : pdec) (input : list Z) (room : Z) (calls : list (list Z * Z)) (out : list Z) (n : Z) (o : list Z) (r : dres) : tsess :=
  TS d None (zskip n input) calls (out ++ o)
    (if (room <? zlen o) || (n <? 0) || (zlen input <? n) then Broken else
     match r with
     | DSuccess => Finished
     | DFail => Broken
     | DNeedIn => if n <? zlen input then Broken else Waiting
     | DNeedOut => if zlen o <? room then Broken else Waiting
     end).
Section Session.
Context (dict : dict_fn) (wl : word_len_fn) (D : dims) (skip : bool).
(** One event.  While no call is under way the main thread is the user's: its next step
    is to make the next call. *)
Definition tevent (e : event) (s : tsess) : option tsess :=
  match ts_v s with
  | Waiting =>
      match e, ts_call s with
      | ByMain, None =>
          match ts_calls s with
          | [] => Some s
          | (piece, room) :: calls =>
              let input := ts_rest s ++ piece in
              match begin_call D skip (ts_d s) input room with
              | (d, Some (n, r)) => Some (returned d input room calls (ts_out s) n [] r)
              | (d, None) => Some (TS d (Some (input, room)) [] calls (ts_out s) Waiting)
              end
          end
      | _, _ =>
          match ts_d s with
          | PHeader _ => Some s
          | PDecode x =>
              let? x := step dict wl D skip e x in
              match ts_call s, tm_pc (wd_m x) with
              | Some (input, room), MRet r => Some (returned (PDecode x) input room (ts_calls s) (ts_out s) (tm_n (wd_m x)) (tm_out (wd_m x)) r)
              | c, _ => Some (TS (PDecode x) c (ts_rest s) (ts_calls s) (ts_out s) Waiting)
              end
          end
      end
  | _ => Some s
  end.
Fixpoint trun (sched : list event) (s : tsess) : option tsess :=
  match sched with
  | [] => Some s
  | e :: sched => let? s := tevent e s in trun sched s
  end.
End Session.
(** Nothing is left to do: success, or all the calls have been made and have returned. *)
Definition over (s : tsess) : Prop := ts_v s <> Waiting \/ (ts_call s = None /\ ts_calls s = []).
(** Neither thread can move although a call is under way. *)
Definition stuck (s : tsess) : Prop :=
  ts_v s = Waiting /\ ts_call s <> None /\
  match ts_d s with
  | PHeader _ => True
  | PDecode x => tm_st (wd_m x) = Asleep /\ (tw_st (wd_w x) = Asleep \/ ended (wd_w x) = true)
  end.
(** A round gives each thread at least one turn. *)
Definition fair_round (l : list event) : Prop := In ByMain l /\ In ByWorker l.
Definition spurious (l : list event) : Z := zlen (filter (fun e => match e with WakeMain | WakeWorker => true | _ => false end) l).
(** Freeing: the main thread has told the worker and waits for it; events go on. *)
Section Free.
Context (dict : dict_fn) (wl : word_len_fn) (D : dims) (skip : bool).
Fixpoint wrun (sched : list event) (x : world) : option world :=
  match sched with
  | [] => Some x
  | e :: sched => let? x := step dict wl D skip e x in wrun sched x
  end.
(** Has free returned after these events?  A decompressor that has not read its header
    has no worker. *)
Definition freed (sched : list event) (d : pdec) : bool :=
  match d with
  | PHeader _ => true
  | PDecode x => match wrun sched (begin_free x) with Some x => free_returns x | None => false end
  end.
End Free.
(** The worker's codec wants bytes of the command stream and has none at hand. *)
Definition wanting (t : wthread) : Prop := starving (tw_w t) = true /\ wants_map (wk_c (tw_w t)) = false /\ (tw_pc t = WRun \/ tw_pc t = WPull \/ tw_pc t = WPush KPull None).
