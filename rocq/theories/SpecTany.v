(** Using the decompressor with two threads on input of any origin: any calls, any
    schedule, no condition on the answers. *)
From Verif Require Import Prelude ModelMux ModelCmd ModelRecode ModelPriors ModelCodec ModelPm ModelTop ModelDec ModelThread SpecCheck.

(** [y_call]: the input and the space of the call under way; [y_rest]: input not consumed
    by the calls made so far, offered again with the next; [y_calls]: the calls to come,
    each with the input that arrives before it and the space it offers; [y_log]: the calls
    that have returned.  With success or failure the session ends. *)
Record ysess := YS { y_d : pdec; y_call : option (list Z * Z); y_rest : list Z; y_calls : list (list Z * Z); y_log : list call; y_over : bool }.
Definition ysess_new (calls : list (list Z * Z)) : ysess := YS pdec_new None [] calls [] false.
(** A call with this input and space returns: [n] bytes consumed, [o] put out. *)
Definition y_returned (d : pdec) (input : list Z) (room : Z) (calls : list (list Z * Z)) (log : list call) (n : Z) (o : list Z) (r : dres) : ysess :=
  YS d None (zskip n input) calls (log ++ [Call input room n o r])
    (match r with DSuccess | DFail => true | _ => false end).
Section Session.
Context (dict : dict_fn) (wl : word_len_fn) (D : dims) (skip : bool).
(** One event.  While no call is under way the main thread is the user's: its next step
    is to make the next call.  [None]: a thread panics. *)
Definition yevent (e : event) (s : ysess) : option ysess :=
  if y_over s then Some s else
  match e, y_call s with
  | ByMain, None =>
      match y_calls s with
      | [] => Some s
      | (piece, room) :: calls =>
          let input := y_rest s ++ piece in
          match begin_call D skip (y_d s) input room with
          | (d, Some (n, r)) => Some (y_returned d input room calls (y_log s) n [] r)
          | (d, None) => Some (YS d (Some (input, room)) [] calls (y_log s) false)
          end
      end
  | _, _ =>
      match y_d s with
      | PHeader _ => Some s
      | PDecode x =>
          let? x := step dict wl D skip e x in
          match y_call s, tm_pc (wd_m x) with
          | Some (input, room), MRet r => Some (y_returned (PDecode x) input room (y_calls s) (y_log s) (tm_n (wd_m x)) (tm_out (wd_m x)) r)
          | c, _ => Some (YS (PDecode x) c (y_rest s) (y_calls s) (y_log s) false)
          end
      end
  end.
Fixpoint yrun (sched : list event) (s : ysess) : option ysess :=
  match sched with
  | [] => Some s
  | e :: sched => let? s := yevent e s in yrun sched s
  end.
End Session.
