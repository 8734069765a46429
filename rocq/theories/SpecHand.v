(** What the two threads hand to each other, as seen from outside: recorded by comparing
    the state before and after each event. *)
From Verif Require Import Prelude ModelMux ModelCmd ModelTop ModelDec ModelRecode ModelCodec ModelPm ModelThread SpecThread.

(** [lg_sent]: buffers put in the queue by the main thread; [lg_got]: buffers the worker
    has taken into its hands; [lg_made]: commands the worker's codec has finished, as
    [downcast] (a literal's bytes and a prediction mode's tables travel separately);
    [lg_taken]: commands the main thread has taken up *)
Record tlog := LG { lg_sent : list mbuf; lg_got : list mbuf; lg_made : list command; lg_taken : list command }.
Definition observe (e : event) (x x' : world) (l : tlog) : tlog :=
  let q := sh_q (wd_sh x) in let q' := sh_q (wd_sh x') in
  match e with
  | ByMain =>
      LG (lg_sent l ++ skipn (length (q_data q)) (q_data q')) (lg_got l) (lg_made l)
         (lg_taken l ++ match m_cmds (tm_m (wd_m x)) with
                        | c :: cs => if Nat.eqb (length (m_cmds (tm_m (wd_m x')))) (length cs) then [c] else []
                        | [] => [] end)
  | ByWorker =>
      LG (lg_sent l) (lg_got l ++ if (length (q_data q') <? length (q_data q))%nat then [wk_slice (tw_w (wd_w x'))] else [])
         (lg_made l ++ match k_st (wk_c (tw_w (wd_w x))), k_st (wk_c (tw_w (wd_w x'))) with TPop cmd, TBegin => [downcast cmd] | _, _ => [] end)
         (lg_taken l)
  | _ => l
  end.
Section Traced.
Context (dict : dict_fn) (wl : word_len_fn) (D : dims) (skip : bool).
Fixpoint traced (sched : list event) (s : tsess) (l : tlog) : option (tsess * tlog) :=
  match sched with
  | [] => Some (s, l)
  | e :: sched =>
      let? s' := tevent dict wl D skip e s in
      traced sched s' (match ts_d s, ts_d s' with PDecode x, PDecode x' => observe e x x' l | _, _ => l end)
  end.
End Traced.
(** Everything handed over, nothing lost, doubled or out of order; and the main thread's
    count of the buffers it has handed out: those in the queue, those on their way back
    (in the queue, or taken out and not yet gone through), and the one the worker holds. *)
Definition accounted (x : world) (l : tlog) : Prop :=
  let q := sh_q (wd_sh x) in let m := tm_m (wd_m x) in let w := tw_w (wd_w x) in
  lg_sent l = lg_got l ++ q_data q /\
  lg_made l = lg_taken l ++ m_cmds m ++ q_res q ++ tw_buf (wd_w x) /\
  m_out m = zlen (q_data q) + zlen (q_rdata q) + zlen (match tm_pc (wd_m x) with MBack bufs _ _ => bufs | _ => [] end) + (if zlen (mem (wk_slice w)) =? 0 then 0 else 1).
