(** What the two threads hand to each other. *)
From Verif Require Import Prelude ModelMux ModelCmd ModelRecode ModelPriors ModelCodec ModelPm ModelTop ModelEnc ModelDec ModelThread SpecEnc SpecDec SpecThread SpecHand SpecCodec ThmCodec ThmEnc ThmDec ProofThread7 ThmThread.

(** C32.  Whatever the input, valid or not, and whatever the calls and the schedule: as
    long as nothing has panicked, the buffers the main thread has put in the queue are, in
    this order, those the worker has taken and those still there; the commands the worker
    has finished are those the main thread has taken up, those it has at hand, those in
    the queue and those the worker has yet to push; and the main thread's count of buffers
    handed out is the number of buffers in the worker's hands and on their way. *)
Theorem C32_hand_off : forall dict wl D skip calls sched s l x,
  traced dict wl D skip sched (tsess_new calls) (LG [] [] [] []) = Some (s, l) -> ts_d s = PDecode x -> accounted x l.
Proof.
  intros dict wl D skip calls sched s l x E TD.
  pose proof (traced_hand dict wl D skip sched (tsess_new calls) (LG [] [] [] []) s l eq_refl E) as H.
  unfold sess_hand in H. rewrite TD in H. exact (hd_a _ _ (proj1 H)).
Qed.
(** The record changes nothing: it is kept on exactly the runs of [trun]. *)
Theorem C32_record_is_passive : forall dict wl D skip calls sched l,
  match traced dict wl D skip sched (tsess_new calls) l with Some (s, _) => Some s | None => None end = trun dict wl D skip sched (tsess_new calls).
Proof. intros. apply traced_run. Qed.
(** A case: the file of [C33_case] in one piece, stopped with buffers and commands under
    way.  How many buffers were sent and taken, commands made and taken, the commands at
    hand, in the queue and not yet pushed, and the count of buffers handed out. *)
Definition tcounts (r : option (tsess * tlog)) : option (list nat * Z) :=
  match r with
  | Some (s, l) => match ts_d s with
      | PDecode x => Some ([length (lg_sent l); length (lg_got l); length (lg_made l); length (lg_taken l);
          length (m_cmds (tm_m (wd_m x))); length (q_res (sh_q (wd_sh x))); length (tw_buf (wd_w x))], m_out (tm_m (wd_m x)))
      | _ => None end
  | None => None end.
Example C32_case : tcounts (traced demo_dict demo_wl (DIMS 4 4 4) false (concat (repeat [ByMain; ByWorker; ByWorker; ByWorker] 50)) (tsess_new (pieces 60 7 3 demo_file)) (LG [] [] [] [])) = Some ([5; 5; 6; 1; 3; 2; 0]%nat, 1).
Proof. vm_compute. reflexivity. Qed.

Print Assumptions C32_hand_off.
Print Assumptions C32_record_is_passive.
