(** C54: the decompressor with two threads, on input of any origin, always gets on, or it
    meets one of the dangers of C52, or it has run out of command bytes and hangs. *)
From Verif Require Import Prelude ProofZlist ModelAns ModelCdf ModelMux ModelCmd ModelCrc ModelHeader ModelRecode ModelPriors ModelCodec ModelLit ModelPm ModelTop ModelEnc ModelDec SpecLz SpecCodec SpecHeader SpecDec SpecCheck ModelThread SpecThread SpecGuard SpecTany SpecTguard ProofTg4 ThmCodec ThmEnc ThmDec ThmThread ThmTany.

(** Every schedule: no panic but at a named danger; both threads stand still in a call only
    when the bytes have run out; success is reported only when the worker has ended. *)
Theorem C54_every_schedule : forall dict wl D skip calls sched,
  big D -> Forall (fun c => bytes (fst c) /\ 0 <= snd c) calls ->
  (exists h, gyrun dict wl D skip sched (ysess_new calls) = Unsafe h) \/
  exists s, gyrun dict wl D skip sched (ysess_new calls) = Fine s /\ yrun dict wl D skip sched (ysess_new calls) = Some s /\
    (y_stuck s -> exhausted s) /\
    (forall c, In c (y_log s) -> c_res c = DSuccess -> worker_is WDone s).
Proof.
  intros dict wl D skip calls sched BIG F.
  destruct (sess_run dict wl D BIG skip _ sched _ (SI_new dict D skip calls F)) as [U|(s & E1 & E2 & V & _)]; [left; exact U|right].
  exists s. split; [exact E1|]. split; [exact E2|]. split.
  - intros (OV & YC & ST).
    assert (X : y_ended s \/ exhausted s).
    { apply (stuck_exhausted dict D skip _ s V).
      - right. split; [exact YC|]. destruct V as (_ & _ & J). destruct J as [J|J]; [congruence|]. destruct (y_d s); [contradiction|apply ST].
      - right. destruct (y_d s); [exact Logic.I|apply ST]. }
    destruct X as [[X|(X & _)]|X]; [congruence|contradiction|exact X].
  - intros c IN R. destruct V as (_ & W & _). apply W. exists c. auto.
Qed.
Print Assumptions C54_every_schedule.

(** Progress: in rounds that give each thread a turn, a number of rounds linear in the
    bytes offered and the calls made is enough; spurious wake-ups delay by one each. *)
Theorem C54_progress : forall dict wl D skip calls rounds,
  big D -> Forall (fun c => bytes (fst c) /\ 0 <= snd c) calls -> Forall fair_round rounds ->
  40000000 * (1 + zlen (offered calls)) + 40 * zlen calls + spurious (concat rounds) < zlen rounds ->
  (exists h, gyrun dict wl D skip (concat rounds) (ysess_new calls) = Unsafe h) \/
  exists s, gyrun dict wl D skip (concat rounds) (ysess_new calls) = Fine s /\ yrun dict wl D skip (concat rounds) (ysess_new calls) = Some s /\
    (y_ended s \/ exhausted s).
Proof.
  intros dict wl D skip calls rounds BIG F FR L.
  destruct (sess_run dict wl D BIG skip _ (concat rounds) _ (SI_new dict D skip calls F)) as [U|(s & E1 & E2 & V & _)]; [left; exact U|right].
  exists s. split; [exact E1|]. split; [exact E2|].
  apply (rounds_run dict wl D BIG skip _ rounds _ s (SI_new dict D skip calls F) FR); [|exact E1]. pose proof (PS_new calls) as P. unfold offered in L. clear -P L. lia.
Qed.
Print Assumptions C54_progress.

(** Once exhausted, no schedule makes the call return. *)
Theorem C54_exhausted_for_ever : forall dict wl D skip calls sched s more,
  big D -> Forall (fun c => bytes (fst c) /\ 0 <= snd c) calls ->
  gyrun dict wl D skip sched (ysess_new calls) = Fine s -> exhausted s ->
  exists s', yrun dict wl D skip more s = Some s' /\ exhausted s' /\ y_log s' = y_log s.
Proof.
  intros dict wl D skip calls sched s more BIG F E EX.
  destruct (sess_run dict wl D BIG skip _ sched _ (SI_new dict D skip calls F)) as [(h & U)|(s0 & E1 & _ & V & _)]; [congruence|].
  assert (s0 = s) as -> by congruence. clear E E1 sched. set (offer := concat (map fst calls)) in *. clearbody offer. clear F calls.
  revert s V EX. induction more as [|e more IH]; intros s V EX; [exists s; auto|].
  cbn [yrun]. destruct (exhausted_event dict wl D BIG skip offer e s V EX) as (s1 & -> & V1 & EX1 & L1). cbn [bind].
  destruct (IH s1 V1 EX1) as (s' & E' & EX' & L'). exists s'. split; [exact E'|]. split; [exact EX'|]. congruence.
Qed.
Print Assumptions C54_exhausted_for_ever.

(** The session of [C53_case] meets no danger, ends, and leaves the worker ended.  A file
    whose streams end before the first command: the call never returns. *)
Definition gdemo (T : list Z) (n k : nat) : option (bool * bool * bool * option dres) :=
  match gyrun demo_dict demo_wl (DIMS 4 4 4) false (concat (repeat [ByMain; ByWorker; ByWorker; ByWorker; WakeMain] k)) (ysess_new (pieces 12 n 20 T)) with
  | Fine s => Some (y_over s, match y_call s with Some _ => true | None => false end,
                    match y_d s with PDecode x => match tw_pc (wd_w x), tm_pc (wd_m x) with WDone, _ => true | WPull, MPull => negb (result_ready (wd_sh x)) | _, _ => false end | PHeader _ => false end,
                    match rev (y_log s) with c :: _ => Some (c_res c) | [] => None end)
  | _ => None
  end.
Example C54_case : gdemo demo_file 20 70 = Some (true, false, true, Some DSuccess) /\
  gdemo (make_header 10 ++ [255; 254; 255] ++ [0; 0; 0; 0; 0; 0; 0; 0]) 40 9 = Some (false, true, true, None).
Proof. repeat split; vm_compute; reflexivity. Qed.
