(** Property theorem C53: the two-threaded decompressor on input of any origin. *)
From Verif Require Import Prelude ProofZlist ModelAns ModelCdf ModelMux ModelCmd ModelCrc ModelHeader ModelRecode ModelPriors ModelCodec ModelLit ModelPm ModelTop ModelEnc ModelDec SpecLz SpecCrc SpecHeader SpecDec SpecCheck ProofCheck ModelThread SpecTany ProofTany ThmCodec ThmEnc ThmDec ThmThread ThmCheck.

(** C53.  Whatever bytes are offered, in whatever pieces, with whatever buffers, and
    however the two threads are scheduled: no call consumes more than it was offered or
    stores more than the space it was given; the bytes consumed are the bytes offered, in
    order; and if a call reports success, what was consumed is a header, a body and a
    trailer with the checksum of all before it (with checking off: any checksum). *)
Theorem C53_any_schedule : forall dict wl D skip calls sched s,
  Forall (fun c => bytes (fst c) /\ 0 <= snd c) calls ->
  yrun dict wl D skip sched (ysess_new calls) = Some s ->
  Forall within (y_log s) /\ (exists left, offered calls = taken (y_log s) ++ left) /\
  (forall c, In c (y_log s) -> c_res c = DSuccess -> intact skip (taken (y_log s))).
Proof.
  intros dict wl D skip calls sched s F E.
  pose proof (run_any dict wl D skip (concat (map fst calls)) sched _ _ (yinv_new skip calls F) E) as (W & _ & S & J).
  split; [exact W|]. split.
  - destruct (y_call s) as [(input, room)|]; [destruct J as (_ & _ & J & _)|destruct J as (_ & J & _)]; eexists; exact J.
  - intros c I R. apply S. exists c. split; assumption.
Qed.
Print Assumptions C53_any_schedule.

(** C53, damage: as in C47. *)
Theorem C53_damage_detected : forall dict wl D calls sched s c B B',
  Forall (fun c => bytes (fst c) /\ 0 <= snd c) calls ->
  yrun dict wl D false sched (ysess_new calls) = Some s ->
  bytes B -> bytes B' -> burst32 B B' ->
  taken (y_log s) = B' ++ trailer (crc32c 0 B) ->
  In c (y_log s) -> c_res c <> DSuccess.
Proof.
  intros dict wl D calls sched s c B B' F E BB BB' BU ET H1 H2.
  destruct (C53_any_schedule dict wl D false calls sched s F E) as (_ & _ & I). specialize (I c H1 H2). rewrite ET in I.
  exact (intact_burst B B' BB BB' BU I).
Qed.
Print Assumptions C53_damage_detected.

(** The file of [C33_case], twenty bytes and room for twenty at a time, the threads taking
    turns: success with all of it consumed.  With one bit of the checksum changed: failure. *)
Definition ydemo (skip : bool) (T : list Z) : option (Z * option dres) :=
  match yrun demo_dict demo_wl (DIMS 4 4 4) skip (concat (repeat [ByMain; ByWorker; ByWorker; ByWorker; WakeMain] 70)) (ysess_new (pieces 12 20 20 T)) with
  | Some s => Some (zlen (taken (y_log s)), match rev (y_log s) with c :: _ => Some (c_res c) | [] => None end)
  | None => None
  end.
Example C53_case : ydemo false demo_file = Some (zlen demo_file, Some DSuccess) /\
  ydemo false (flip_bit (zlen demo_file - 8) demo_file) = Some (zlen demo_file, Some DFail).
Proof. repeat split; vm_compute; reflexivity. Qed.
