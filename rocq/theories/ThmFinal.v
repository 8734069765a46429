(** C71: what the decompressor answers after it has answered once and for all. *)
From Verif Require Import Prelude ModelAns SpecAns ModelCdf ModelMux ModelCmd ModelCrc ModelHeader ModelRecode ModelPriors ModelCodec ModelLit ModelPm ModelTop ModelEnc ModelDec ThmCodec ThmIo SpecFile SpecLz ThmEnc SpecFinal ProofFinal.

(** Success is final: whatever bytes a decompressor was given, and however the calls
    before went, once a call has reported success every later call, offered whatever
    bytes and whatever room, takes nothing, writes nothing and reports success. *)
Theorem C71_success_is_final : forall dict wl D skip before last later d,
  history dict wl D skip decompressor_new (before ++ last :: later) d -> c_verdict last = DSuccess -> Forall over later.
Proof.
  intros dict wl D skip before last later d H V. apply history_app in H. destruct H as (d1 & H1 & H2).
  pose proof (calls_sound _ _ _ _ _ _ _ H1 Logic.I) as S1. inversion H2; subst. cbn [c_verdict] in V. subst.
  match goal with X : decode _ _ _ _ _ _ _ _ = _, B : bytes _, R : 0 <= _ |- _ => pose proof (decode_sound _ _ _ _ _ _ _ _ _ _ _ _ B R S1 X) as (S2 & F2) end.
  match goal with X : history _ _ _ _ _ later _ |- _ => exact (proj1 (finished_calls _ _ _ _ _ _ _ X (F2 eq_refl))) end.
Qed.
Print Assumptions C71_success_is_final.

(** ... and each such call does answer: it neither panics nor runs for ever. *)
Theorem C71_success_answers : forall dict wl D skip before last d fuel input room,
  history dict wl D skip decompressor_new (before ++ [last]) d -> c_verdict last = DSuccess -> bytes input -> (0 < fuel)%nat ->
  exists d', decode dict wl D skip fuel d input room = Some (0, [], d', DSuccess).
Proof.
  intros dict wl D skip before last d fuel input room H V B F. apply history_app in H. destruct H as (d1 & H1 & H2).
  pose proof (calls_sound _ _ _ _ _ _ _ H1 Logic.I) as S1. inversion H2; subst. cbn [c_verdict] in V. subst.
  match goal with X : decode _ _ _ _ _ d1 _ _ = _, B : bytes _, R : 0 <= _ |- _ => pose proof (decode_sound _ _ _ _ _ _ _ _ _ _ _ _ B R S1 X) as (S2 & F2) end.
  match goal with X : history _ _ _ _ _ [] _ |- _ => inversion X; subst end.
  destruct fuel as [|fuel]; [lia|]. destruct (finished_stays dict wl D skip fuel d input room (F2 eq_refl) B) as (d' & E & _). exists d'. exact E.
Qed.
Print Assumptions C71_success_answers.

(** A failure is not: sixteen bytes that are no header are refused, and after that the
    decompressor is as if they had never come.  Every run of calls on it is a run of
    calls on a new one, and the other way round, with the same answers. *)
Theorem C71_bad_header_is_forgotten : forall dict wl D skip B fuel room, no_header B ->
  exists d1, decode dict wl D skip fuel decompressor_new B room = Some (16, [], d1, DFail) /\
  forall cs, (exists d, history dict wl D skip d1 cs d) <-> (exists d, history dict wl D skip decompressor_new cs d).
Proof.
  intros dict wl D skip B fuel room NH. destruct (bad_header dict wl D skip B fuel room NH) as (d1 & E & T). exists d1. split; [exact E|].
  intros cs. split; intros (d & H).
  - destruct (twin_history _ _ _ _ _ _ _ H _ T) as (d' & H' & _). exists d'. exact H'.
  - destruct (twin_history _ _ _ _ _ _ _ H _ (twin_sym _ _ T)) as (d' & H' & _). exists d'. exact H'.
Qed.
Print Assumptions C71_bad_header_is_forgotten.

(** So a caller who goes on after the failure may be told that all is well, with the
    checksum verified, although what they offered from the start is no file. *)
Definition junk : list Z := repeat 7 16.
Theorem C71_failure_is_final_refuted : exists c1 c2 d,
  history demo_dict demo_wl (DIMS 4 4 4) false decompressor_new [c1; c2] d /\
  c_input c1 = junk /\ c_verdict c1 = DFail /\
  c_input c2 = demo_file /\ c_verdict c2 = DSuccess /\ c_output c2 = meaning demo_dict (window 10) (concat demo_batches) /\
  c_consumed c1 + c_consumed c2 = zlen (junk ++ demo_file).
Proof.
  destruct (C71_bad_header_is_forgotten demo_dict demo_wl (DIMS 4 4 4) false junk 1 0) as (d1 & E & H).
  { split; [reflexivity|]. intros (X & _). vm_compute in X. discriminate. }
  assert (R0 : 0 <= 0) by lia. assert (R1 : 0 <= 100) by lia.
  set (Y := meaning demo_dict (window 10) (concat demo_batches)).
  assert (BF : bytes demo_file) by (apply Forall_forall; intros x; cbn [demo_file In]; unfold byte; intros X; repeat (destruct X as [<-|X]; [lia|]); destruct X).
  assert (G : exists d, history demo_dict demo_wl (DIMS 4 4 4) false decompressor_new [CALL demo_file 100 77 Y DSuccess] d).
  { assert (X : match decode demo_dict demo_wl (DIMS 4 4 4) false 1000 decompressor_new demo_file 100 with Some (n, o, _, r) => n = 77 /\ o = Y /\ r = DSuccess | None => False end) by (vm_compute; repeat split).
    destruct (decode demo_dict demo_wl (DIMS 4 4 4) false 1000 decompressor_new demo_file 100) as [(((n, o), d), r)|] eqn:E0; [|destruct X]. destruct X as (-> & -> & ->).
    exists d. exact (H_call _ _ _ _ _ _ _ _ _ _ _ _ _ _ BF R1 E0 (H_none _ _ _ _ d)). }
  apply H in G. destruct G as (d & G). exists (CALL junk 0 16 [] DFail), (CALL demo_file 100 77 Y DSuccess), d.
  split. { assert (BJ : bytes junk) by (apply Forall_forall; intros x X; apply repeat_spec in X; subst x; unfold byte; lia). exact (H_call _ _ _ _ _ _ _ _ _ _ _ _ _ _ BJ R0 E G). }
  repeat split.
Qed.
Print Assumptions C71_failure_is_final_refuted.

(** a decompressor that has reported success, offered the file once more *)
Example C71_case : match decode demo_dict demo_wl (DIMS 4 4 4) false 1000 decompressor_new demo_file 100 with
  | Some (77, Y, d, DSuccess) => Y <> [] /\ (match decode demo_dict demo_wl (DIMS 4 4 4) false 5 d demo_file 100 with Some (0, [], _, DSuccess) => True | _ => False end)
  | _ => False
  end /\ no_header junk.
Proof. split; [vm_compute; split; [discriminate|exact Logic.I]|]. split; [reflexivity|]. intros (X & _). vm_compute in X. discriminate. Qed.
