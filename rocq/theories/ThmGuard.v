(** Property theorem C52: the whole decompressor on bytes of any origin stops, without a
    panic, at every call; or its run meets one of the named dangers.  The dangers are
    real: a file of 35 bytes panics. *)
From Verif Require SpecEnc SpecLz SpecFile.
From Verif Require Import Prelude ProofZlist ModelAns ModelCdf ModelMux ModelCmd ModelCrc ModelHeader ModelRecode ModelPriors ModelCodec ModelLit ModelPm ModelTop SpecCodec ModelEnc ModelDec SpecHostile ThmCodec ThmEnc ThmDec SpecGuard ProofGuard6 ProofGuard7 ProofGuard8.

(** C52.  Any bytes, in any pieces, with any output buffers: there are bounds on all loops
    such that, for these and any larger ones, either the run meets a danger, always the
    same one; or no call panics or loops, the answers do not depend on the bounds, each
    call stays within its two buffers. *)
Theorem C52_any_input : forall dict wl D skip calls, big D -> Forall (fun c => bytes (fst c) /\ 0 <= snd c) calls ->
  exists F,
    (exists h, forall fuel, (F <= fuel)%nat -> g_session dict wl D skip fuel decompressor_new calls = Unsafe h) \/
    (exists xs, (forall fuel, (F <= fuel)%nat -> SpecGuard.session dict wl D skip fuel decompressor_new calls = Some xs) /\ within calls xs).
Proof.
  intros dict wl D skip calls BIG B.
  set (b := dphi D decompressor_new + CB * fed_total calls). exists (S (Z.to_nat b)).
  destruct (session_any dict wl D BIG skip (S (Z.to_nat b)) calls decompressor_new (dgood_new dict D) B ltac:(fold b; lia)) as [(h & E)|(xs & E & WI)].
  - left. exists h. intros fuel L. replace fuel with ((fuel - S (Z.to_nat b)) + S (Z.to_nat b))%nat by lia. rewrite g_session_fuel; [exact E|rewrite E; discriminate].
  - right. exists xs. split; [|exact WI]. intros fuel L. replace fuel with ((fuel - S (Z.to_nat b)) + S (Z.to_nat b))%nat by lia.
    apply g_session_real. rewrite g_session_fuel; [exact E|rewrite E; discriminate].
Qed.
Print Assumptions C52_any_input.

(** The guarded run is the run: where it meets no danger, the decompressor gives the same
    answer, call by call. *)
Theorem C52_guard_is_decode : forall dict wl D skip fuel d input room x,
  g_decode dict wl D skip fuel d input room = Fine x -> decode dict wl D skip fuel d input room = Some x.
Proof. intros. apply g_decode_real. assumption. Qed.
Print Assumptions C52_guard_is_decode.

(** The dangers cannot be left out.  A header, then a chunk of 16 zero bytes for the
    command stream: the first symbol looked up starts at 1, above the offset 0, and the
    subtraction in helper_advance_sym underflows, whatever the bounds on the loops. *)
Definition zero_file : list Z := make_header 10 ++ [0; 15; 0] ++ repeat 0 16.
Theorem C52_no_panic_refuted : forall dict wl skip fuel room,
  decode dict wl real_dims skip fuel decompressor_new zero_file room = None /\
  ((8 <= fuel)%nat -> g_decode dict wl real_dims skip fuel decompressor_new zero_file room = Unsafe StateUnderflow).
Proof.
  intros dict wl skip fuel room. do 8 (destruct fuel as [|fuel]; [split; [vm_compute; reflexivity|lia]|]).
  split; [vm_compute; reflexivity|]. intros _. vm_compute. reflexivity.
Qed.
Print Assumptions C52_no_panic_refuted.

(** The hypotheses hold of the real sizes; the file of [C28_run], in pieces of 7 bytes with
    room for 3, meets no danger and is decoded; a file cut short and followed by rubbish
    is refused, without a danger. *)
Definition guard_demo (calls : list (list Z * Z)) : guarded (list (list Z * dres)) :=
  let! xs := g_session demo_dict demo_wl (DIMS 4 4 4) false 1000 decompressor_new calls in
  Fine (map (fun x => (snd (fst x), snd x)) xs).
Example C52_case : big real_dims /\
  exists T, SpecEnc.session demo_dict demo_wl (DIMS 4 4 4) demo_cfg 200 (compressor_new (DIMS 4 4 4) (Some 3)) demo_batches (repeat 5 40) = Some (T, SpecEnc.Finished) /\
    match guard_demo (pieces 60 7 3 T) with
    | Fine xs => concat (map fst xs) = SpecLz.meaning demo_dict (SpecFile.window 10) (concat demo_batches) /\ last (map snd xs) DFail = DSuccess
    | _ => False
    end /\
    guard_demo [(firstn 30 T ++ repeat 77 40, 100)] = Fine [([], DFail)].
Proof.
  split; [unfold big, real_dims; cbn; lia|]. eexists. split; [vm_compute; reflexivity|]. vm_compute. auto.
Qed.
