(** Property theorems C47, C48: the decompressor on input of any origin. *)
From Verif Require Import Prelude ProofZlist ModelAns ModelCdf ModelMux ModelCmd ModelCrc ModelHeader ModelRecode ModelPriors ModelCodec ModelLit ModelPm ModelTop ModelEnc ModelDec SpecLz SpecCrc SpecHeader SpecEnc SpecDec SpecCheck ProofCrc ProofHeader ProofCheck ThmCodec ThmEnc ThmDec.

(** C47.  Whatever bytes are offered, in whatever pieces and with whatever buffers: when
    the decompressor reports success, what it consumed is a header, a body and a trailer
    whose checksum is that of all before it (with checking off: any checksum, but the
    end mark). *)
Theorem C47_success_means_intact : forall dict wl D skip fuel calls c,
  let t := any_session dict wl D skip fuel decompressor_new [] calls in
  Forall (fun c => bytes (fst c) /\ 0 <= snd c) calls ->
  In c t -> c_res c = DSuccess -> intact skip (taken t).
Proof.
  intros dict wl D skip fuel calls c t F H1 H2.
  destruct (session_any dict wl D skip fuel calls decompressor_new [] [] (dinv_new skip) ltac:(constructor) F) as (_ & _ & H).
  apply H. exists c. split; assumption.
Qed.
Print Assumptions C47_success_means_intact.

(** an intact file is not one damaged within 32 bits and left with the old trailer *)
Lemma intact_burst B B' : bytes B -> bytes B' -> burst32 B B' -> intact false (B' ++ trailer (crc32c 0 B)) -> False.
Proof.
  intros BB BB' BU (header & W & tr & EX & L & M & WS & LT & _ & TR).
  specialize (TR eq_refl). rewrite app_assoc in EX.
  assert (LL : length B' = length (header ++ W)).
  { apply (f_equal (@length Z)) in EX. rewrite (app_length B'), (app_length (header ++ W)), LT, trailer_length in EX. lia. }
  assert (E1 : B' = header ++ W).
  { apply (f_equal (firstn (length B'))) in EX. rewrite firstn_app, firstn_all, Nat.sub_diag, firstn_O, app_nil_r in EX.
    rewrite LL in EX. rewrite firstn_app, firstn_all, Nat.sub_diag, firstn_O, app_nil_r in EX. exact EX. }
  rewrite E1 in EX. apply app_inv_head in EX. rewrite TR, <- E1 in EX.
  apply (crc_burst B B' 0 BB BB' ltac:(lia) BU).
  rewrite !crc_update_ok by (auto; lia).
  assert (R : forall l, bytes l -> 0 <= crc32c 0 l < 2 ^ 32).
  { intros l BL. rewrite <- crc_update_ok by (auto; lia). apply crc_update_range; [exact BL|lia]. }
  apply (f_equal (fun l => unle (firstn 4 l))) in EX. unfold trailer in EX.
  rewrite !firstn_app, !le_length in EX. change (4 - 4)%nat with 0%nat in EX. rewrite !firstn_O, !app_nil_r in EX.
  rewrite !(firstn_all2 (n := 4) (le 4 _)) in EX by (rewrite le_length; lia).
  rewrite !unle_le_mod in EX. change (256 ^ Z.of_nat 4) with (2 ^ 32) in EX.
  rewrite !Z.mod_small in EX by (apply R; assumption). exact EX.
Qed.
(** C47, damage: a file whose header and body differ from those of a file with a right
    checksum, all differing bits within 32 consecutive ones, and whose last eight bytes
    are those of that file, is never reported good once all of it is consumed. *)
Theorem C47_damage_detected : forall dict wl D fuel calls c B B',
  let t := any_session dict wl D false fuel decompressor_new [] calls in
  Forall (fun c => bytes (fst c) /\ 0 <= snd c) calls ->
  bytes B -> bytes B' -> burst32 B B' ->
  taken t = B' ++ trailer (crc32c 0 B) ->
  In c t -> c_res c <> DSuccess.
Proof.
  intros dict wl D fuel calls c B B' t F BB BB' BU ET H1 H2.
  pose proof (C47_success_means_intact dict wl D false fuel calls c F H1 H2) as I. fold t in I. rewrite ET in I.
  exact (intact_burst B B' BB BB' BU I).
Qed.
Print Assumptions C47_damage_detected.

(** C48.  Whatever bytes are offered: no call consumes more than it was offered or
    stores more than the space it was given, and the bytes consumed over all calls are
    the bytes offered, in order, from the first on. *)
Theorem C48_bounds : forall dict wl D skip fuel calls,
  let t := any_session dict wl D skip fuel decompressor_new [] calls in
  Forall (fun c => bytes (fst c) /\ 0 <= snd c) calls ->
  Forall within t /\ exists left, offered calls = taken t ++ left.
Proof.
  intros dict wl D skip fuel calls t F.
  destruct (session_any dict wl D skip fuel calls decompressor_new [] [] (dinv_new skip) ltac:(constructor) F) as (H1 & H2 & _).
  split; [exact H1|exact H2].
Qed.
Print Assumptions C48_bounds.

(** A file made by the compressor, read in pieces of 7 bytes into buffers of 3: success
    at last.  With one bit of its body changed it is refused, and with a byte of its
    checksum changed too, unless checking is off. *)
Definition check_demo (skip : bool) (T : list Z) : option (Z * dres) :=
  let t := any_session demo_dict demo_wl (DIMS 4 4 4) skip 1000 decompressor_new [] (pieces 60 7 3 T) in
  match rev t with c :: _ => Some (zlen (taken t), c_res c) | [] => None end.
Definition flip_bit (i : Z) (T : list Z) : list Z :=
  zfirst i T ++ match zskip i T with b :: l => Z.lxor b 1 :: l | [] => [] end.
Example C47_case : exists T, session demo_dict demo_wl (DIMS 4 4 4) demo_cfg 200 (compressor_new (DIMS 4 4 4) (Some 3)) demo_batches (repeat 5 40) = Some (T, Finished) /\
  check_demo false T = Some (zlen T, DSuccess) /\
  check_demo false (flip_bit (zlen T - 8) T) = Some (zlen T, DFail) /\
  check_demo true (flip_bit (zlen T - 8) T) = Some (zlen T, DSuccess) /\
  check_demo false (flip_bit 7 T) = Some (zlen T, DFail).
Proof. eexists. do 4 (split; [vm_compute; reflexivity|]). vm_compute; reflexivity. Qed.
(** Sixteen header bytes and rubbish: the bytes after the header are read as an end mark
    whose second byte never comes, so nothing more is consumed. *)
Example C48_case :
  let t := any_session demo_dict demo_wl (DIMS 4 4 4) false 50 decompressor_new [] [(make_header 10 ++ [255; 255; 3; 7], 5); ([1], 0)] in
  map c_used t = [17; 0] /\ map c_out t = [[]; []] /\ map c_res t = [DNeedIn; DNeedIn].
Proof. vm_compute. repeat split; reflexivity. Qed.
