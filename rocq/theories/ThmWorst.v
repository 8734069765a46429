(** C82: how much a command, and a file, can take. *)
From Verif Require Import Prelude ProofList ModelAns SpecAns ProofAnsRt ProofAnsDec ModelCdf SpecCdf ModelMux SpecMux ProofZlist ProofMux ProofMuxW ProofMuxR ModelCmd ModelCrc SpecCrc ProofCrc ModelHeader SpecHeader ProofHeader ThmHeader ModelRecode SpecLz ModelPriors ModelCodec ModelLit ModelPm ModelTop SpecCodec SpecReplay ProofCodecInv ProofCodecInv2 ProofRun ProofCopy ProofTop ThmCodec ModelEnc SpecEnc SpecFile ProofEnc ProofEnc2 ProofEnc3 ProofEnc4 ProofSim ThmEnc ModelDec SpecDec ThmDec ModelRaw ModelRawEnc SpecRawEnc ProofRecode ThmRaw ProofRawEnc ProofRawEnc2 ThmRawEnc SpecCost ProofCost ThmCost SpecWorst ProofWorst.

(** C82, one command.  Whatever was coded before and whatever the options, a command takes
    no more nibbles than its kind allows. *)
Theorem C82_command : forall R (RR : replayer R) wl D g c fuel cmd c' x es,
  big D -> reachable RR wl D c -> enc_cmd RR wl D fuel g cmd false c = Some (c', x, es) ->
  written CMD es <= command_nibbles D cmd /\ written LIT es <= literal_nibbles cmd.
Proof.
  intros R RR wl D g c fuel cmd c' x es B RC E. pose proof (proj2 (reachable_inv RR wl D c B RC)) as T. destruct B as (_ & _ & B).
  destruct (one_bounded RR wl D g ltac:(lia) cmd false fuel c c' x es ltac:(rewrite T; exact Logic.I) E) as (A1 & A2 & _). rewrite T in A1, A2. auto.
Qed.
Print Assumptions C82_command.

(** C82, the streams.  The literal stream holds exactly two nibbles per literal byte. *)
Lemma coded_literals wl D g : forall cmds old, total literal_nibbles (coded_all wl D g old cmds) = total literal_nibbles cmds.
Proof.
  unfold total. induction cmds as [|c cmds IH]; intros old; [reflexivity|]. cbn [coded_all map fold_right]. rewrite IH. f_equal. destruct c; reflexivity.
Qed.
Theorem C82_streams : forall R (RR : replayer R) wl D fuel g r0 cmds c es, big D ->
  enc_all RR wl D fuel g cmds (codec_new D r0) = Some (c, coded_all wl D g (pm_new D) cmds, es) ->
  written CMD es <= total (command_nibbles D) cmds + 1 /\ written LIT es = total literal_nibbles cmds.
Proof.
  intros R RR wl D fuel g r0 cmds c es (_ & _ & B) E. destruct (all_bounded RR wl D g ltac:(lia) fuel cmds (codec_new D r0) _ _ _ eq_refl E) as (A & _). split; [exact A|].
  rewrite (all_exact RR wl D g ltac:(lia) fuel cmds (codec_new D r0) _ _ _ eq_refl E). apply coded_literals.
Qed.
Print Assumptions C82_streams.

(** C82, files.  Every file made from these commands, whatever the framing, fits in
    [file_room]. *)
Lemma groups_mono a b : a <= b -> groups a <= groups b.
Proof. intros H. unfold groups. apply Z.div_le_mono; lia. Qed.
Lemma room_mono a b : a <= b -> stream_room a <= stream_room b.
Proof. intros H. unfold stream_room. pose proof (groups_mono a b H). lia. Qed.
Lemma stream_fits st es a : writable es -> ans_encode (intervals st es) = Some a -> zlen a <= stream_room (written st es).
Proof.
  intros W E. pose proof (sfs_legal st es W) as L. change (sfs_of st es) with (intervals st es) in L. destruct (ans_encode_size _ L) as (a' & E' & S). assert (a' = a) by congruence. subst a'.
  unfold intervals in S. rewrite map_length in S. exact S.
Qed.
Theorem C82_file : forall dict wl D g ws cmds a b T, big D ->
  streams_of dict wl D g ws cmds a b -> is_file ws a b T -> 27 <= zlen T <= file_room D cmds.
Proof.
  intros dict wl D g ws cmds a b T B (fuel & c & es & E & W & EA & EB) (X & FR & _ & ->).
  destruct (C82_streams _ _ wl D fuel g (window ws) cmds c es B E) as (S1 & S2).
  pose proof (stream_fits CMD es a W EA) as FA. pose proof (stream_fits LIT es b W EB) as FB. pose proof (room_mono _ _ S1) as R1. rewrite S2 in FB.
  pose proof (framing_size a b X FR) as S. pose proof (zlen_nonneg a). pose proof (zlen_nonneg b).
  assert (SZ : zlen (make_header ws ++ X ++ trailer (crc32c 0 (make_header ws ++ X))) = zlen X + 24).
  { rewrite !zlen_app. unfold zlen at 1 3. rewrite make_header_length, trailer_length. lia. }
  rewrite SZ. unfold file_room. lia.
Qed.
Print Assumptions C82_file.

(** C82, raw bytes.  What the compressor makes of [n] raw bytes, given in any pieces and
    written to buffers of any sizes, has at most 16 bytes per byte of input, 64 for every
    started 32768 bytes of input, and 67635. *)
Lemma raw_total ws X : 0 <= ws -> total literal_nibbles (raw_cmds real_dims ws X) = 2 * zlen X /\ total (command_nibbles real_dims) (raw_cmds real_dims ws X) <= 8442.
Proof.
  intros H. assert (P : 0 <= 2 ^ ws) by (apply Z.pow_nonneg; lia).
  assert (PM0 : command_nibbles real_dims (PredictionMode (raw_pm real_dims)) = 8418) by reflexivity.
  assert (L : forall d, total literal_nibbles (lit_of d) = 2 * zlen d /\ total (command_nibbles real_dims) (lit_of d) <= 12).
  { intros [|z d]; unfold total; cbn [lit_of map fold_right literal_nibbles command_nibbles]; split; try lia. reflexivity. }
  unfold raw_cmds. unfold total in *. cbn [map fold_right]. rewrite PM0. cbn [literal_nibbles].
  destruct (Z.ltb_spec (zlen X) (2 ^ ws)).
  - destruct (L X). lia.
  - cbn [map fold_right literal_nibbles command_nibbles]. destruct (L (zskip (2 ^ ws) X)) as (A & B). rewrite zlen_skip in A by lia. rewrite zfirst_len_sub by lia. lia.
Qed.
Theorem C82_raw : forall dict wl g opt X, cfg_ok g -> bytes X -> zlen X < 2 * 2 ^ choose_window opt - 1 ->
  exists fuel0, forall fuel calls rooms T, (fuel0 <= fuel)%nat -> offered calls = X -> Forall (fun c => 0 <= snd c) calls -> Forall (fun r => 0 <= r) rooms ->
    rsession dict wl real_dims g fuel (rawc_new real_dims opt) [] calls rooms = Some (T, Finished) ->
    27 <= zlen T <= 67635 + 16 * zlen X + 64 * groups (2 * zlen X).
Proof.
  intros dict wl g opt X G BX LX. pose proof (choose_window_range opt) as WR.
  pose proof (proj1 C20_case) as BG. pose proof (raw_acceptable dict wl g _ X G WR BX LX) as AC.
  destruct (C28_streams_exist dict wl real_dims g _ _ BG G AC) as (a & b & ST & _).
  destruct (C46_raw_file dict wl g opt X a b G BX LX ST) as (fuel0 & H). exists fuel0. intros fuel calls rooms T LE OF C0 R0 RS.
  destruct (H fuel calls rooms LE OF C0 R0) as (o & v & RS2 & _ & IF & _). rewrite RS in RS2. injection RS2 as <- <-.
  pose proof (C82_file dict wl real_dims g _ _ a b T BG ST (IF eq_refl)) as S. destruct (raw_total (choose_window opt) X ltac:(lia)) as (T1 & T2).
  unfold file_room in S. rewrite T1 in S. pose proof (room_mono _ (8442 + 1) ltac:(apply Z.add_le_mono_r; exact T2)) as RM. change (stream_room (8442 + 1)) with 16902 in RM.
  unfold stream_room at 2 in S. lia.
Qed.
Print Assumptions C82_raw.

(** The bounds are met: a long copy over a long distance takes all 23 nibbles, a dictionary
    word 7, a literal block switch 5, and three literal bytes six on the literal stream. *)
Definition idle : ModelTop.replayer unit := ModelTop.RP unit (fun r _ => Next r) (fun _ => 0).
Definition counts (cmd : command) : option (Z * Z) :=
  let? '(_, _, es) := enc_cmd idle demo_wl real_dims 100 demo_cfg cmd false (codec_new real_dims tt) in Some (written CMD es, written LIT es).
Example C82_case : counts (Copy (2 ^ 29) (2 ^ 31)) = Some (23, 0) /\ counts (Dict 6 3 7 0) = Some (7, 0) /\
  counts (BlockSwitchLiteral 77 3) = Some (5, 0) /\ counts (BlockSwitchCommand 77) = Some (4, 0) /\ counts (Literal [1; 2; 3] true) = Some (3, 6) /\
  big real_dims /\ reachable idle demo_wl real_dims (codec_new real_dims tt) /\ file_room real_dims [Literal [1; 2; 3] true; Copy 2 9] = 499.
Proof. do 5 (split; [vm_compute; reflexivity|]). split; [exact (proj1 C20_case)|]. split; [constructor|]. vm_compute. reflexivity. Qed.
