(** C79: what the entropy coder spends. *)
From Verif Require Import Prelude ModelAns SpecAns ProofAnsRt ProofAnsDec ModelCdf SpecCdf ModelMux SpecMux ProofZlist ModelCmd ModelRecode SpecLz ModelPriors ModelCodec ModelPm ModelTop SpecCodec SpecReplay ModelCrc SpecCrc ModelHeader SpecHeader ProofHeader SpecFile ProofEnc SpecCost ProofCost.

(** C79.  For every list of symbols, of any length and any legal intervals, the encoder's
    output is the ideal length of the list and between 60 and 130 bits for every started
    group of 65536 symbols. *)
Theorem C79_near_ideal : forall sfs, Forall (fun p => legal (fst p) (snd p)) sfs ->
  exists out, ans_encode sfs = Some out /\
    at_least_ideal_plus (zlen out) sfs (60 * groups (count sfs)) /\
    at_most_ideal_plus (zlen out) sfs (130 * groups (count sfs)).
Proof. exact encode_cost. Qed.
Print Assumptions C79_near_ideal.

(** A symbol that is nearly certain costs nearly nothing: [n] symbols of frequency
    [2 ^ 15 - 1] take at most one bit per 16384 symbols, beside the 130 bits per group. *)
Lemma weight_repeat sf n : weight (repeat sf n) = snd sf ^ Z.of_nat n.
Proof.
  induction n as [|n IH]; [reflexivity|]. cbn [repeat]. change (weight (sf :: repeat sf n)) with (snd sf * weight (repeat sf n)). rewrite IH.
  rewrite Nat2Z.inj_succ, Z.pow_succ_r by lia. reflexivity.
Qed.
Lemma count_repeat sf n : count (repeat sf n) = Z.of_nat n.
Proof. unfold count. rewrite repeat_length. reflexivity. Qed.
Lemma certain_pow N h j : 1 < N -> 0 <= h -> 2 * h <= N -> 0 <= j -> N ^ (h * j) <= 2 ^ j * (N - 1) ^ (h * j).
Proof.
  intros HN H0 H2 H. pose proof (shrink_half N h HN H0 H2) as S.
  rewrite !Z.pow_mul_r by assumption. rewrite <- Z.pow_mul_l.
  apply Z.pow_le_mono_l. split; [apply Z.pow_nonneg; lia|exact S].
Qed.
Theorem C79_certain_is_cheap : forall s j, (s = 0 \/ s = 1) -> 0 <= j ->
  exists out, ans_encode (repeat (s, 2 ^ 15 - 1) (Z.to_nat (16384 * j))) = Some out /\
    8 * zlen out <= j + 130 * groups (16384 * j).
Proof.
  intros s j HS HJ. assert (F : Forall (fun p => legal (fst p) (snd p)) (repeat (s, 2 ^ 15 - 1) (Z.to_nat (16384 * j)))).
  { apply Forall_forall. intros p I. apply repeat_spec in I. subst p. unfold legal. cbn [fst snd]. lia. }
  destruct (C79_near_ideal _ F) as (out & E & _ & U). exists out. split; [exact E|]. unfold at_most_ideal_plus in U.
  rewrite weight_repeat, !count_repeat, Z2Nat.id in U by lia. cbn [snd] in U.
  pose proof (certain_pow (2 ^ 15) 16384 j ltac:(lia) ltac:(lia) ltac:(lia) HJ) as S. rewrite <- (Z.pow_mul_r 2 15) in S by lia. set (c := 130 * groups (16384 * j)) in *.
  assert (C0 : 0 <= c) by (unfold c, groups; apply Z.mul_nonneg_nonneg; [lia|apply Z.div_pos; lia]).
  rewrite Z.pow_add_r in U by lia.
  assert (P : 0 < (2 ^ 15 - 1) ^ (16384 * j)) by (apply Z.pow_pos_nonneg; lia).
  pose proof (Z.pow_nonneg 2 c ltac:(lia)) as PC. set (Y := (2 ^ 15 - 1) ^ (16384 * j)) in *. set (V := 2 ^ (15 * (16384 * j))) in *.
  assert (X : 2 ^ (8 * zlen out) * Y <= 2 ^ (j + c) * Y).
  { rewrite Z.pow_add_r by lia. assert (2 ^ c * V <= 2 ^ c * (2 ^ j * Y)) by (apply Z.mul_le_mono_nonneg_l; assumption). lia. }
  clearbody c. apply Z.mul_le_mono_pos_r in X; [|exact P]. apply Z.pow_le_mono_r_iff in X; unfold zlen in *; lia.
Qed.
Print Assumptions C79_certain_is_cheap.

(** C79, files.  A compressed file spends at least the ideal length of the nibbles of both
    streams, each at the probability the adaptive model gave it when it was written.  Each
    stream is within 130 bits per group of that length, and header, frames, end marker and
    trailer add at least 27 bytes and at most 27 and three per payload byte. *)
Lemma framing_size a b W : framing a b W -> zlen a + zlen b + 3 <= zlen W <= 4 * (zlen a + zlen b) + 3.
Proof.
  induction 1 as [|s lo hi d a b W BL BH N F IH|s j d a b W J N F IH]; unfold payload.
  - unfold zlen. cbn [length]. lia.
  - unfold byte in *. assert (zlen (if stream_eqb s Cmd then d else []) + zlen (if stream_eqb s Lit then d else []) = zlen d) by (destruct s; unfold zlen; cbn [stream_eqb length]; lia).
    rewrite !zlen_app. change (zlen [sid s; lo; hi]) with 3. lia.
  - assert (zlen (if stream_eqb s Cmd then d else []) + zlen (if stream_eqb s Lit then d else []) = zlen d) by (destruct s; unfold zlen; cbn [stream_eqb length]; lia).
    assert (1 <= zlen d) by (rewrite N; assert (0 < 4 ^ j) by (apply Z.pow_pos_nonneg; lia); lia).
    rewrite !zlen_app. change (zlen [sid s + 16 * j]) with 1. lia.
Qed.
Theorem C79_files : forall dict wl D fuel g ws cmds c es a b T,
  enc_all (lz_replayer dict (2 ^ ws)) wl D fuel g cmds (codec_new D (window ws)) = Some (c, coded_all wl D g (pm_new D) cmds, es) -> writable es ->
  ans_encode (intervals CMD es) = Some a -> ans_encode (intervals LIT es) = Some b -> is_file ws a b T ->
  at_least_ideal_plus (zlen T) (intervals CMD es ++ intervals LIT es) (60 * (groups (count (intervals CMD es)) + groups (count (intervals LIT es))) + 8 * 27) /\
  at_most_ideal_plus (zlen a) (intervals CMD es) (130 * groups (count (intervals CMD es))) /\
  at_most_ideal_plus (zlen b) (intervals LIT es) (130 * groups (count (intervals LIT es))) /\
  zlen a + zlen b + 27 <= zlen T <= 4 * (zlen a + zlen b) + 27.
Proof.
  intros dict wl D fuel g ws cmds c es a b T _ W EA EB (X & FR & _ & ->).
  pose proof (sfs_legal CMD es W) as LA. pose proof (sfs_legal LIT es W) as LB.
  change (sfs_of CMD es) with (intervals CMD es) in LA. change (sfs_of LIT es) with (intervals LIT es) in LB.
  destruct (C79_near_ideal _ LA) as (a' & EA' & AL & AU). destruct (C79_near_ideal _ LB) as (b' & EB' & BL & BU).
  assert (a' = a) by congruence. assert (b' = b) by congruence. subst a' b'.
  pose proof (framing_size a b X FR) as S.
  assert (SZ : zlen (make_header ws ++ X ++ trailer (crc32c 0 (make_header ws ++ X))) = zlen X + 24).
  { rewrite !zlen_app. unfold zlen at 1 3. rewrite make_header_length, trailer_length. lia. }
  rewrite SZ. split; [|split; [exact AU|split; [exact BU|lia]]].
  assert (G1 : 0 <= groups (count (intervals CMD es))) by (unfold groups, count; apply Z.div_pos; lia).
  assert (G2 : 0 <= groups (count (intervals LIT es))) by (unfold groups, count; apply Z.div_pos; lia).
  assert (A0 : 0 <= zlen a) by (unfold zlen; lia). assert (B0 : 0 <= zlen b) by (unfold zlen; lia).
  destruct (cost_join (zlen a) (intervals CMD es) (60 * groups (count (intervals CMD es))) (zlen b) (intervals LIT es) (60 * groups (count (intervals LIT es)))) as (J & _); try assumption; try lia.
  specialize (J AL BL). unfold at_least_ideal_plus in *.
  assert (W0 : 0 <= weight (intervals CMD es ++ intervals LIT es)) by (rewrite weight_app; pose proof (weight_pos _ LA); pose proof (weight_pos _ LB); apply Z.mul_nonneg_nonneg; lia).
  rewrite <- Z.mul_add_distr_l in J. set (l := intervals CMD es ++ intervals LIT es) in *. set (k := groups (count (intervals CMD es)) + groups (count (intervals LIT es))) in *.
  assert (N0 : 0 <= count l) by (unfold count; lia).
  rewrite Z.add_assoc, (Z.pow_add_r 2 _ (8 * 27)) by lia.
  assert (M : 2 ^ (8 * (zlen a + zlen b)) * 2 ^ (8 * 27) <= 2 ^ (8 * (zlen X + 24))) by (rewrite <- Z.pow_add_r by lia; apply Z.pow_le_mono_r; lia).
  pose proof (Z.pow_nonneg 2 (8 * 27) ltac:(lia)) as P.
  apply (Z.le_trans _ (2 ^ (8 * (zlen a + zlen b)) * weight l * 2 ^ (8 * 27))).
  - apply Z.mul_le_mono_nonneg_r; assumption.
  - replace (2 ^ (8 * (zlen a + zlen b)) * weight l * 2 ^ (8 * 27)) with (2 ^ (8 * (zlen a + zlen b)) * 2 ^ (8 * 27) * weight l) by ring.
    apply Z.mul_le_mono_nonneg_r; assumption.
Qed.
Print Assumptions C79_files.

(** Twelve symbols: a likely one many times and two unlikely ones.  Their ideal length is
    just under 30 bits; the encoder's output has 16 bytes. *)
Definition ex_syms : list (Z * Z) := [(0, 32000)] ++ [(32001, 1)] ++ repeat (0, 32000) 9 ++ [(32766, 2)].
Example C79_case : Forall (fun p => legal (fst p) (snd p)) ex_syms /\ (exists out, ans_encode ex_syms = Some out /\ zlen out = 16) /\
  2 ^ 29 * weight ex_syms < 2 ^ (15 * count ex_syms) <= 2 ^ 30 * weight ex_syms /\ groups (count ex_syms) = 1.
Proof.
  split; [repeat constructor; cbn [fst snd]; try lia|]. split; [|split; [vm_compute; split; [reflexivity|discriminate]|reflexivity]].
  match goal with |- exists out, ?e = _ /\ _ => destruct e as [o|] eqn:E end.
  - exists o. split; [reflexivity|]. assert (X : match ans_encode ex_syms with Some o => zlen o | None => 0 end = 16) by (vm_compute; reflexivity). rewrite E in X. exact X.
  - exfalso. assert (X : match ans_encode ex_syms with Some o => zlen o | None => 0 end = 16) by (vm_compute; reflexivity). rewrite E in X. discriminate.
Qed.
