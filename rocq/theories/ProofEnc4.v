(** Whole sessions of the compressor. *)
From Verif Require Import Prelude ProofList ModelAns SpecAns ProofAns ProofAnsRt ModelCdf SpecCdf ProofCdf ThmCdf ModelMux SpecMux ProofZlist ProofMux ProofMuxW ModelCmd ModelCrc ProofCrc ModelHeader ModelRecode ModelPriors ModelCodec ModelLit ModelPm ModelTop SpecCodec ModelEnc SpecEnc ProofCodecInv ProofCodecInv2 ProofRun ProofCopy ProofTop ProofEnc ProofEnc2 ProofEnc3.

Lemma as_u8_byte x : byte (as_u8 x).
Proof. rewrite as_u8_mod. unfold byte. lia. Qed.
Definition crc0 (l : list Z) : Z := crc32c_update 0 l.
Lemma crc0_app a b : bytes a -> bytes b -> crc0 (a ++ b) = crc32c_update (crc0 a) b.
Proof. intros. unfold crc0. apply crc_update_app; auto. lia. Qed.
Lemma crc0_nil : crc0 [] = 0. Proof. reflexivity. Qed.
Lemma zlen_firstn_le {A} n (l : list A) : zlen (firstn n l) <= Z.of_nat n.
Proof. unfold zlen. rewrite firstn_length. lia. Qed.

Section Session.
Context (dict : dict_fn) (wl : word_len_fn) (D : dims) (g : cfg).
Let RR := rcs_replayer dict.
Context (ES : list ev) (A B H : list Z) (WR : writable ES)
  (EA : ans_encode (sfs_of CMD ES) = Some A) (EB : ans_encode (sfs_of LIT ES) = Some B) (BH : bytes H) (HL : length H = 16%nat).
Lemma BA : bytes A. Proof. exact (ans_encode_bytes _ _ (sfs_legal CMD ES WR) EA). Qed.
Lemma BB : bytes B. Proof. exact (ans_encode_bytes _ _ (sfs_legal LIT ES WR) EB). Qed.
Definition half (st : stream) (e : encoder) (mv : list Z) : Prop :=
  match st with CMD => fin e mv (sfs_of CMD ES) | LIT => est e mv (sfs_of LIT ES) end.
Definition both (st : stream) (e : encoder) (mv : list Z) : Prop := fin e mv (sfs_of st ES).
Definition no_q (p : eparts) (st : stream) : Prop := content (q (coder p st)) = [].
Definition body (O : list Z) : list Z -> Prop := fun W => framed A B W.
Definition phinv (fuel : nat) (cmds : list command) (s : ecodec) (O : list Z) : Prop :=
  let p := ec_parts s in
  match ec_phase s with
  | PRun => exists es1 es2, ES = es1 ++ es2 /\ einv es1 p O /\ todo dict wl D g fuel cmds (ec_codec s) es2 /\ (cmds = [] -> k_st (ec_codec s) = TBegin)
  | PNode => cmds = [] /\ einv ES p O
  | PShut i => cmds = [] /\ ((i = 0 /\ einv ES p O /\ no_q p CMD /\ no_q p LIT) \/ (i = 1 /\ pinv half p O /\ no_q p LIT))
  | PCoders => cmds = [] /\ pinv both p O
  | PMux => cmds = [] /\ closing A B (x_mux p) O
  | PSum n => cmds = [] /\ (n < 8)%nat /\ exists W, framed A B W /\ O = W ++ firstn n (checksum_bytes (crc0 (H ++ W))) /\ ec_frozen s = Some (crc0 (H ++ W))
  | PDone => cmds = [] /\ exists W, framed A B W /\ O = W ++ checksum_bytes (crc0 (H ++ W))
  end.
Definition crcok (s : ecodec) (T : list Z) : Prop :=
  match ec_phase s with PSum _ | PDone => ec_frozen s <> None | _ => ec_frozen s = None /\ ec_crc s = crc0 T end.

(** ** Bounds *)
Definition bound : Z := 4 * (zlen A + zlen B) + 11.
Lemma einv_bounds es1 es2 p O : ES = es1 ++ es2 -> einv es1 p O -> bytes O /\ zlen O <= 4 * (zlen A + zlen B).
Proof.
  intros E (mv & M & C).
  assert (PF : forall st l, ans_encode (sfs_of st ES) = Some l -> prefix (mv (sidx st)) l).
  { intros st l AE. apply (est_prefix _ _ _ (sfs_of st es2) _ (C st)); rewrite <- sfs_of_app, <- E; [apply sfs_legal; exact WR|exact AE]. }
  apply (minv_bounds _ _ _ A B M); [apply (PF CMD A EA)|apply (PF LIT B EB)|exact BA|exact BB].
Qed.
Lemma half_bounds p O : pinv half p O -> bytes O /\ zlen O <= 4 * (zlen A + zlen B).
Proof.
  intros (mv & M & C). apply (minv_bounds _ _ _ A B M); [exact (fin_prefix _ _ _ _ (C CMD) EA)| |exact BA|exact BB].
  apply (est_prefix _ _ _ [] _ (C LIT)); rewrite app_nil_r; [apply sfs_legal; exact WR|exact EB].
Qed.
Lemma both_bounds p O : pinv both p O -> bytes O /\ zlen O <= 4 * (zlen A + zlen B).
Proof. intros (mv & M & C). apply (minv_bounds _ _ _ A B M); [exact (fin_prefix _ _ _ _ (C CMD) EA)|exact (fin_prefix _ _ _ _ (C LIT) EB)|exact BA|exact BB]. Qed.
Lemma framed_bounds W : framed A B W -> bytes W /\ zlen W <= 4 * (zlen A + zlen B) + 3.
Proof.
  intros (fs & G & -> & P0 & P1). pose proof BA. pose proof BB. split.
  - apply Forall_app. split; [apply enc_bytes; [exact G|rewrite P0; assumption|rewrite P1; assumption]|]. repeat (apply Forall_cons; [unfold byte; lia|]). apply Forall_nil.
  - rewrite zlen_app. change (zlen EOF_MARKER) with 3. pose proof (enc_len fs G). rewrite P0, P1 in *. lia.
Qed.
Lemma phinv_bounds fuel cmds s O : phinv fuel cmds s O -> zlen O <= bound.
Proof.
  unfold phinv, bound. destruct (ec_phase s) as [| |i| | |n|].
  - intros (es1 & es2 & E & I & _). pose proof (einv_bounds _ _ _ _ E I). lia.
  - intros (_ & I). pose proof (einv_bounds ES [] _ _ (eq_sym (app_nil_r _)) I). lia.
  - intros (_ & [(_ & I & _)|(_ & I & _)]); [pose proof (einv_bounds ES [] _ _ (eq_sym (app_nil_r _)) I)|pose proof (half_bounds _ _ I)]; lia.
  - intros (_ & I). pose proof (both_bounds _ _ I). lia.
  - intros (_ & I). pose proof (closing_bounds _ _ _ _ I BA BB). lia.
  - intros (_ & L & W & F & -> & _). pose proof (framed_bounds W F). rewrite zlen_app. pose proof (zlen_firstn_le n (checksum_bytes (crc0 (H ++ W)))). lia.
  - intros (_ & W & F & ->). pose proof (framed_bounds W F). rewrite zlen_app. change (zlen (checksum_bytes (crc0 (H ++ W)))) with 8. lia.
Qed.

(** ** Flushing.  [T0]: everything output before this call (without the header: [O0]) *)
(** one round of each phase *)
Definition ph (s : ecodec) c p f : ecodec := EC c p (ec_crc s) (ec_frozen s) f.
Lemma round_coders n F s room done : ec_phase s = PCoders -> internal_flush dict wl D g (S n) F s room done =
  (let? '(o, p, ok) := drain_list [(CMD, true); (LIT, true)] (ec_parts s) (room - zlen done) in
   if ok then internal_flush dict wl D g n F (ph s (ec_codec s) p PMux) room (done ++ o) else Some (done ++ o, ph s (ec_codec s) p PCoders, RNeedsMoreOutput)).
Proof. intros P. cbn [internal_flush]. rewrite P. reflexivity. Qed.
Lemma round_node n F s room done : ec_phase s = PNode -> internal_flush dict wl D g (S n) F s room done =
  (let? '(o, p, ok) := drain_list [(CMD, true); (LIT, true)] (ec_parts s) (room - zlen done) in
   if ok then internal_flush dict wl D g n F (ph s (ec_codec s) p (PShut 0)) room (done ++ o) else Some (done ++ o, ph s (ec_codec s) p PNode, RNeedsMoreOutput)).
Proof. intros P. cbn [internal_flush]. rewrite P. reflexivity. Qed.
Lemma round_shut0 n F s room done : ec_phase s = PShut 0 -> internal_flush dict wl D g (S n) F s room done =
  (let? e := enc_flush (x_cmd (ec_parts s)) in internal_flush dict wl D g n F (ph s (ec_codec s) (set_coder (ec_parts s) CMD e) (PShut 1)) room done).
Proof. intros P. cbn [internal_flush]. rewrite P, app_nil_r. reflexivity. Qed.
Lemma round_shut1 n F s room done : ec_phase s = PShut 1 -> internal_flush dict wl D g (S n) F s room done =
  (let? e := enc_flush (x_lit (ec_parts s)) in internal_flush dict wl D g n F (ph s (ec_codec s) (set_coder (ec_parts s) LIT e) PCoders) room done).
Proof. intros P. cbn [internal_flush]. rewrite P, app_nil_r. reflexivity. Qed.
Lemma round_run n F s room done : ec_phase s = PRun -> k_st (ec_codec s) = TBegin -> internal_flush dict wl D g (S n) F s room done =
  (let? '(o, c, p, r) := one_command dict wl D g F (Copy 1 0) true (ec_codec s) (ec_parts s) (room - zlen done) in
   match r with
   | Ended => internal_flush dict wl D g n F (ph s c p PNode) room (done ++ o)
   | NeedOut => Some (done ++ o, ph s c p PRun, RNeedsMoreOutput)
   | Failed e => Some (done ++ o, ph s c p PRun, RFailure e)
   | Advanced => Some (done ++ o, ph s c p PRun, RFailure ReplayFailure)
   end).
Proof. intros P T. cbn [internal_flush]. rewrite P, T. reflexivity. Qed.
Definition flushed_to fuel (room : Z) (O0 : list Z) (t : list Z * ecodec * cres) : Prop :=
  let '(o, s, r) := t in
  zlen o <= room /\ phinv fuel [] s (O0 ++ o) /\ crcok s (H ++ O0) /\
  ((r = RSuccess /\ ec_phase s = PDone) \/ (r = RNeedsMoreOutput /\ zlen o = room /\ ec_phase s <> PDone)).
Lemma checksum_len x : length (checksum_bytes x) = 8%nat. Proof. reflexivity. Qed.
Lemma sum_spec W n x avail : (n < 8)%nat -> x = crc0 (H ++ W) ->
  let '(o, n', r) := write_checksum x n avail in
  zlen o <= Z.of_nat avail /\ firstn n (checksum_bytes x) ++ o = firstn (n + length o) (checksum_bytes x) /\ n' = (n + length o)%nat /\
  ((r = ModelHeader.OSuccess /\ n' = 8%nat) \/ (r = ModelHeader.ONeedsMoreOutput /\ zlen o = Z.of_nat avail /\ (n' < 8)%nat)).
Proof.
  intros L _. unfold write_checksum, CHECKSUM_LENGTH. set (k := Nat.min avail (8 - n)). set (o := firstn k _).
  assert (LO : length o = k) by (unfold o; rewrite firstn_length, skipn_length, checksum_len; lia).
  split; [unfold zlen; lia|]. split.
  - rewrite LO. unfold o. rewrite firstn_skipn_comm. transitivity (firstn n (firstn (n + k) (checksum_bytes x)) ++ skipn n (firstn (n + k) (checksum_bytes x))); [|apply firstn_skipn].
    f_equal. rewrite firstn_firstn. f_equal. lia.
  - split; [lia|]. destruct (Nat.leb_spec (8 - n) avail); [left|right]; (split; [reflexivity|]); unfold zlen; lia.
Qed.
Lemma flush_sum steps fuel F s room O0 done n W :
  ec_phase s = PSum n -> (n < 8)%nat -> framed A B W -> O0 ++ done = W ++ firstn n (checksum_bytes (crc0 (H ++ W))) ->
  (ec_frozen s = Some (crc0 (H ++ W)) \/ (ec_frozen s = None /\ n = 0%nat /\ ec_crc s = crc0 (H ++ O0) /\ bytes O0)) -> zlen done <= room ->
  exists t, internal_flush dict wl D g (S steps) F s room done = Some t /\ flushed_to fuel room O0 t.
Proof.
  intros P N FR E FZ L. cbn [internal_flush]. rewrite P.
  assert (X : exists crc, (match ec_frozen s with None => (crc32c_update (ec_crc s) done, crc32c_update (ec_crc s) done) | Some x => (ec_crc s, x) end) = (crc, crc0 (H ++ W))).
  { destruct FZ as [FZ|(FZ & -> & CR & BO)]; rewrite FZ; [eexists; reflexivity|]. rewrite CR. cbn [firstn] in E. rewrite app_nil_r in E.
    destruct (framed_bounds W FR) as (BW & _). rewrite <- E in BW. apply Forall_app in BW. destruct BW as (_ & BD).
    rewrite <- crc0_app; [|apply Forall_app; split; assumption|exact BD]. rewrite <- app_assoc, E. eexists. reflexivity. }
  destruct X as (crc & X). rewrite X. clear X.
  pose proof (sum_spec W n (crc0 (H ++ W)) (Z.to_nat (room - zlen done)) N eq_refl) as S.
  destruct (write_checksum (crc0 (H ++ W)) n (Z.to_nat (room - zlen done))) as ((o & n') & r). destruct S as (LO & FO & -> & K).
  eexists. split; [reflexivity|]. unfold flushed_to. rewrite zlen_app. split; [lia|].
  assert (EO : O0 ++ done ++ o = W ++ firstn (n + length o) (checksum_bytes (crc0 (H ++ W)))) by (rewrite app_assoc, E, <- app_assoc, FO; reflexivity).
  destruct K as [(-> & K)|(-> & K & K2)].
  - split; [|split; [cbn; discriminate|left; auto]]. unfold phinv. cbn [ec_phase ec_parts]. split; [reflexivity|]. exists W. split; [exact FR|]. rewrite EO, K. reflexivity.
  - split; [|split; [cbn; discriminate|right; cbn [ec_phase]; repeat split; [lia|discriminate]]]. unfold phinv. cbn [ec_phase ec_parts]. split; [reflexivity|]. split; [exact K2|]. exists W. split; [exact FR|]. split; [exact EO|reflexivity].
Qed.
(** common shape of the earlier phases: frozen checksum absent, crc of what precedes the call *)
Definition early (s : ecodec) O0 : Prop := ec_frozen s = None /\ ec_crc s = crc0 (H ++ O0) /\ bytes O0.
Lemma flush_mux steps fuel F s room O0 done :
  ec_phase s = PMux -> early s O0 -> closing A B (x_mux (ec_parts s)) (O0 ++ done) -> zlen done <= room ->
  exists t, internal_flush dict wl D g (S (S steps)) F s room done = Some t /\ flushed_to fuel room O0 t.
Proof.
  intros P (E1 & E2 & E3) C L. cbn [internal_flush]. rewrite P.
  destruct (mux_drain_spec A B _ _ (room - zlen done) C ltac:(lia)) as (o & m' & ok & ME & C' & LO & T & Fa). rewrite ME. cbn [bind].
  destruct ok.
  - change (exists t, internal_flush dict wl D g (S steps) F (EC (ec_codec s) (set_mux (ec_parts s) m') (ec_crc s) (ec_frozen s) (PSum 0)) room (done ++ o) = Some t /\ flushed_to fuel room O0 t).
    apply (flush_sum steps fuel F _ room O0 (done ++ o) 0 (O0 ++ done ++ o)); [reflexivity|lia|rewrite app_assoc; auto|cbn [firstn]; rewrite app_nil_r; reflexivity|right; cbn; auto|rewrite zlen_app; lia].
  - eexists. split; [reflexivity|]. unfold flushed_to. rewrite zlen_app. split; [specialize (Fa eq_refl); lia|]. split; [|split].
    + unfold phinv. cbn [ec_phase ec_parts]. unfold ph; cbn [ec_phase ec_parts ec_codec ec_frozen ec_crc]; rewrite ?P. split; [reflexivity|]. rewrite app_assoc. exact C'.
    + unfold crcok. cbn [ec_phase ec_frozen ec_crc]. unfold ph; cbn [ec_phase ec_parts ec_codec ec_frozen ec_crc]; rewrite ?P. auto.
    + right. cbn [ec_phase]. unfold ph; cbn [ec_phase ec_parts ec_codec ec_frozen ec_crc]; rewrite ?P. specialize (Fa eq_refl). repeat split; [lia|discriminate].
Qed.
Lemma both_drain l p out room : pinv both p out -> 0 <= room ->
  exists o p' ok, drain_list l p room = Some (o, p', ok) /\ pinv both p' (out ++ o) /\ zlen o <= room /\
    (ok = true -> forall st, In (st, true) l -> content (q (coder p' st)) = []) /\ (ok = false -> zlen o = room).
Proof.
  intros I R. destruct (drain_list_spec both) with (l := l) (p := p) (out := out) (room := room) as (o & p' & ok & X1 & X2 & X3 & X4 & X5 & X6); auto.
  - intros st. apply fin_pop.
  - intros st e mv X. apply X.
  - exists o, p', ok. auto.
Qed.
Lemma flush_coders steps fuel F s room O0 done :
  ec_phase s = PCoders -> early s O0 -> pinv both (ec_parts s) (O0 ++ done) -> zlen done <= room ->
  exists t, internal_flush dict wl D g (S (S (S steps))) F s room done = Some t /\ flushed_to fuel room O0 t.
Proof.
  intros P E I L. rewrite round_coders by exact P.
  destruct (both_drain [(CMD, true); (LIT, true)] _ _ (room - zlen done) I ltac:(lia)) as (o & p' & ok & DE & I' & LO & T & Fa). rewrite DE. cbn [bind].
  destruct ok.
  - specialize (T eq_refl). apply flush_mux; [reflexivity|exact E| |rewrite zlen_app; lia].
    cbn [ec_parts]. rewrite app_assoc. destruct I' as (mv & M & C). apply closing_of_minv in M.
    pose proof (fi_bytes _ _ _ (C CMD)) as FC. pose proof (fi_bytes _ _ _ (C LIT)) as FL. rewrite (T CMD) in FC by (left; reflexivity). rewrite (T LIT) in FL by (right; left; reflexivity).
    rewrite app_nil_r in FC, FL. rewrite EA in FC. rewrite EB in FL. cbn [sidx] in FC, FL. injection FC as ->. injection FL as ->. exact M.
  - eexists. split; [reflexivity|]. specialize (Fa eq_refl). unfold flushed_to. rewrite zlen_app. split; [lia|]. split; [|split].
    + unfold phinv. cbn [ec_phase ec_parts]. unfold ph; cbn [ec_phase ec_parts ec_codec ec_frozen ec_crc]; rewrite ?P. split; [reflexivity|]. rewrite app_assoc. exact I'.
    + unfold crcok. cbn [ec_phase ec_frozen ec_crc]. unfold ph; cbn [ec_phase ec_parts ec_codec ec_frozen ec_crc]; rewrite ?P. destruct E as (? & ? & _). auto.
    + right. cbn [ec_phase]. unfold ph; cbn [ec_phase ec_parts ec_codec ec_frozen ec_crc]; rewrite ?P. repeat split; [lia|discriminate].
Qed.
Lemma flush_shut1 steps fuel F s room O0 done :
  ec_phase s = PShut 1 -> early s O0 -> pinv half (ec_parts s) (O0 ++ done) -> no_q (ec_parts s) LIT -> zlen done <= room ->
  exists t, internal_flush dict wl D g (S (S (S (S steps)))) F s room done = Some t /\ flushed_to fuel room O0 t.
Proof.
  intros P E I Q L. rewrite round_shut1 by exact P.
  destruct I as (mv & M & C). destruct (est_close _ _ _ (C LIT) Q) as (e' & FE & FI). cbn [coder] in FE. rewrite FE. cbn [bind].
  apply flush_coders; [reflexivity|exact E| |exact L]. cbn [ec_parts]. exists mv. split; [exact M|]. intros []; [exact (C CMD)|exact FI].
Qed.
Lemma flush_shut0 steps fuel F s room O0 done :
  ec_phase s = PShut 0 -> early s O0 -> einv ES (ec_parts s) (O0 ++ done) -> no_q (ec_parts s) CMD -> no_q (ec_parts s) LIT -> zlen done <= room ->
  exists t, internal_flush dict wl D g (S (S (S (S (S steps))))) F s room done = Some t /\ flushed_to fuel room O0 t.
Proof.
  intros P E I QC QL L. rewrite round_shut0 by exact P.
  destruct I as (mv & M & C). destruct (est_close _ _ _ (C CMD) QC) as (e' & FE & FI). cbn [coder] in FE. rewrite FE. cbn [bind].
  apply flush_shut1; [reflexivity|exact E| |exact QL|exact L]. cbn [ec_parts]. exists mv. split; [exact M|]. intros []; [exact FI|exact (C LIT)].
Qed.
Lemma flush_node steps fuel F s room O0 done :
  ec_phase s = PNode -> early s O0 -> einv ES (ec_parts s) (O0 ++ done) -> zlen done <= room ->
  exists t, internal_flush dict wl D g (S (S (S (S (S (S steps)))))) F s room done = Some t /\ flushed_to fuel room O0 t.
Proof.
  intros P E I L. rewrite round_node by exact P.
  destruct (edrain ES [(CMD, true); (LIT, true)] _ _ (room - zlen done) I ltac:(lia)) as (o & p' & ok & DE & I' & LO & T & Fa & _). rewrite DE. cbn [bind].
  destruct ok.
  - specialize (T eq_refl). apply flush_shut0; [reflexivity|exact E|cbn [ec_parts]; rewrite app_assoc; exact I'|apply T; left; reflexivity|apply T; right; left; reflexivity|rewrite zlen_app; lia].
  - eexists. split; [reflexivity|]. specialize (Fa eq_refl). unfold flushed_to. rewrite zlen_app. split; [lia|]. split; [|split].
    + unfold phinv. cbn [ec_phase ec_parts]. unfold ph; cbn [ec_phase ec_parts ec_codec ec_frozen ec_crc]; rewrite ?P. split; [reflexivity|]. rewrite app_assoc. exact I'.
    + unfold crcok. cbn [ec_phase ec_frozen ec_crc]. unfold ph; cbn [ec_phase ec_parts ec_codec ec_frozen ec_crc]; rewrite ?P. destruct E as (? & ? & _). auto.
    + right. cbn [ec_phase]. unfold ph; cbn [ec_phase ec_parts ec_codec ec_frozen ec_crc]; rewrite ?P. repeat split; [lia|discriminate].
Qed.
(** the end marker waits in the state it started in *)
Lemma end_waits F cmd c p room o c1 p1 : k_st c = TBegin -> one_command dict wl D g F cmd true c p room = Some (o, c1, p1, NeedOut) -> c1 = c.
Proof.
  intros T. destruct F as [|F]; [discriminate|]. cbn [one_command]. unfold top_want at 1. rewrite T.
  destruct (drain_list (drains TBegin) p room) as [[[oo pp] ok]|]; [|discriminate]. cbn [bind]. destruct ok; cbn [negb]; [|intros [= _ <- _]; reflexivity].
  unfold top_node at 1. rewrite T. destruct (code (k_bk c) CcP FullSelection _ _ _) as [st d k|oc|] eqn:CE; [|destruct oc as [?|?|]|]; try discriminate.
  - unfold code in CE. destruct (prior_index _ _ _); [|discriminate]. injection CE as <- <- <-.
    destruct ((0 <=? command_type_to_nibble cmd true) && (command_type_to_nibble cmd true <? 16)); [|discriminate].
    destruct (put_nibble pp CMD _ (command_type_to_nibble cmd true)); [|discriminate]. cbn [bind]. change (command_type_to_nibble cmd true) with 15. unfold begin_command. cbn [Z.eqb Pos.eqb].
    destruct F as [|F]; [discriminate|]. cbn [one_command]. unfold top_want. cbn [kset k_st drains drain_list]. unfold top_node. cbn [kset k_st bind negb]. discriminate.
  - unfold code in CE. destruct (prior_index _ _ _); discriminate.
Qed.
Lemma flush_run steps fuel F s room O0 done :
  ec_phase s = PRun -> early s O0 -> phinv fuel [] s (O0 ++ done) -> (fuel <= F)%nat -> zlen done <= room ->
  exists t, internal_flush dict wl D g (S (S (S (S (S (S (S steps))))))) F s room done = Some t /\ flushed_to fuel room O0 t.
Proof.
  intros P E I LE L. unfold phinv in I. rewrite P in I.
  destruct I as (es1 & es2 & EE & I & (cf & xs & TD) & TB). rewrite round_run by auto. cbn [enc_all] in TD. fold RR in TD.
  destruct (enc_cmd RR wl D fuel g (Copy 1 0) true (ec_codec s)) as [[[c' x] e']|] eqn:EC; [|discriminate]. destruct x; [discriminate|]. injection TD as _ _ ->.
  assert (W2 : writable es2) by (unfold writable in *; rewrite EE, Forall_app in WR; apply WR).
  destruct (one_command_spec dict wl D g (Copy 1 0) true fuel F _ _ _ _ es1 (ec_parts s) (O0 ++ done) (room - zlen done) EC LE W2 I ltac:(lia)) as ([[[o c1] p1] r] & OE & FL).
  rewrite OE. cbn [bind]. destruct FL as (LO & a & b & -> & I' & K). destruct K as [(y & X & _)|[(_ & -> & -> & ->)|(-> & ZL & E3)]]; [discriminate| |].
  - rewrite app_nil_r in EE. apply flush_node; [reflexivity|exact E|cbn [ec_parts]; rewrite EE, app_assoc; exact I'|rewrite zlen_app; lia].
  - pose proof (end_waits _ _ _ _ _ _ _ _ (TB eq_refl) OE) as ->. eexists. split; [reflexivity|]. unfold flushed_to. rewrite zlen_app. split; [lia|]. split; [|split].
    + unfold phinv. cbn [ec_phase ec_parts ec_codec]. unfold ph; cbn [ec_phase ec_parts ec_codec ec_frozen ec_crc]; rewrite ?P. exists (es1 ++ a), b. split; [rewrite <- app_assoc; exact EE|]. split; [rewrite app_assoc; exact I'|]. split; [|intros _; apply TB; reflexivity].
      exists c', []. cbn [enc_all]. unfold RR in E3. rewrite E3. reflexivity.
    + unfold crcok. cbn [ec_phase ec_frozen ec_crc]. unfold ph; cbn [ec_phase ec_parts ec_codec ec_frozen ec_crc]; rewrite ?P. destruct E as (? & ? & _). auto.
    + right. cbn [ec_phase]. unfold ph; cbn [ec_phase ec_parts ec_codec ec_frozen ec_crc]; rewrite ?P. repeat split; [lia|discriminate].
Qed.
Lemma codec_flush_spec fuel F s room O0 : phinv fuel [] s O0 -> crcok s (H ++ O0) -> bytes O0 -> (fuel <= F)%nat -> 0 <= room -> ec_phase s <> PDone ->
  exists o s' r, codec_flush dict wl D g F s room = Some (o, s', r) /\ zlen o <= room /\ phinv fuel [] s' (O0 ++ o) /\
    crcok s' (H ++ O0 ++ o) /\ bytes (O0 ++ o) /\ ((r = RSuccess /\ ec_phase s' = PDone) \/ (r = RNeedsMoreOutput /\ zlen o = room /\ ec_phase s' <> PDone)).
Proof.
  intros I C BO LE R ND. unfold codec_flush.
  assert (X : exists t, internal_flush dict wl D g 10 F s room [] = Some t /\ flushed_to fuel room O0 t).
  { assert (L0 : zlen (@nil Z) <= room) by (change (zlen (@nil Z)) with 0; exact R). pose proof I as I0. unfold phinv in I. unfold crcok in C.
    destruct (ec_phase s) as [| |i| | |n|] eqn:P.
    - apply (flush_run 3 fuel F s room O0 []); auto; [destruct C; split; auto|rewrite app_nil_r; exact I0].
    - destruct I as (_ & I). apply (flush_node 4 fuel F s room O0 []); auto; [destruct C; split; auto|rewrite app_nil_r; exact I].
    - destruct I as (_ & [(-> & I & Q1 & Q2)|(-> & I & Q2)]).
      + apply (flush_shut0 5 fuel F s room O0 []); auto; [destruct C; split; auto|rewrite app_nil_r; exact I].
      + apply (flush_shut1 6 fuel F s room O0 []); auto; [destruct C; split; auto|rewrite app_nil_r; exact I].
    - destruct I as (_ & I). apply (flush_coders 7 fuel F s room O0 []); auto; [destruct C; split; auto|rewrite app_nil_r; exact I].
    - destruct I as (_ & I). apply (flush_mux 8 fuel F s room O0 []); auto; [destruct C; split; auto|rewrite app_nil_r; exact I].
    - destruct I as (_ & N & W & FR & E & FZ). apply (flush_sum 9 fuel F s room O0 [] n W); auto. rewrite app_nil_r. exact E.
    - contradiction. }
  destruct X as (((o & s') & r) & E & (L & I' & C' & K)). rewrite E. cbn [bind]. eexists o, _, r. split; [reflexivity|]. split; [exact L|]. split.
  { unfold phinv in *. cbn [ec_phase ec_parts ec_codec ec_frozen]. exact I'. }
  assert (BO' : bytes (O0 ++ o)).
  { unfold phinv in I'. destruct (ec_phase s') as [| |i| | |n|].
    - destruct I' as (? & ? & X1 & X2 & _). apply (einv_bounds _ _ _ _ X1 X2).
    - destruct I' as (_ & X2). apply (einv_bounds ES [] _ _ (eq_sym (app_nil_r _)) X2).
    - destruct I' as (_ & [(_ & X2 & _)|(_ & X2 & _)]); [apply (einv_bounds ES [] _ _ (eq_sym (app_nil_r _)) X2)|apply (half_bounds _ _ X2)].
    - destruct I' as (_ & X2). apply (both_bounds _ _ X2).
    - destruct I' as (_ & X2). apply (closing_bounds _ _ _ _ X2 BA BB).
    - destruct I' as (_ & _ & W & FR & -> & _). apply Forall_app. split; [apply framed_bounds; exact FR|]. apply Forall_firstn. unfold checksum_bytes. repeat (apply Forall_cons; [first [apply as_u8_byte|unfold byte; lia]|]). apply Forall_nil.
    - destruct I' as (_ & W & FR & ->). apply Forall_app. split; [apply framed_bounds; exact FR|]. unfold checksum_bytes. repeat (apply Forall_cons; [first [apply as_u8_byte|unfold byte; lia]|]). apply Forall_nil. }
  split; [|split; [exact BO'|exact K]].
  unfold crcok in *. cbn [ec_phase ec_frozen ec_crc]. pose proof (proj2 (proj1 (Forall_app _ _ _) BO')) as Bo.
  assert (X : crc32c_update (crc0 (H ++ O0)) o = crc0 (H ++ O0 ++ o)) by (rewrite (app_assoc H O0 o); symmetry; apply crc0_app; [apply Forall_app; auto|exact Bo]).
  destruct (ec_phase s'); auto; destruct C' as (-> & ->); auto.
Qed.

(** ** Encoding commands *)
Lemma codec_encode_spec fuel F cmds later s room O0 T0 : phinv fuel (cmds ++ later) s O0 -> ec_phase s = PRun -> crcok s T0 -> bytes T0 -> cmds <> [] -> (fuel <= F)%nat -> 0 <= room ->
  exists o s' rest r, codec_encode dict wl D g F cmds s room = Some (o, s', rest, r) /\ zlen o <= room /\ phinv fuel (rest ++ later) s' (O0 ++ o) /\ ec_phase s' = PRun /\
    crcok s' (T0 ++ o) /\ bytes o /\ ((r = RNeedsMoreInput /\ rest = []) \/ (r = RNeedsMoreOutput /\ zlen o = room /\ rest <> [])).
Proof.
  intros I P C BT NE LE R. unfold codec_encode. unfold phinv in I. unfold crcok in C. rewrite P in *. destruct C as (C1 & C2).
  destruct I as (es1 & es2 & EE & I & TD & TB).
  assert (W2 : writable es2) by (unfold writable in *; rewrite EE, Forall_app in WR; apply WR).
  destruct (run_commands_spec dict wl D g cmds fuel F later (ec_codec s) es2 es1 (ec_parts s) O0 room NE TD LE W2 I R) as (o & c1 & p1 & rest & r & RE & L & a & b & -> & I' & TD' & K).
  rewrite RE. cbn [bind]. eexists o, _, rest, r. split; [reflexivity|]. split; [exact L|].
  assert (BO : bytes (O0 ++ o)) by (apply (einv_bounds (es1 ++ a) b p1); [rewrite <- app_assoc; exact EE|exact I']).
  apply Forall_app in BO. destruct BO as (_ & BO). split; [|split; [reflexivity|split; [|split; [exact BO|]]]].
  - unfold phinv. cbn [ec_phase ec_parts ec_codec]. exists (es1 ++ a), b. split; [rewrite <- app_assoc; exact EE|]. split; [exact I'|]. split; [exact TD'|].
    intros X. apply app_eq_nil in X. destruct X as (X & _). destruct K as [(_ & _ & K)|(_ & _ & K)]; [exact K|contradiction].
  - unfold crcok. cbn [ec_phase ec_frozen ec_crc]. rewrite C1. split; [reflexivity|]. rewrite C2. symmetry. apply crc0_app; assumption.
  - destruct K as [(K1 & K2 & _)|K]; [left; auto|right; exact K].
Qed.

(** ** The header *)
Definition sinv fuel cmds (s : compressor) (T : list Z) : Prop :=
  exists O, T = firstn (cm_hdr s) H ++ O /\ (cm_hdr s <= 16)%nat /\ ((cm_hdr s < 16)%nat -> O = [] /\ ec_phase (cm_codec s) = PRun) /\
    make_header (cm_ws s) = H /\ phinv fuel cmds (cm_codec s) O /\ crcok (cm_codec s) T /\ bytes T.
Lemma start_spec fuel cmds s T room : sinv fuel cmds s T -> 0 <= room -> ec_phase (cm_codec s) <> PDone ->
  exists h s' ok, start_call s room = (h, s', ok) /\ zlen h <= room /\ sinv fuel cmds s' (T ++ h) /\ (ok = true -> cm_hdr s' = 16%nat) /\ (ok = false -> zlen h = room) /\
    ec_phase (cm_codec s') = ec_phase (cm_codec s).
Proof.
  intros (O & E & HB & HS & MH & I & C & BT) R ND. unfold start_call. destruct (Nat.eqb_spec (cm_hdr s) HEADER_LENGTH) as [HE|HE]; unfold HEADER_LENGTH in *.
  { exists [], s, true. rewrite app_nil_r. split; [reflexivity|]. split; [change (zlen (@nil Z)) with 0; exact R|]. split; [exists O; auto 10|]. split; [auto|]. split; [discriminate|reflexivity]. }
  destruct (HS ltac:(lia)) as (-> & PR). rewrite app_nil_r in E. unfold crcok in C. rewrite PR in C. destruct C as (C1 & C2).
  unfold write_header. rewrite MH. unfold HEADER_LENGTH. set (n := cm_hdr s) in *.
  assert (X : forall k h, h = firstn k (skipn n H) -> (n + k <= 16)%nat -> bytes h /\ T ++ h = firstn (n + k) H /\ length h = k).
  { intros k h -> LK. split; [apply Forall_firstn; rewrite <- (firstn_skipn n H) in BH; apply Forall_app in BH; apply BH|]. split.
    - rewrite E, firstn_skipn_comm. rewrite <- (firstn_skipn n (firstn (n + k) H)) at 2. f_equal. rewrite firstn_firstn. f_equal. lia.
    - rewrite firstn_length, skipn_length, HL. lia. }
  destruct (Nat.ltb_spec (Z.to_nat room + n) 16) as [LT|GE].
  - destruct (X (Z.to_nat room) _ eq_refl ltac:(lia)) as (BHH & EH & LH). eexists _, _, false. split; [reflexivity|]. split; [unfold zlen; lia|]. split; [|split; [discriminate|split; [unfold zlen; lia|reflexivity]]].
    exists []. cbn [cm_hdr cm_codec cm_ws]. rewrite app_nil_r. split; [exact EH|]. split; [lia|]. split; [intros _; split; [reflexivity|exact PR]|]. split; [exact MH|]. split.
    { unfold phinv in *. cbn [ec_phase ec_parts ec_codec ec_frozen]. exact I. } split; [|apply Forall_app; split; assumption].
    unfold crcok. cbn [ec_phase ec_frozen ec_crc]. rewrite PR. split; [exact C1|]. rewrite C2. symmetry. apply crc0_app; assumption.
  - destruct (X (16 - n)%nat (skipn n H)) as (BHH & EH & LH); [symmetry; apply firstn_all2; rewrite skipn_length, HL; lia|lia|]. eexists _, _, true. split; [reflexivity|]. split; [unfold zlen; lia|]. split; [|split; [reflexivity|split; [discriminate|reflexivity]]].
    exists []. cbn [cm_hdr cm_codec cm_ws]. rewrite app_nil_r. split; [rewrite EH; f_equal; lia|]. split; [lia|]. split; [lia|]. split; [exact MH|]. split.
    { unfold phinv in *. cbn [ec_phase ec_parts ec_codec ec_frozen]. exact I. } split; [|apply Forall_app; split; assumption].
    unfold crcok. cbn [ec_phase ec_frozen ec_crc]. rewrite PR. split; [exact C1|]. rewrite C2. symmetry. apply crc0_app; assumption.
Qed.

(** ** Calls *)
Definition batch_of {X} (batches : list (list X)) : list X := concat batches.
Lemma H16 : firstn 16 H = H. Proof. apply firstn_all2. lia. Qed.
Lemma encode_commands_spec fuel F cmds later s T room : sinv fuel (cmds ++ later) s T -> ec_phase (cm_codec s) = PRun -> cmds <> [] -> (fuel <= F)%nat -> 0 <= room ->
  exists o s' rest r, encode_commands dict wl D g F s cmds room = Some (o, s', rest, r) /\ zlen o <= room /\ sinv fuel (rest ++ later) s' (T ++ o) /\ ec_phase (cm_codec s') = PRun /\
    ((r = RSuccess /\ rest = []) \/ (r = RNeedsMoreOutput /\ zlen o = room /\ rest <> [])).
Proof.
  intros I P NE LE R. unfold encode_commands. destruct (start_spec fuel (cmds ++ later) s T room I R ltac:(congruence)) as (h & s1 & ok & E & L & I1 & T1 & F1 & P1). rewrite E. rewrite P in P1.
  destruct ok; cbn [negb]; cycle 1. { exists h, s1, cmds, RNeedsMoreOutput. auto 10. }
  specialize (T1 eq_refl). destruct I1 as (O & E1 & HB & HS & MH & PI & C & BT).
  destruct (codec_encode_spec fuel F cmds later (cm_codec s1) (room - zlen h) O (T ++ h) PI P1 C BT NE LE ltac:(lia)) as (o & c' & rest & r & CE & L2 & PI2 & P2 & C2 & BO & K).
  rewrite CE. cbn [bind]. eexists (h ++ o), _, rest, _. split; [reflexivity|]. rewrite zlen_app. split; [lia|]. cbn [cm_codec]. split; [|split; [exact P2|]].
  - exists (O ++ o). cbn [cm_hdr cm_ws cm_codec]. split; [rewrite app_assoc, E1, <- app_assoc; reflexivity|]. split; [exact HB|]. split; [lia|]. split; [exact MH|]. split; [exact PI2|]. rewrite app_assoc. split; [exact C2|]. apply Forall_app; auto.
  - destruct K as [(-> & ->)|(-> & K1 & K2)]; [left; auto|right]. repeat split; [lia|exact K2].
Qed.
Lemma flush_spec fuel F s T room : sinv fuel [] s T -> ec_phase (cm_codec s) <> PDone -> (fuel <= F)%nat -> 0 <= room ->
  exists o s' r, flush dict wl D g F s room = Some (o, s', r) /\ zlen o <= room /\ sinv fuel [] s' (T ++ o) /\
    ((r = RSuccess /\ ec_phase (cm_codec s') = PDone) \/ (r = RNeedsMoreOutput /\ zlen o = room /\ ec_phase (cm_codec s') <> PDone)).
Proof.
  intros I P LE R. unfold flush. destruct (start_spec fuel [] s T room I R P) as (h & s1 & ok & E & L & I1 & T1 & F1 & P1). rewrite E.
  destruct ok; cbn [negb]; cycle 1. { exists h, s1, RNeedsMoreOutput. split; [reflexivity|]. split; [exact L|]. split; [exact I1|]. right. rewrite P1. auto. }
  specialize (T1 eq_refl). destruct I1 as (O & E1 & HB & HS & MH & PI & C & BT). rewrite T1, H16 in E1. rewrite E1 in C, BT.
  destruct (codec_flush_spec fuel F (cm_codec s1) (room - zlen h) O PI C (proj2 (proj1 (Forall_app _ _ _) BT)) LE ltac:(lia) ltac:(congruence)) as (o & c' & r & CE & L2 & PI2 & C2 & BO & K).
  rewrite CE. cbn [bind]. eexists (h ++ o), _, _. split; [reflexivity|]. rewrite zlen_app. split; [lia|]. cbn [cm_codec]. split.
  - exists (O ++ o). cbn [cm_hdr cm_ws cm_codec]. rewrite T1, H16. split; [rewrite app_assoc, E1, <- app_assoc; reflexivity|]. split; [lia|]. split; [lia|]. split; [exact MH|]. split; [exact PI2|].
    rewrite app_assoc, E1, <- app_assoc. split; [exact C2|]. apply Forall_app; auto.
  - destruct K as [(-> & K)|(-> & K1 & K2)]; [left; auto|right]. repeat split; [lia|exact K2].
Qed.
Lemma sinv_bounds fuel cmds s T : sinv fuel cmds s T -> zlen T <= bound + 16.
Proof. intros (O & -> & HB & _ & _ & PI & _). pose proof (phinv_bounds _ _ _ _ PI). rewrite zlen_app. pose proof (zlen_firstn_le (cm_hdr s) H). lia. Qed.

(** ** Sessions *)
Definition complete (T : list Z) : Prop := exists W, framed A B W /\ T = H ++ W ++ checksum_bytes (crc0 (H ++ W)).
Lemma session_spec F fuel : (fuel <= F)%nat -> forall rooms batches s T,
  sinv fuel (concat batches) s T -> Forall (fun b => b <> []) batches -> (batches <> [] -> ec_phase (cm_codec s) = PRun) -> ec_phase (cm_codec s) <> PDone -> Forall (fun r => 0 <= r) rooms ->
  exists o v, session dict wl D g F s batches rooms = Some (o, v) /\ v <> Broken /\ (v = Finished -> complete (T ++ o)) /\
    (Forall (fun r => 1 <= r) rooms -> bound + 16 - zlen T + Z.of_nat (length batches) < Z.of_nat (length rooms) -> v = Finished).
Proof.
  intros LE. induction rooms as [|room rooms IH]; intros batches s T I NB PB ND RR0.
  { exists [], Waiting. cbn [session]. split; [reflexivity|]. split; [discriminate|]. split; [discriminate|]. intros _ X. pose proof (sinv_bounds _ _ _ _ I). cbn [length] in X. lia. }
  inversion RR0 as [|? ? R1 R2]; subst. destruct batches as [|batch later]; cbn [session].
  - destruct (flush_spec fuel F s T room I ND LE R1) as (o & s' & r & E & L & I' & K). rewrite E. cbn [bind]. destruct (Z.ltb_spec room (zlen o)); [lia|].
    destruct K as [(-> & PD)|(-> & ZL & ND')].
    + exists o, Finished. split; [reflexivity|]. split; [discriminate|]. split; [|auto]. intros _. destruct I' as (O & E1 & HB & HS & _ & PI & _). unfold phinv in PI. rewrite PD in PI. destruct PI as (_ & W & FR & ->).
      exists W. split; [exact FR|]. rewrite E1. destruct (Nat.eq_dec (cm_hdr s') 16) as [X|X]; [rewrite X, H16; reflexivity|].
      destruct (HS ltac:(lia)) as (_ & X1). congruence.
    + destruct (IH [] s' (T ++ o) I' NB ltac:(contradiction) ND' R2) as (o2 & v & E2 & V1 & V2 & V3). rewrite E2. cbn [bind]. exists (o ++ o2), v. split; [reflexivity|]. split; [exact V1|].
      rewrite app_assoc. split; [exact V2|]. intros RO X. inversion RO as [|? ? RO1 RO2]; subst. apply V3; [exact RO2|]. rewrite zlen_app. cbn [length] in *. lia.
  - inversion NB as [|? ? NB1 NB2]; subst. cbn [concat] in I.
    destruct (encode_commands_spec fuel F batch (concat later) s T room I (PB ltac:(discriminate)) NB1 LE R1) as (o & s' & rest & r & E & L & I' & P' & K). rewrite E. cbn [bind]. destruct (Z.ltb_spec room (zlen o)); [lia|].
    destruct K as [(-> & ->)|(-> & ZL & NR)].
    + destruct (IH later s' (T ++ o) I' NB2 ltac:(auto) ltac:(congruence) R2) as (o2 & v & E2 & V1 & V2 & V3). rewrite E2. cbn [bind]. exists (o ++ o2), v. split; [reflexivity|]. split; [exact V1|].
      rewrite app_assoc. split; [exact V2|]. intros RO X. inversion RO as [|? ? RO1 RO2]; subst. apply V3; [exact RO2|]. rewrite zlen_app. pose proof (zlen_nonneg o). cbn [length] in *. lia.
    + destruct (IH (rest :: later) s' (T ++ o) I' ltac:(constructor; assumption) ltac:(auto) ltac:(congruence) R2) as (o2 & v & E2 & V1 & V2 & V3). rewrite E2. cbn [bind]. exists (o ++ o2), v. split; [destruct rest; [contradiction|reflexivity]|]. split; [exact V1|].
      rewrite app_assoc. split; [exact V2|]. intros RO X. inversion RO as [|? ? RO1 RO2]; subst. apply V3; [exact RO2|]. rewrite zlen_app. cbn [length] in *. lia.
Qed.
End Session.
