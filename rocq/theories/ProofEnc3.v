(** The shutdown sequence, the checksum, the header, and whole sessions. *)
From Verif Require Import Prelude ProofList ModelAns SpecAns ProofAns ProofAnsRt ModelCdf SpecCdf ProofCdf ThmCdf ModelMux SpecMux ProofZlist ProofMux ProofMuxW ModelCmd ModelCrc ProofCrc ModelHeader ModelRecode ModelPriors ModelCodec ModelLit ModelPm ModelTop SpecCodec ModelEnc SpecEnc ProofCodecInv ProofCodecInv2 ProofRun ProofCopy ProofTop ProofEnc ProofEnc2.

(** ** Closing the multiplexer *)
Definition two (a b : list Z) (s : Z) : list Z := if s =? 0 then a else b.
Definition closing (a b : list Z) (m : mux) (O : list Z) : Prop :=
  exists qf pend fs, ProofMux.inv m qf pend /\ eofinv (eof m) qf pend /\ Forall frame_good fs /\
    O ++ pend ++ mk (eof m) = enc fs ++ EOF_MARKER /\ forall s, strm s -> two a b s = payl s fs ++ qf s.
Definition framed (a b O : list Z) : Prop :=
  exists fs, Forall frame_good fs /\ O = enc fs ++ EOF_MARKER /\ payl 0 fs = a /\ payl 1 fs = b.
Lemma closing_of_minv m O mv : minv m O mv -> closing (mv 0) (mv 1) m O.
Proof.
  intros (qf & pend & fs & I & EF & G & E & Q). exists qf, pend, fs. split; [exact I|]. split; [left; exact EF|]. split; [exact G|].
  split; [rewrite EF, app_assoc, E; reflexivity|]. intros s [->| ->]; [apply Q; left; reflexivity|apply Q; right; reflexivity].
Qed.
Lemma closing_step a b m O cap : closing a b m O -> 0 <= cap ->
  exists o m', serialize_close m cap = Some (o, m') /\ closing a b m' (O ++ o) /\ zlen o <= cap /\
    (is_eof m' = true -> framed a b (O ++ o)) /\ (is_eof m' = false -> zlen o = cap).
Proof.
  intros (qf & pend & fs & I & EI & G & E & Q) C.
  destruct (close_step m qf pend cap I EI C) as (o & m' & q' & p' & SC & I' & EI' & L & X & R & f2 & G2 & OE & QE).
  exists o, m'. split; [exact SC|].
  assert (GG : Forall frame_good (fs ++ f2)) by (apply Forall_app; auto).
  assert (QQ : forall s, strm s -> two a b s = payl s (fs ++ f2) ++ q' s).
  { intros s S. rewrite payl_app, <- app_assoc, <- (QE s S). apply Q, S. }
  assert (EE : (O ++ o) ++ p' ++ mk (eof m') = enc (fs ++ f2) ++ EOF_MARKER).
  { rewrite <- app_assoc, OE, enc_app. destruct EI as [EI|(Z0' & Z1' & ->)].
    - rewrite EI in *. change EOF_MARKER with (mk Running) in E. rewrite app_assoc in E. apply app_inv_tail in E. rewrite app_assoc, E. change EOF_MARKER with (mk Running). rewrite <- !app_assoc. reflexivity.
    - assert (f2 = []).
      { pose proof (QE 0 ltac:(left; reflexivity)) as A0. pose proof (QE 1 ltac:(right; reflexivity)) as A1.
        rewrite Z0' in A0. rewrite Z1' in A1. symmetry in A0, A1. apply app_eq_nil in A0, A1. apply no_frames; [exact G2|apply A0|apply A1]. }
      subst f2. cbn [enc app] in *. rewrite app_nil_r. exact E. }
  split; [exists q', p', (fs ++ f2); auto|]. split; [exact L|]. split.
  - intros D. apply (is_eof_inv m' q' p' I' EI') in D. rewrite D in *. destruct EI' as [EI'|(A & B & ->)]; [discriminate|].
    exists (fs ++ f2). split; [exact GG|]. cbn [mk app] in EE. rewrite app_nil_r in EE. split; [exact EE|].
    split; [pose proof (QQ 0 ltac:(left; reflexivity)) as Z|pose proof (QQ 1 ltac:(right; reflexivity)) as Z]; cbn [two] in Z; unfold two in Z; zeqb.
    + change (0 =? 0) with true in Z. cbv iota in Z. rewrite Z, A, app_nil_r. reflexivity.
    + change (1 =? 0) with false in Z. cbv iota in Z. rewrite Z, B, app_nil_r. reflexivity.
  - intros D. destruct X as [X|X]; [exact X|]. apply (is_eof_inv m' q' p' I' EI') in X. congruence.
Qed.
Lemma mux_drain_spec a b m O room : closing a b m O -> 0 <= room ->
  exists o m' ok, mux_drain (S (Z.to_nat room)) m room = Some (o, m', ok) /\ closing a b m' (O ++ o) /\ zlen o <= room /\
    (ok = true -> framed a b (O ++ o)) /\ (ok = false -> zlen o = room).
Proof.
  intros C R. cbn [mux_drain]. destruct (Z.eqb_spec room 0) as [->|N].
  { exists [], m, false. rewrite app_nil_r. split; [reflexivity|]. split; [exact C|]. split; [change (zlen (@nil Z)) with 0; lia|]. split; [discriminate|reflexivity]. }
  destruct (closing_step a b m O room C R) as (o & m' & E & C' & L & T & F). rewrite E. cbn [bind].
  destruct (is_eof m') eqn:EO. { exists o, m', true. split; [reflexivity|]. split; [exact C'|]. split; [exact L|]. split; [auto|discriminate]. }
  specialize (F eq_refl). replace (room - zlen o) with 0 by lia. destruct (Z.to_nat room) eqn:RN; [lia|]. cbn [mux_drain]. change (0 =? 0) with true. cbv iota. cbn [bind].
  exists o, m', false. rewrite app_nil_r. split; [reflexivity|]. split; [exact C'|]. split; [exact L|]. split; [discriminate|auto].
Qed.

(** ** Bytes and sizes *)
Lemma chunk_bytes_bytes sfs : all_legal sfs -> bytes (chunk_bytes sfs).
Proof.
  intros L. unfold chunk_bytes. pose proof (epure_range sfs L) as H. destruct (epure sfs) as ((a, b), qq). destruct H as (_ & _ & B).
  unfold bytes. rewrite !Forall_app. split; [apply le_bytes|]. split; [apply le_bytes|exact B].
Qed.
Lemma legal_app (a b : list (Z * Z)) : all_legal (a ++ b) <-> all_legal a /\ all_legal b.
Proof. apply Forall_app. Qed.
Lemma chunks_legal : forall sfs pend, all_legal pend -> all_legal sfs -> Forall (fun c => all_legal c) (chunks_from pend sfs).
Proof.
  induction sfs as [|x sfs IH]; intros pend P S; cbn [chunks_from].
  - destruct pend; constructor; [exact P|constructor].
  - inversion S as [|? ? S1 S2]; subst. assert (all_legal (pend ++ [x])) by (apply legal_app; split; [exact P|constructor; [exact S1|constructor]]).
    destruct (Z.of_nat (length pend) =? 65535); [constructor; [assumption|apply IH; [constructor|exact S2]]|apply IH; assumption].
Qed.
Lemma chunks_bytes_bytes cs : Forall (fun c => all_legal c) cs -> bytes (concat (map chunk_bytes cs)).
Proof. induction 1; cbn [map concat]; [constructor|]. apply Forall_app. split; [apply chunk_bytes_bytes; assumption|assumption]. Qed.
Lemma ans_encode_bytes sfs l : all_legal sfs -> ans_encode sfs = Some l -> bytes l.
Proof. intros L E. rewrite (ans_encode_ok _ L) in E. injection E as <-. apply chunks_bytes_bytes, chunks_legal; [constructor|exact L]. Qed.
Lemma chunks_full_app : forall chs r, Forall full chs -> chunks_from [] (concat chs ++ r) = chs ++ chunks_from [] r.
Proof.
  assert (C : forall b a r, (length a + length b = Z.to_nat 65536)%nat -> b <> [] -> chunks_from a (b ++ r) = (a ++ b) :: chunks_from [] r).
  { induction b as [|x b IH]; intros a r H N; [contradiction|]. cbn [chunks_from app length] in *.
    destruct (Z.eqb_spec (Z.of_nat (length a)) 65535).
    - assert (b = []) by (destruct b; [reflexivity|cbn [length] in H; lia]). subst b. reflexivity.
    - rewrite IH; [rewrite <- app_assoc; reflexivity|rewrite app_length; cbn [length]; lia|]. intros ->. cbn [length] in H. lia. }
  intros chs r F. induction F as [|c chs F1 F2 IH]; cbn [concat app]; [reflexivity|].
  rewrite <- app_assoc, C, IH; [reflexivity|unfold full in F1; cbn [length]; lia|]. intros ->. unfold full in F1. cbn [length] in F1. lia.
Qed.
(** what a coder has let go is a prefix of the final bytes of its stream *)
Definition prefix (a b : list Z) : Prop := exists c, b = a ++ c.
Lemma prefix_bytes a b : prefix a b -> bytes b -> bytes a.
Proof. intros (c & ->) B. apply Forall_app in B. apply B. Qed.
Lemma prefix_len a b : prefix a b -> zlen a <= zlen b.
Proof. intros (c & ->). rewrite zlen_app. pose proof (zlen_nonneg c). lia. Qed.
Lemma est_prefix e mv sfs more l : est e mv sfs -> all_legal (sfs ++ more) -> ans_encode (sfs ++ more) = Some l -> prefix mv l.
Proof.
  intros [_ _ (chs & pend & F & -> & _ & _ & _ & B)] L E. rewrite (ans_encode_ok _ L) in E. injection E as <-.
  rewrite <- app_assoc, chunks_full_app, map_app, concat_app, <- B by exact F. rewrite <- app_assoc. eexists. reflexivity.
Qed.
Lemma fin_prefix e mv sfs l : fin e mv sfs -> ans_encode sfs = Some l -> prefix mv l.
Proof. intros [_ _ B] E. rewrite B in E. injection E as <-. eexists. reflexivity. Qed.
Lemma frame_bytes f : frame_good f -> bytes (f_hdr f).
Proof.
  intros (S & [(lo & hi & L & H & E & _)|[(E & _)|[(E & _)|(E & _)]]]); rewrite E; destruct S as [-> | ->];
    repeat (apply Forall_cons; [first [assumption|unfold byte; lia]|]); apply Forall_nil.
Qed.
Lemma enc_bytes fs : Forall frame_good fs -> bytes (payl 0 fs) -> bytes (payl 1 fs) -> bytes (enc fs).
Proof.
  induction 1 as [|f fs G F IH]; cbn [payl enc]; intros B0 B1; [constructor|]. unfold bytes in *. rewrite Forall_app in B0, B1. destruct B0 as (X0 & Y0), B1 as (X1 & Y1).
  rewrite !Forall_app. split; [apply frame_bytes, G|]. split; [|apply IH; assumption]. destruct G as ([E|E] & _); rewrite E in *; [exact X0|exact X1].
Qed.
Lemma minv_bounds m O mv a b : minv m O mv -> prefix (mv 0) a -> prefix (mv 1) b -> bytes a -> bytes b ->
  bytes O /\ zlen O <= 4 * (zlen a + zlen b).
Proof.
  intros (qf & pend & fs & I & EF & G & E & Q) P0 P1 B0 B1.
  pose proof (Q 0 ltac:(left; reflexivity)) as Q0. pose proof (Q 1 ltac:(right; reflexivity)) as Q1.
  assert (X0 : prefix (payl 0 fs) a) by (destruct P0 as (c & ->); rewrite Q0, <- app_assoc; eexists; reflexivity).
  assert (X1 : prefix (payl 1 fs) b) by (destruct P1 as (c & ->); rewrite Q1, <- app_assoc; eexists; reflexivity).
  assert (PO : prefix O (enc fs)) by (exists pend; congruence). split.
  - apply (prefix_bytes _ _ PO), enc_bytes; [exact G|exact (prefix_bytes _ _ X0 B0)|exact (prefix_bytes _ _ X1 B1)].
  - pose proof (prefix_len _ _ PO). pose proof (prefix_len _ _ X0). pose proof (prefix_len _ _ X1). pose proof (enc_len fs G). lia.
Qed.
Lemma closing_bounds a b m O : closing a b m O -> bytes a -> bytes b -> bytes O /\ zlen O <= 4 * (zlen a + zlen b) + 3.
Proof.
  intros (qf & pend & fs & I & EF & G & E & Q) B0 B1.
  pose proof (Q 0 ltac:(left; reflexivity)) as Q0. pose proof (Q 1 ltac:(right; reflexivity)) as Q1. unfold two in *. zeqb.
  change (0 =? 0) with true in Q0. change (1 =? 0) with false in Q1. cbv iota in Q0, Q1.
  assert (X0 : prefix (payl 0 fs) a) by (rewrite Q0; eexists; reflexivity).
  assert (X1 : prefix (payl 1 fs) b) by (rewrite Q1; eexists; reflexivity).
  assert (PO : prefix O (enc fs ++ EOF_MARKER)) by (rewrite <- E; eexists; reflexivity). split.
  - apply (prefix_bytes _ _ PO). apply Forall_app. split; [apply enc_bytes; [exact G|exact (prefix_bytes _ _ X0 B0)|exact (prefix_bytes _ _ X1 B1)]|].
    repeat (apply Forall_cons; [unfold byte; lia|]). apply Forall_nil.
  - pose proof (prefix_len _ _ PO) as PL. rewrite zlen_app in PL. change (zlen EOF_MARKER) with 3 in PL. pose proof (prefix_len _ _ X0). pose proof (prefix_len _ _ X1). pose proof (enc_len fs G). lia.
Qed.
