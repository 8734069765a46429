(** The entropy coders draining into the multiplexer and the multiplexer into the
    caller's buffer: what has been coded, moved and output stays consistent. *)
From Verif Require Import Prelude ProofList ModelAns SpecAns ProofAns ProofAnsRt ModelCdf SpecCdf ProofCdf ThmCdf ModelMux SpecMux ProofZlist ProofMux ProofMuxW ModelCmd ModelRecode ModelPriors ModelCodec ModelLit ModelPm ModelTop SpecCodec ModelEnc.

Notation all_legal := (Forall (fun p : Z * Z => legal (fst p) (snd p))).
(** the intervals put on one stream *)
Definition sfs_of (st : stream) (es : list ev) : list (Z * Z) :=
  map (fun e => ref_interval (e_cdf e) (e_val e)) (filter (on st) es).
Lemma sfs_of_app st a b : sfs_of st (a ++ b) = sfs_of st a ++ sfs_of st b.
Proof. unfold sfs_of. rewrite filter_app, map_app. reflexivity. Qed.
Lemma interval_legal c v : codable c -> nibble v -> legal (fst (ref_interval c v)) (snd (ref_interval c v)).
Proof. intros C N. apply (C04_intervals_sound c v C N). Qed.
Lemma sfs_legal st es : writable es -> all_legal (sfs_of st es).
Proof.
  intros W. unfold sfs_of. apply Forall_map. apply Forall_forall. intros e E. apply filter_In in E. destruct E as (E & _).
  unfold writable in W. rewrite Forall_forall in W. destruct (W e E). apply interval_legal; assumption.
Qed.

(** ** One coder *)
Definition pend_q (pend : list (Z * Z)) : bstack := BS (sf_bytes (rev pend)) (MAX_BUFFER_SIZE - 4 * Z.of_nat (length pend)).
Definition full (c : list (Z * Z)) : Prop := length c = Z.to_nat 65536.
Definition wfq (s : bstack) : Prop := bs_len s = zlen (content s).
Lemma empty_wfq s : wfq s -> (bs_is_empty s = true <-> content s = []).
Proof.
  unfold wfq, bs_len, bs_is_empty. intros W. split; intros H.
  - apply Z.eqb_eq in H. apply zlen_0_nil. lia.
  - rewrite H, zlen_nil in W. apply Z.eqb_eq. lia.
Qed.
Lemma wfq_empty_eq s : wfq s -> content s = [] -> s = empty_q.
Proof. intros W E. destruct s as [l n]. cbn in *. subst l. unfold empty_q. f_equal. unfold wfq, bs_len in W. cbn in W. rewrite zlen_nil in W. lia. Qed.
(** [moved]: bytes that have left the coder; [sfs]: everything put so far *)
Record est (e : encoder) (moved : list Z) (sfs : list (Z * Z)) : Prop := EST {
  es_legal : all_legal sfs;
  es_wf : wfq (q e);
  es_chunks : exists chs pend, Forall full chs /\ sfs = concat chs ++ pend /\ (length pend < Z.to_nat 65536)%nat /\
     start_freq e = pend_q pend /\ (content (q e) <> [] -> pend = []) /\
     moved ++ content (q e) = concat (map chunk_bytes chs) }.
Record fin (e : encoder) (moved : list Z) (sfs : list (Z * Z)) : Prop := FIN {
  fi_legal : all_legal sfs;
  fi_wf : wfq (q e);
  fi_bytes : ans_encode sfs = Some (moved ++ content (q e)) }.

Lemma est_new : est enc_new [] [].
Proof.
  split; [constructor|reflexivity|]. exists [], []. split; [constructor|]. split; [reflexivity|]. split; [cbn [length]; lia|]. split; [reflexivity|]. split; reflexivity.
Qed.
Lemma chunks_full chs pend : Forall full chs -> (length pend < Z.to_nat 65536)%nat ->
  chunks_from [] (concat chs ++ pend) = chs ++ match pend with [] => [] | _ => [pend] end.
Proof.
  intros F L.
  assert (B : forall b a, (length a + length b < Z.to_nat 65536)%nat -> chunks_from a b = match a ++ b with [] => [] | _ => [a ++ b] end).
  { induction b as [|x b IH]; intros a H; cbn [chunks_from]; [rewrite app_nil_r; reflexivity|]. cbn [length] in H.
    destruct (Z.eqb_spec (Z.of_nat (length a)) 65535); [lia|]. rewrite IH by (rewrite app_length; cbn [length]; lia). rewrite <- app_assoc. reflexivity. }
  assert (C : forall b a r, (length a + length b = Z.to_nat 65536)%nat -> b <> [] -> chunks_from a (b ++ r) = (a ++ b) :: chunks_from [] r).
  { induction b as [|x b IH]; intros a r H N; [contradiction|]. cbn [chunks_from app length] in *.
    destruct (Z.eqb_spec (Z.of_nat (length a)) 65535).
    - assert (b = []) by (destruct b; [reflexivity|cbn [length] in H; lia]). subst b. reflexivity.
    - rewrite IH; [rewrite <- app_assoc; reflexivity|rewrite app_length; cbn [length]; lia|]. intros ->. cbn [length] in H. lia. }
  induction F as [|c chs F1 F2 IH]; cbn [concat app].
  - apply (B pend []). cbn [length]. lia.
  - rewrite <- app_assoc, C, IH; [reflexivity|unfold full in F1; cbn [length]; lia|]. intros ->. unfold full in F1. cbn [length] in F1. lia.
Qed.
Lemma est_put e moved sfs s f : est e moved sfs -> content (q e) = [] -> legal s f ->
  exists e', put_start_freq e s f = Some e' /\ est e' moved (sfs ++ [(s, f)]).
Proof.
  intros [L W (chs & pend & F & -> & Lp & SF & _ & B)] Q LG.
  assert (E : e = enc_with pend). { destruct e as [qq sf]. cbn in *. rewrite SF, (wfq_empty_eq _ W Q). reflexivity. }
  assert (LP : all_legal pend) by (apply Forall_app in L; apply L).
  rewrite E, put_start_freq_ok by (auto; lia).
  assert (L' : all_legal ((concat chs ++ pend) ++ [(s, f)])) by (apply Forall_app; split; [exact L|constructor; [exact LG|constructor]]).
  rewrite Q, app_nil_r in B.
  destruct (Z.eqb_spec (Z.of_nat (length pend)) 65535) as [EQ|NE]; (eexists; split; [reflexivity|]); split; try exact L'.
  - unfold wfq, bs_len, enc_flushed, zlen. cbn [q nbytes content]. lia.
  - exists (chs ++ [pend ++ [(s, f)]]), []. unfold enc_flushed. cbn [q content start_freq].
    split; [apply Forall_app; split; [exact F|constructor; [unfold full; rewrite app_length; cbn [length]; lia|constructor]]|].
    split; [rewrite concat_app; cbn [concat]; rewrite !app_nil_r, app_assoc; reflexivity|]. split; [cbn [length]; lia|]. split; [reflexivity|].
    split; [auto|]. rewrite map_app, concat_app. cbn [map concat]. rewrite app_nil_r, B. reflexivity.
  - reflexivity.
  - exists chs, (pend ++ [(s, f)]). split; [exact F|]. split; [rewrite app_assoc; reflexivity|]. split; [rewrite app_length; cbn [length]; lia|].
    split; [reflexivity|]. split; [cbn; congruence|]. cbn. rewrite app_nil_r. exact B.
Qed.
Lemma est_close e moved sfs : est e moved sfs -> content (q e) = [] ->
  exists e', enc_flush e = Some e' /\ fin e' moved sfs.
Proof.
  intros [L W (chs & pend & F & -> & Lp & SF & _ & B)] Q.
  assert (E : e = enc_with pend). { destruct e as [qq sf]. cbn in *. rewrite SF, (wfq_empty_eq _ W Q). reflexivity. }
  assert (LP : all_legal pend) by (apply Forall_app in L; apply L).
  rewrite Q, app_nil_r in B. pose proof (ans_encode_ok _ L) as A. rewrite (chunks_full _ _ F Lp) in A.
  rewrite E. destruct pend as [|x pend].
  - exists (enc_with []). split; [reflexivity|]. split; [exact L|reflexivity|]. rewrite A, app_nil_r, <- B. cbn. rewrite app_nil_r. reflexivity.
  - exists (enc_flushed (x :: pend)). split; [apply flush_chunk_ok; [discriminate|exact LP|lia]|]. split; [exact L| |].
    + unfold wfq, bs_len, enc_flushed, zlen. cbn [q nbytes content]. lia.
    + rewrite A, map_app, concat_app, <- B. cbn [map concat]. rewrite app_nil_r. reflexivity.
Qed.

(** ** A predicate on (coder, bytes moved) that popping preserves *)
Definition poppable (P : encoder -> list Z -> Prop) : Prop :=
  forall e mv n, P e mv -> 0 <= n -> wfq (q e) ->
    let '(b, q') := pop_data (q e) (Z.to_nat n) in P (Enc q' (start_freq e)) (mv ++ b).
Lemma pop_spec s n : wfq s -> 0 <= n -> let '(b, s') := pop_data s (Z.to_nat n) in
  wfq s' /\ content s = b ++ content s' /\ zlen b = Z.min n (bs_len s) /\ bs_len s' = bs_len s - zlen b.
Proof.
  unfold wfq. intros W N. unfold pop_data. set (k := Nat.min _ _). cbn [content]. assert (K : Z.of_nat k = Z.min n (bs_len s)) by (unfold k; pose proof (zlen_nonneg (content s)); lia).
  assert (LB : zlen (firstn k (content s)) = Z.of_nat k) by (unfold zlen in *; rewrite firstn_length; lia).
  split; [|split; [symmetry; apply firstn_skipn|split; [lia|]]]; unfold bs_len in *; cbn [nbytes]; [|lia].
  unfold zlen in *. rewrite skipn_length. lia.
Qed.
Lemma est_pop sfs : poppable (fun e mv => est e mv sfs).
Proof.
  intros e mv n [L W (chs & pend & F & E & Lp & SF & PE & B)] N _. pose proof (pop_spec (q e) n W N) as S.
  destruct (pop_data (q e) (Z.to_nat n)) as (b & q'). destruct S as (W' & C & _). split; [exact L|exact W'|]. exists chs, pend. cbn [q start_freq].
  split; [exact F|]. split; [exact E|]. split; [exact Lp|]. split; [exact SF|]. split.
  - intros X. apply PE. rewrite C. destruct b; [exact X|discriminate].
  - rewrite <- B, C, <- app_assoc. reflexivity.
Qed.
Lemma fin_pop sfs : poppable (fun e mv => fin e mv sfs).
Proof.
  intros e mv n [L W B] N _. pose proof (pop_spec (q e) n W N) as S.
  destruct (pop_data (q e) (Z.to_nat n)) as (b & q'). destruct S as (W' & C & _). split; [exact L|exact W'|]. cbn [q].
  rewrite B, C, <- app_assoc. reflexivity.
Qed.

(** ** The multiplexer: [mv s] has been handed over for stream [s], [out] has been output *)
Definition minv (m : mux) (out : list Z) (mv : Z -> list Z) : Prop :=
  exists qf pend fs, ProofMux.inv m qf pend /\ eof m = Running /\ Forall frame_good fs /\ out ++ pend = enc fs /\
    forall s, strm s -> mv s = payl s fs ++ qf s.
Lemma minv_new : minv mux_new [] (fun _ => []).
Proof. exists (fun _ => []), [], []. split; [apply inv_new|]. split; [reflexivity|]. split; [constructor|]. split; reflexivity. Qed.
Lemma minv_serialize m out mv cap : minv m out mv -> 0 <= cap ->
  exists o m', serialize m cap = Some (o, m') /\ minv m' (out ++ o) mv /\ zlen o <= cap.
Proof.
  intros (qf & pend & fs & I & EF & G & O & Q) C. destruct (serialize_spec m qf pend cap I C) as (o & m' & q' & p' & E & S).
  destruct S as (I' & (f2 & G2 & O2 & Q2) & L & _ & EF' & _). exists o, m'. split; [exact E|]. split; [|exact L].
  exists q', p', (fs ++ f2). split; [exact I'|]. split; [congruence|]. split; [apply Forall_app; auto|]. split.
  - rewrite <- app_assoc, O2, app_assoc, O, enc_app. reflexivity.
  - intros s S. rewrite payl_app, <- app_assoc, <- (Q2 s S). apply Q, S.
Qed.
Lemma prep_ok m qf pend s : ProofMux.inv m qf pend -> strm s ->
  exists b, prep_push (getb m s) 16 = Some b /\ ProofMux.inv (setb m s b) qf pend /\ wr b + 16 <= zlen (mem b).
Proof.
  intros (C1 & C2 & I) S. destruct (I s S) as (B & D & R).
  assert (E : rd (getb m s) = wr (getb m s) -> mem (getb m s) = [] \/ 3 <= rd (getb m s)).
  { intros E. destruct R as [R|[R|(R1 & R2 & R3)]]; auto. exfalso. apply R1.
    pose proof (mb_data_len _ B) as L. rewrite D, R2, Z.eqb_refl, zlen_app in L.
    pose proof (zlen_nonneg (qf s)). pose proof (zlen_nonneg pend). apply zlen_0_nil. lia. }
  destruct (prep_push_spec (getb m s) 16 B ltac:(lia)) as (b & P & B' & D' & R' & A & O). exists b. split; [exact P|]. split; [|exact R'].
  destruct (setb_cur m s b) as (X1 & X2). split; [rewrite X1; exact C1|]. split; [rewrite X2; exact C2|]. intros t T. rewrite (getb_setb m s t b S T), X1.
  destruct (strm_dec t s T S) as [->|(N & N1 & N2)]; [rewrite Z.eqb_refl|rewrite N1; apply I; exact T].
  split; [exact B'|]. split; [rewrite D'; exact D|]. destruct O as [->|O]; [exact R|right; left; lia].
Qed.
Lemma write_buffer_ok m qf pend : ProofMux.inv m qf pend ->
  exists m', write_buffer m = Some m' /\ ProofMux.inv m' qf pend /\ eof m' = eof m /\
    forall s, strm s -> wr (getb m' s) + 16 <= zlen (mem (getb m' s)).
Proof.
  intros I. unfold write_buffer.
  destruct (prep_ok m qf pend 0 I ltac:(left; reflexivity)) as (b0 & P0 & I0 & W0). change (buf0 m) with (getb m 0). rewrite P0. cbn [bind].
  destruct (prep_ok _ qf pend 1 I0 ltac:(right; reflexivity)) as (b1 & P1 & I1 & W1).
  change (getb (setb m 0 b0) 1) with (buf1 m) in P1. rewrite P1. cbn [bind]. eexists. split; [reflexivity|]. split; [exact I1|]. split; [reflexivity|].
  intros s [->| ->]; [exact W0|exact W1].
Qed.
Lemma append_inv m qf pend s data : ProofMux.inv m qf pend -> strm s -> wr (getb m s) + zlen data <= zlen (mem (getb m s)) -> wr (getb m s) + 16 <= zlen (mem (getb m s)) ->
  ProofMux.inv (setb m s (MB (put_at (mem (getb m s)) (wr (getb m s)) data) (rd (getb m s)) (wr (getb m s) + zlen data))) (ProofMux.upd qf s (qf s ++ data)) pend.
Proof.
  intros (C1 & C2 & I) S FIT SP. set (b' := MB _ _ _). destruct (I s S) as ((B1 & B2 & B3) & D & R).
  destruct (setb_cur m s b') as (X1 & X2). split; [rewrite X1; exact C1|]. split; [rewrite X2; exact C2|]. intros t T. rewrite (getb_setb m s t b' S T), X1. unfold ProofMux.upd.
  pose proof (zlen_nonneg data).
  destruct (strm_dec t s T S) as [->|(N & N1 & N2)]; [rewrite Z.eqb_refl|rewrite N1; apply I; exact T].
  assert (Lm : zlen (mem b') = zlen (mem (getb m s))) by (apply zlen_put; lia).
  split; [unfold bok; rewrite Lm; cbn [b' rd wr]; lia|]. split.
  - rewrite app_assoc, <- D. unfold mb_data at 1. cbn [b' rd wr mem]. rewrite zskip_put_before by lia.
    rewrite app_assoc. rewrite zfirst_app_exact; [reflexivity|]. rewrite zlen_app, zlen_first, zlen_skip by lia. lia.
  - cbn [b' rd]. destruct R as [R|R]; [exfalso; rewrite R, zlen_nil in SP, B3; lia|right; exact R].
Qed.
Lemma minv_pop m out mv s q0 : minv m out mv -> strm s -> wfq q0 ->
  exists m1, write_buffer m = Some m1 /\
  let '(m2, q') := pop_into m1 s q0 in exists n, 16 <= n /\ pop_data q0 (Z.to_nat n) = (fst (pop_data q0 (Z.to_nat n)), q') /\
    minv m2 out (ProofMux.upd mv s (mv s ++ fst (pop_data q0 (Z.to_nat n)))).
Proof.
  intros (qf & pend & fs & I & EF & G & O & Q) S W. destruct (write_buffer_ok m qf pend I) as (m1 & E & I1 & EF1 & SP). exists m1. split; [exact E|].
  unfold pop_into. set (n := zlen (mem (getb m1 s)) - wr (getb m1 s)). pose proof (SP s S) as SPs.
  pose proof (pop_spec q0 n W ltac:(lia)) as PS. destruct (pop_data q0 (Z.to_nat n)) as (b & q') eqn:PD. destruct PS as (_ & _ & Lb & _).
  exists n. split; [lia|]. rewrite PD. split; [reflexivity|]. cbn [fst]. exists (ProofMux.upd qf s (qf s ++ b)), pend, fs.
  split; [apply append_inv; [exact I1|exact S|lia|exact SPs]|]. destruct (setb_eof m1 s (MB (put_at (mem (getb m1 s)) (wr (getb m1 s)) b) (rd (getb m1 s)) (wr (getb m1 s) + zlen b))) as (Z1 & _).
  split; [rewrite Z1; congruence|]. split; [exact G|]. split; [exact O|].
  intros t T. unfold ProofMux.upd. destruct (strm_dec t s T S) as [->|(N & N1 & N2)]; [rewrite Z.eqb_refl, (Q s S), <- app_assoc; reflexivity|rewrite N1; apply Q; exact T].
Qed.

(** ** Draining *)
Lemma sidx_strm st : strm (sidx st).
Proof. destruct st; [left|right]; reflexivity. Qed.
Section Drain.
Context (P : stream -> encoder -> list Z -> Prop) (PP : forall st, poppable (P st)) (PW : forall st e mv, P st e mv -> wfq (q e)).
Definition pinv (p : eparts) (out : list Z) : Prop :=
  exists mv, minv (x_mux p) out mv /\ forall st, P st (coder p st) (mv (sidx st)).
Lemma coder_set p st e t : coder (set_coder p st e) t = match st, t with CMD, CMD | LIT, LIT => e | _, _ => coder p t end.
Proof. destruct st, t; reflexivity. Qed.
Lemma drain_static_spec st : forall fuel p out room, pinv p out -> 0 <= room -> bs_len (q (coder p st)) < Z.of_nat fuel ->
  exists o p' ok, drain_static fuel st p room = Some (o, p', ok) /\ pinv p' (out ++ o) /\ zlen o <= room /\
    (ok = true -> content (q (coder p' st)) = []) /\ (ok = false -> zlen o = room) /\
    (forall t, start_freq (coder p' t) = start_freq (coder p t)) /\
    (forall t, content (q (coder p t)) = [] -> content (q (coder p' t)) = []).
Proof.
  induction fuel as [|fuel IH]; intros p out room (mv & M & C) R F.
  { exfalso. pose proof (PW st _ _ (C st)) as W. unfold wfq in W. pose proof (zlen_nonneg (content (q (coder p st)))). lia. }
  cbn [drain_static]. pose proof (PW st _ _ (C st)) as W. destruct (bs_is_empty (q (coder p st))) eqn:EM.
  { exists [], p, true. split; [reflexivity|]. rewrite app_nil_r. split; [exists mv; auto|]. change (zlen (@nil Z)) with 0. split; [exact R|]. split; [intros _; apply empty_wfq; assumption|].
    split; [discriminate|]. split; auto. }
  destruct (minv_serialize _ _ _ room M R) as (o & m1 & E1 & M1 & L1). rewrite E1. cbn [bind].
  destruct (minv_pop m1 (out ++ o) mv (sidx st) (q (coder p st)) M1 (sidx_strm st) W) as (m2 & E2 & PI). rewrite E2. cbn [bind].
  destruct (pop_into m2 (sidx st) (q (coder p st))) as (m3 & q') eqn:EP. destruct PI as (n & N & PD & M3).
  pose proof (PP st _ _ n (C st) ltac:(lia) W) as CP. pose proof (pop_spec (q (coder p st)) n W ltac:(lia)) as PS.
  rewrite PD in CP, PS. set (b := fst (pop_data (q (coder p st)) (Z.to_nat n))) in *. destruct PS as (W' & CE & LB & LQ).
  set (p1 := set_mux (set_coder p st (Enc q' (start_freq (coder p st)))) m3).
  assert (PI1 : pinv p1 (out ++ o)).
  { exists (ProofMux.upd mv (sidx st) (mv (sidx st) ++ b)). split; [exact M3|]. intros t. unfold ProofMux.upd. destruct st, t; cbn [sidx]; zeqb; [exact CP|apply (C LIT)|apply (C CMD)|exact CP]. }
  assert (SF1 : forall t, start_freq (coder p1 t) = start_freq (coder p t)) by (intros t; unfold p1; destruct st, t; reflexivity).
  assert (QE1 : forall t, content (q (coder p t)) = [] -> content (q (coder p1 t)) = []).
  { intros t X. unfold p1. destruct st, t; try exact X; cbn [coder set_mux set_coder x_cmd x_lit q]; cbn [coder] in X, CE; rewrite X in CE; symmetry in CE; apply app_eq_nil in CE; apply CE. }
  assert (QC1 : coder p1 st = Enc q' (start_freq (coder p st))) by (unfold p1; destruct st; reflexivity).
  destruct (bs_is_empty q') eqn:EM'.
  { exists o, p1, true. split; [reflexivity|]. split; [exact PI1|]. split; [exact L1|]. rewrite QC1. split; [intros _; apply empty_wfq; assumption|]. split; [discriminate|]. split; [exact SF1|exact QE1]. }
  destruct (Z.eqb_spec (room - zlen o) 0) as [Z0|Z0].
  { exists o, p1, false. split; [reflexivity|]. split; [exact PI1|]. split; [exact L1|]. split; [discriminate|]. split; [lia|]. split; [exact SF1|exact QE1]. }
  assert (BL : 1 <= bs_len (q (coder p st))).
  { unfold wfq in W. pose proof (zlen_nonneg (content (q (coder p st)))). destruct (Z.eq_dec (bs_len (q (coder p st))) 0) as [X|]; [|lia].
    unfold bs_is_empty in EM. unfold bs_len in X. apply Z.eqb_neq in EM. lia. }
  destruct (IH p1 (out ++ o) (room - zlen o) PI1 ltac:(lia)) as (o2 & p2 & ok & E3 & PI2 & L2 & OK1 & OK2 & SF2 & QE2).
  { rewrite QC1. cbn [q]. lia. }
  rewrite E3. cbn [bind]. exists (o ++ o2), p2, ok. split; [reflexivity|]. rewrite app_assoc, zlen_app. split; [exact PI2|]. split; [lia|]. split; [exact OK1|].
  split; [intros X; specialize (OK2 X); lia|]. split; [intros t; rewrite SF2; apply SF1|auto].
Qed.
Lemma drain1_spec st p out room : pinv p out -> 0 <= room ->
  exists o p' ok, drain1 st p room = Some (o, p', ok) /\ pinv p' (out ++ o) /\ zlen o <= room /\
    (ok = true -> content (q (coder p' st)) = []) /\ (ok = false -> zlen o = room) /\
    (forall t, content (q (coder p t)) = [] -> content (q (coder p' t)) = []).
Proof.
  intros PI R. unfold drain1. pose proof PI as (mv & _ & C). pose proof (PW st _ _ (C st)) as W. unfold wfq in W. pose proof (zlen_nonneg (content (q (coder p st)))).
  destruct (drain_static_spec st (drain_fuel p st) p out room PI R ltac:(unfold drain_fuel; lia)) as (o & p' & ok & E & A1 & A2 & A3 & A4 & A5 & A6).
  exists o, p', ok. auto 10.
Qed.
Lemma drain_list_spec : forall l p out room, pinv p out -> 0 <= room ->
  exists o p' ok, drain_list l p room = Some (o, p', ok) /\ pinv p' (out ++ o) /\ zlen o <= room /\
    (ok = true -> forall st, In (st, true) l -> content (q (coder p' st)) = []) /\ (ok = false -> zlen o = room) /\
    (forall t, content (q (coder p t)) = [] -> content (q (coder p' t)) = []).
Proof.
  induction l as [|(st, strict) l IH]; intros p out room PI R; cbn [drain_list].
  { exists [], p, true. split; [reflexivity|]. rewrite app_nil_r. split; [exact PI|]. change (zlen (@nil Z)) with 0. split; [exact R|]. split; [contradiction|]. split; [discriminate|auto]. }
  destruct (drain1_spec st p out room PI R) as (o & p1 & ok & E & PI1 & L1 & OK1 & OK2 & Q1). rewrite E. cbn [bind].
  destruct (strict && negb ok) eqn:SO.
  { apply andb_prop in SO. destruct SO as (-> & SO). destruct ok; [discriminate|]. exists o, p1, false. split; [reflexivity|]. split; [exact PI1|]. split; [exact L1|]. split; [discriminate|]. split; auto. }
  destruct (IH p1 (out ++ o) (room - zlen o) PI1 ltac:(lia)) as (o2 & p2 & ok2 & E2 & PI2 & L2 & A1 & A2 & Q2). rewrite E2. cbn [bind].
  exists (o ++ o2), p2, ok2. split; [reflexivity|]. rewrite app_assoc, zlen_app. split; [exact PI2|]. split; [lia|]. split; [|split; [intros X; specialize (A2 X); lia|auto]].
  intros X t [T|T]; [|apply A1; assumption]. injection T as -> ->. cbn [andb] in SO. destruct ok; [|discriminate]. apply Q2, OK1. reflexivity.
Qed.
End Drain.
