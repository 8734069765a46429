(** Proofs for C35-C37. *)
From Verif Require Import Prelude ProofList ModelMux ProofZlist ModelMem SpecMem.

(** ** growable buffer *)
Definition fresh_ok (fresh : Z -> list Z) : Prop := forall n, 0 <= n -> zlen (fresh n) = n.
Definition rb_ok (b : rbuf) : Prop := 0 <= rb_size b <= zlen (rb_mem b) /\ (rb_mem b = [] \/ 66000 <= zlen (rb_mem b)).
Lemma rb_append_ok fresh b m data : fresh_ok fresh -> rb_ok b -> 0 <= asked m <= 33000 ->
  exists room b', rb_append fresh b m data = Some (room, zfirst room data, b') /\ rb_ok b' /\
    asked m <= room /\ zfirst (rb_size b') (rb_mem b') = zfirst (rb_size b) (rb_mem b) ++ zfirst room data.
Proof.
  intros FR (SZ & CAP) M.
  assert (CO : exists b1, rb_checkout fresh b m = Some (zlen (rb_mem b1) - rb_size b1, b1) /\ rb_ok b1 /\ rb_size b1 = rb_size b /\
    asked m <= zlen (rb_mem b1) - rb_size b1 /\ zfirst (rb_size b1) (rb_mem b1) = zfirst (rb_size b) (rb_mem b)).
  { unfold rb_checkout. fold (asked m). unfold rb_ensure. destruct (Z.eqb_spec (zlen (rb_mem b)) 0) as [E|E].
    - assert (S0 : rb_size b = 0) by lia. cbn [bind rb_size rb_mem]. rewrite FR by lia. rewrite S0.
      change (0 <=? 66000) with true. cbn [assert]. exists (RB (fresh 66000) 0). split; [cbn [rb_mem rb_size]; now rewrite FR by lia|].
      cbn [rb_mem rb_size]. unfold rb_ok. cbn [rb_mem rb_size]. rewrite !FR by lia. split; [lia|]. split; [lia|]. split; [lia|]. now rewrite !zfirst_0.
    - destruct CAP as [CAP|CAP]; [rewrite CAP in E; exfalso; apply E; reflexivity|].
      destruct (Z.ltb_spec (zlen (rb_mem b)) (rb_size b + asked m)) as [L|L].
      + rewrite !FR by lia. replace (rb_size b <=? rb_size b * 2) with true by lia. replace (rb_size b <=? zlen (rb_mem b)) with true by lia.
        cbn [assert bind rb_size rb_mem].
        assert (ZL : zlen (zfirst (rb_size b) (rb_mem b)) = rb_size b) by (rewrite zlen_first by lia; lia).
        assert (ZP : zlen (put_at (fresh (rb_size b * 2)) 0 (zfirst (rb_size b) (rb_mem b))) = rb_size b * 2).
        { rewrite zlen_put; rewrite ?ZL, ?FR by lia; lia. }
        rewrite ZP. replace (rb_size b <=? rb_size b * 2) with true by lia. cbn [assert].
        exists (RB (put_at (fresh (rb_size b * 2)) 0 (zfirst (rb_size b) (rb_mem b))) (rb_size b)). split; [cbn [rb_mem rb_size]; now rewrite ZP|].
        cbn [rb_mem rb_size]. unfold rb_ok. cbn [rb_mem rb_size]. rewrite ZP. split; [lia|]. split; [reflexivity|]. split; [lia|].
        unfold put_at. rewrite zfirst_0. cbn [app]. apply zfirst_app_exact. exact ZL.
      + cbn [bind]. replace (rb_size b <=? zlen (rb_mem b)) with true by lia. cbn [assert]. eexists; split; [reflexivity|].
        unfold rb_ok. split; [split; [exact SZ|right; exact CAP]|]. split; [reflexivity|]. split; [lia|reflexivity]. }
  destruct CO as (b1 & E & (SZ1 & CAP1) & S1 & R & F).
  unfold rb_append. rewrite E. cbn [bind]. cbv zeta. set (room := zlen (rb_mem b1) - rb_size b1) in *.
  exists room, (rb_commit (rb_write b1 (zfirst room data)) (zlen (zfirst room data))). split; [reflexivity|].
  pose proof (zlen_nonneg data) as DN.
  assert (W : 0 <= zlen (zfirst room data) <= room) by (rewrite zlen_first by lia; lia).
  assert (ZP : zlen (put_at (rb_mem b1) (rb_size b1) (zfirst room data)) = zlen (rb_mem b1)) by (apply zlen_put; lia).
  unfold rb_ok, rb_commit, rb_write. cbn [rb_mem rb_size]. rewrite ZP.
  split. { split; [lia|]. destruct CAP1 as [C|C]; [left|right; exact C]. apply zlen_0_nil. rewrite ZP, C. reflexivity. }
  split; [lia|]. rewrite <- F. unfold put_at. rewrite app_assoc. apply zfirst_app_exact. rewrite zlen_app, zlen_first by lia. lia.
Qed.
Lemma rb_session_ok fresh l : fresh_ok fresh -> forall b, rb_ok b -> Forall (fun md => 0 <= asked (fst md) <= 33000) l ->
  exists rooms ws b', rb_session fresh b l = Some (rooms, ws, b') /\ rb_ok b' /\
    Forall2 (fun md room => asked (fst md) <= room) l rooms /\
    Forall2 (fun md rw => snd rw = zfirst (fst rw) (snd md)) l (combine rooms ws) /\
    zfirst (rb_size b') (rb_mem b') = zfirst (rb_size b) (rb_mem b) ++ concat ws.
Proof.
  intros FR. induction l as [|(m, data) l IH]; intros b B H.
  - exists [], [], b. split; [reflexivity|]. split; [exact B|]. split; [constructor|]. split; [constructor|]. cbn [concat]. now rewrite app_nil_r.
  - inversion H as [|? ? H1 H2]; subst. cbn [fst] in H1.
    destruct (rb_append_ok fresh b m data FR B H1) as (room & b1 & E & B1 & R & F).
    destruct (IH b1 B1 H2) as (rooms & ws & b2 & E2 & B2 & R2 & W2 & F2).
    exists (room :: rooms), (zfirst room data :: ws), b2. cbn [rb_session]. rewrite E. cbn [bind]. rewrite E2. cbn [bind].
    split; [reflexivity|]. split; [exact B2|]. split; [constructor; assumption|]. cbn [combine]. split; [constructor; [reflexivity|exact W2]|].
    cbn [concat]. rewrite F2, F. now rewrite app_assoc.
Qed.
Lemma growable fresh l : fresh_ok fresh -> Forall (fun md => 0 <= asked (fst md) <= 33000) l ->
  exists rooms ws b, rb_session fresh rb_new l = Some (rooms, ws, b) /\
    Forall2 (fun md room => asked (fst md) <= room) l rooms /\
    Forall2 (fun md rw => snd rw = zfirst (fst rw) (snd md)) l (combine rooms ws) /\
    rb_slice b = Some (concat ws).
Proof.
  intros FR H. destruct (rb_session_ok fresh l FR rb_new) as (rooms & ws & b & E & (B & _) & R & W & F).
  { unfold rb_ok, rb_new. cbn [rb_mem rb_size]. change (zlen (@nil Z)) with 0. split; [lia|left; reflexivity]. } { exact H. }
  exists rooms, ws, b. split; [exact E|]. split; [exact R|]. split; [exact W|].
  unfold rb_slice. replace (rb_size b <=? zlen (rb_mem b)) with true by lia. cbn [assert]. now rewrite F.
Qed.

(** ** frozen slices *)
Lemma freeze_thaw input start len r : sr_new input start len = Some r ->
  sr_thaw (sr_freeze_dry r) input = Some r /\ sr_thaw_br (sr_freeze_dry r) input = Some (IR (sr_data r) start).
Proof.
  unfold sr_new. destruct (sub_slice input start len) as [d|] eqn:E; [|discriminate]. cbn [bind]. intros [= <-].
  unfold sr_thaw, sr_thaw_br, sr_freeze_dry. cbn [sr_start sr_len sr_data]. now rewrite E.
Qed.
Lemma sub_slice_some l start len : 0 <= start -> 0 <= len -> start + len <= zlen l -> sub_slice l start len = Some (zfirst len (zskip start l)).
Proof. intros. unfold sub_slice. replace (start <=? zlen l) with true by lia. replace (len <=? zlen l - start) with true by lia. reflexivity. Qed.
Lemma thaw_pair_ok r p0 p1 : 0 <= sr_len r -> 0 <= ir_off p0 <= sr_start r ->
  ir_off p1 = ir_off p0 + zlen (ir_data p0) -> sr_start r + sr_len r <= ir_off p1 + zlen (ir_data p1) ->
  sr_thaw_pair r p0 p1 =
    Some (if (ir_off p1 <=? sr_start r) || (sr_start r + sr_len r <=? ir_off p1)
          then TOk (IR (zfirst (sr_len r) (zskip (sr_start r - ir_off p0) (ir_data p0 ++ ir_data p1))) (sr_start r))
          else TErr).
Proof.
  intros L O C N. unfold sr_thaw_pair. destruct (Z.leb_spec (ir_off p1) (sr_start r)) as [H|H]; cbn [orb].
  - rewrite sub_slice_some by lia. cbn [bind]. do 3 f_equal. rewrite zskip_app_more by lia. f_equal. f_equal. lia.
  - replace (ir_off p0 <=? sr_start r) with true by lia. cbn [assert].
    replace (sr_start r - ir_off p0 + sr_len r <=? zlen (ir_data p0)) with (sr_start r + sr_len r <=? ir_off p1) by lia.
    destruct (Z.leb_spec (sr_start r + sr_len r) (ir_off p1)) as [G|G]; [|reflexivity].
    rewrite sub_slice_some by lia. cbn [bind]. do 3 f_equal.
    rewrite zskip_app_less by lia. rewrite zfirst_app_less; [reflexivity|]. rewrite zlen_skip by lia. lia.
Qed.

(** ** caching allocator *)
Lemma alloc_serves clear r s : 0 <= s < 2 ^ 32 ->
  exists p r', ca_alloc clear r s = Some (p, r') /\
    exists l, px_slice p = Some l /\ zlen l = s /\ (clear = true -> l = repeat 0 (Z.to_nat s)).
Proof.
  intros S. unfold ca_alloc. destruct (Z.leb_spec s (zlen (bk_mem (ra_cached r)))) as [L|L].
  - cbv zeta. set (b := if clear then _ else _).
    assert (ZB : zlen (bk_mem b) = zlen (bk_mem (ra_cached r))) by (unfold b, zlen; destruct clear; cbn [bk_mem]; [now rewrite map_length|reflexivity]).
    unfold px_realloc. replace (s <=? zlen (bk_mem b)) with true by lia. cbn [assert bind].
    do 2 eexists. split; [reflexivity|]. unfold px_slice. cbn [px_len px_block]. rewrite Z.mod_small by lia.
    replace (s <=? zlen (bk_mem b)) with true by lia. cbn [assert]. eexists; split; [reflexivity|].
    split; [rewrite zlen_first by lia; lia|]. intros ->. unfold b. cbn [bk_mem].
    assert (MR : forall l : list Z, map (fun _ : Z => 0) l = repeat 0 (length l)) by (induction l as [|x l IH]; [reflexivity|cbn [map length repeat]; now rewrite IH]).
    rewrite MR. unfold zfirst. unfold zlen in L. replace (length (bk_mem (ra_cached r))) with (Z.to_nat s + (length (bk_mem (ra_cached r)) - Z.to_nat s))%nat by lia.
    rewrite repeat_app. rewrite firstn_app, repeat_length, Nat.sub_diag, firstn_O, app_nil_r. rewrite <- (repeat_length 0 (Z.to_nat s)) at 1. apply firstn_all.
  - unfold px_new, base_alloc. do 2 eexists. split; [reflexivity|]. unfold px_slice. cbn [px_len px_block bk_mem].
    assert (ZR : zlen (repeat 0 (Z.to_nat s)) = s) by (unfold zlen; rewrite repeat_length; lia).
    rewrite ZR. rewrite Z.mod_small by lia. replace (s <=? s) with true by lia. cbn [assert]. eexists; split; [reflexivity|].
    rewrite zfirst_all by lia. split; [exact ZR|reflexivity].
Qed.
Definition inv (st : repurp * list prefix) : Prop := 0 <= b_next (ra_base (fst st)) /\ Permutation (whereabouts st) (obtained st).
Lemma concat_ids_app l1 l2 : concat (map (fun p => ids (px_block p)) (l1 ++ l2)) = concat (map (fun p => ids (px_block p)) l1) ++ concat (map (fun p => ids (px_block p)) l2).
Proof. now rewrite map_app, concat_app. Qed.
Lemma base_free_next a b : b_next (base_free a b) = b_next a.
Proof. unfold base_free. now destruct (bk_id b). Qed.
Lemma base_free_freed a b : b_freed (base_free a b) = ids b ++ b_freed a.
Proof. unfold base_free, ids. now destruct (bk_id b). Qed.
Lemma nth_split_held {A} (l : list A) k p : nth_error l k = Some p -> l = firstn k l ++ p :: skipn (S k) l.
Proof.
  revert k; induction l as [|x l IH]; intros [|k] E; try discriminate.
  - injection E as ->. reflexivity.
  - cbn [firstn skipn app]. f_equal. apply IH, E.
Qed.
Lemma step_inv st o : inv st -> m_ok o -> exists st', m_step st o = Some st' /\ inv st'.
Proof.
  destruct st as (r, held). intros (N & P) O. cbn [fst] in N. destruct o as [clear s|k data|k|]; cbn [m_step].
  - cbn [m_ok] in O. unfold ca_alloc. destruct (Z.leb_spec s (zlen (bk_mem (ra_cached r)))) as [L|L].
    + cbv zeta. set (b := if clear then _ else _).
      assert (ZB : zlen (bk_mem b) = zlen (bk_mem (ra_cached r))) by (unfold b, zlen; destruct clear; cbn [bk_mem]; [now rewrite map_length|reflexivity]).
      assert (IB : ids b = ids (ra_cached r)) by (unfold b; destruct clear; reflexivity).
      unfold px_realloc. replace (s <=? zlen (bk_mem b)) with true by lia. cbn [assert bind].
      eexists; split; [reflexivity|]. split; [exact N|]. unfold whereabouts, obtained in *. cbn [fst snd ra_base ra_cached] in *.
      rewrite concat_ids_app. cbn [map concat px_block app]. rewrite IB, app_nil_r. cbn [ids bk_default bk_id app]. rewrite <- app_assoc. exact P.
    + unfold px_new, base_alloc. cbn [bind]. eexists; split; [reflexivity|]. split; [cbn [fst ra_base b_next]; lia|].
      unfold whereabouts, obtained in *. cbn [fst snd ra_base ra_cached b_next b_freed] in *.
      rewrite concat_ids_app. cbn [map concat px_block app ids bk_id].
      replace (Z.to_nat (b_next (ra_base r) + 1)) with (S (Z.to_nat (b_next (ra_base r)))) by lia.
      rewrite seq_S, map_app. cbn [map Nat.add]. rewrite Z2Nat.id by lia.
      rewrite <- P. rewrite <- app_assoc. cbn [app].
      etransitivity; [symmetry; apply Permutation_middle|]. apply Permutation_cons_append.
  - destruct (nth_error held k) as [p|] eqn:E; [|eexists; split; [reflexivity|split; assumption]].
    destruct (zlen data =? zlen (bk_mem (px_block p))); [|eexists; split; [reflexivity|split; assumption]].
    eexists; split; [reflexivity|]. split; [exact N|]. unfold whereabouts, obtained in *. cbn [fst snd] in *.
    rewrite (nth_split_held held k p E) in P. rewrite concat_ids_app in *. cbn [map concat px_block ids bk_id] in *. exact P.
  - destruct (nth_error held k) as [p|] eqn:E; [|eexists; split; [reflexivity|split; assumption]].
    eexists; split; [reflexivity|]. unfold remove_nth. unfold inv, whereabouts, obtained in *. cbn [fst snd] in *.
    rewrite (nth_split_held held k p E) in P at 1. rewrite concat_ids_app in *. cbn [map concat] in P.
    unfold ca_free. destruct (zlen (bk_mem (ra_cached r)) <? zlen (bk_mem (px_block p))); cbn [ra_base ra_cached];
      rewrite base_free_next, base_free_freed; (split; [exact N|]); rewrite <- P.
    + rewrite <- !app_assoc. apply Permutation_app_head. rewrite !app_assoc. apply Permutation_app_tail.
      apply Permutation_app_tail, Permutation_app_comm.
    + rewrite <- !app_assoc. apply Permutation_app_head. rewrite !app_assoc. apply Permutation_app_tail.
      rewrite Permutation_app_comm. now rewrite app_assoc.
  - eexists; split; [reflexivity|]. unfold inv, whereabouts, obtained in *. cbn [fst snd ra_free_ref ra_base ra_cached] in *.
    rewrite base_free_next, base_free_freed. cbn [ids bk_default bk_id app]. split; assumption.
Qed.
Lemma run_inv ops : forall st, inv st -> Forall m_ok ops -> exists st', m_run st ops = Some st' /\ inv st'.
Proof.
  induction ops as [|o ops IH]; intros st I O; [now exists st|].
  inversion O as [|? ? O1 O2]; subst. destruct (step_inv st o I O1) as (st1 & E & I1).
  cbn [m_run]. rewrite E. cbn [bind]. now apply IH.
Qed.
Lemma conserves ops : Forall m_ok ops ->
  exists st, m_run m_start ops = Some st /\ Permutation (whereabouts st) (obtained st) /\ NoDup (whereabouts st).
Proof.
  intros O. destruct (run_inv ops m_start) as (st & E & N & P); [split; [apply Z.le_refl|reflexivity]|exact O|].
  exists st. split; [exact E|]. split; [exact P|]. eapply Permutation_NoDup; [symmetry; exact P|].
  unfold obtained. apply FinFun.Injective_map_NoDup; [intros x y; lia|apply seq_NoDup].
Qed.
