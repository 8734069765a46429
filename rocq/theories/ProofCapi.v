(** The C program's sessions are those of the compressor and the decompressor. *)
From Verif Require Import Prelude ModelFfi SpecFfi ProofFfi ModelMux ProofZlist ModelCmd ModelRecode ModelPriors ModelCodec ModelPm ModelTop SpecCodec ModelEnc ModelDec ModelRaw ModelRawEnc ModelHybrid ModelToolThread ModelCapi SpecEnc SpecDec SpecRawEnc SpecHybrid SpecCapi.
From Verif Require ModelIo.

Lemma same_refl a : same a a = true.
Proof. unfold same. destruct (list_eq_dec Z.eq_dec a a); congruence. Qed.
Lemma put_at_facts buf off o : 0 <= off -> off + zlen o <= zlen buf ->
  untouched buf (put_at buf off o) off (off + zlen o) = true /\ between (put_at buf off o) off (off + zlen o) = o /\
  zlen (put_at buf off o) = zlen buf.
Proof.
  intros H0 H1. pose proof (zlen_nonneg o) as Ho. unfold put_at.
  assert (F : zlen (zfirst off buf) = off) by (rewrite zlen_first by lia; lia).
  assert (L : zlen (zfirst off buf ++ o ++ zskip (off + zlen o) buf) = zlen buf).
  { rewrite !zlen_app, F, zlen_skip by lia. lia. }
  assert (A : forall m, zfirst off (zfirst off buf ++ m) = zfirst off buf).
  { intros m. unfold zfirst, zlen in *. rewrite firstn_app, firstn_firstn, Nat.min_id.
    replace (Z.to_nat off - length (firstn (Z.to_nat off) buf))%nat with 0%nat by lia. cbn [firstn]. apply app_nil_r. }
  assert (B : forall m, zskip off (zfirst off buf ++ m) = m).
  { intros m. unfold zfirst, zskip, zlen in *. rewrite skipn_app, skipn_all2 by lia.
    replace (Z.to_nat off - length (firstn (Z.to_nat off) buf))%nat with 0%nat by lia. reflexivity. }
  assert (C : forall m, zskip (zlen o) (o ++ m) = m).
  { intros m. unfold zskip, zlen. rewrite Nat2Z.id, skipn_app, skipn_all, Nat.sub_diag. reflexivity. }
  assert (E : zskip (off + zlen o) (zfirst off buf ++ o ++ zskip (off + zlen o) buf) = zskip (off + zlen o) buf).
  { rewrite <- (zskip_zskip (zlen o) off (_ ++ _)) by lia. rewrite B, C. reflexivity. }
  split; [|split; [|exact L]].
  - unfold untouched. rewrite L, A, E, !same_refl. rewrite Z.eqb_refl.
    destruct (Z.leb_spec off (off + zlen o)); [|lia]. destruct (Z.leb_spec (off + zlen o) (zlen buf)); [|lia]. reflexivity.
  - unfold between. rewrite B. replace (off + zlen o - off) with (zlen o) by lia.
    unfold zfirst, zlen. rewrite Nat2Z.id, firstn_app, Nat.sub_diag, firstn_all. cbn [firstn]. apply app_nil_r.
Qed.
Lemma skip_front (f l : list Z) : zskip (zlen f) (f ++ l) = l.
Proof. unfold zskip, zlen. rewrite Nat2Z.id, skipn_app, skipn_all, Nat.sub_diag. reflexivity. Qed.
Lemma skip_front_plus (f l : list Z) n : 0 <= n -> zskip (zlen f + n) (f ++ l) = zskip n l.
Proof. intros H. pose proof (zlen_nonneg f). rewrite <- (zskip_zskip n (zlen f)) by lia. now rewrite skip_front. Qed.

Section P.
Context (dict : dict_fn) (wl : word_len_fn) (D : dims).
Context {B : Type} (fe : frontend B) (create : opts -> B) (optimize : opts -> metablock -> option metablock).

Lemma cfinish_eq g fuel : forall calls s x o v, Forall sensible calls -> c_started D create s = Some (Internal g x) ->
  rfinish dict wl D g fuel x (map c_room calls) = Some (o, v) -> v <> Broken ->
  cfinish dict wl D fe create optimize fuel s calls = Some (o, v).
Proof.
  induction calls as [|c calls IH]; intros s x o v SE ST R NB; cbn [map rfinish cfinish] in *; [exact R|].
  inversion SE as [|? ? S1 S2]; subst. unfold c_flush. rewrite ST. cbn [bind]. change (c_room c) with (zlen (c_buf c) - c_at c) in R. unfold sensible in S1.
  destruct (flush_raw dict wl D g fuel x (zlen (c_buf c) - c_at c)) as [[[o1 x1] r]|] eqn:E; [|discriminate R]. cbn [bind] in R |- *.
  unfold assert. destruct (Z.leb_spec 0 (c_at c)); [|lia]. destruct (Z.leb_spec (c_at c) (zlen (c_buf c))); [|lia]. cbn [andb].
  revert R; destruct (Z.ltb_spec (zlen (c_buf c) - c_at c) (zlen o1)) as [Q|Q]; intros R; [congruence|].
  destruct (Z.leb_spec (c_at c + zlen o1) (zlen (c_buf c))); [|lia].
  destruct (put_at_facts (c_buf c) (c_at c) o1 ltac:(lia) ltac:(lia)) as (U & BW & L). cbn [bind]. rewrite U, BW, L. cbn [negb].
  destruct r; cbn [cres_code ModelFfi.code]; try congruence.
  - change (DIVANS_SUCCESS =? 0) with true. cbv iota. exact R.
  - change (DIVANS_NEEDS_MORE_OUTPUT =? 0) with false. change (DIVANS_NEEDS_MORE_OUTPUT =? 2) with true. cbn [andb].
    revert R; destruct (Z.ltb_spec (zlen o1) (zlen (c_buf c) - c_at c)) as [W|W]; intros R; [congruence|].
    destruct (Z.eqb_spec (c_at c + zlen o1) (zlen (c_buf c))); [|lia].
    destruct (rfinish dict wl D g fuel x1 (map c_room calls)) as [[o2 v2]|] eqn:E2; [|discriminate R]. cbn [bind] in R |- *.
    assert (o = o1 ++ o2 /\ v = v2) as [-> ->] by (split; congruence).
    rewrite (IH (Started (Some (Internal g x1))) x1 o2 v2 S2 eq_refl E2 NB). reflexivity.
Qed.
Lemma csession_eq g fuel flushes : Forall sensible flushes -> forall calls s x rest o v, Forall sensible calls -> c_started D create s = Some (Internal g x) ->
  rsession dict wl D g fuel x rest (map (fun c => (c_piece c, c_room c)) calls) (map c_room flushes) = Some (o, v) -> v <> Broken ->
  csession dict wl D fe create optimize fuel s rest calls flushes = Some (o, v).
Proof.
  intros SF. induction calls as [|c calls IH]; intros s x rest o v SE ST R NB; cbn [map rsession csession] in *.
  { destruct rest; [|exact R]. eapply cfinish_eq; eassumption. }
  inversion SE as [|? ? S1 S2]; subst. unfold c_encode. rewrite ST. cbn [bind]. rewrite skip_front. change (c_room c) with (zlen (c_buf c) - c_at c) in R. unfold sensible in S1.
  set (input := rest ++ c_piece c) in *.
  destruct (encode_raw dict wl D g fuel x input (zlen (c_buf c) - c_at c)) as [[[[n o1] x1] r]|] eqn:E; [|discriminate R]. cbn [bind] in R |- *.
  pose proof (zlen_nonneg (c_front c)) as FN. pose proof (zlen_nonneg input) as IN.
  unfold assert. rewrite zlen_app. destruct (Z.leb_spec 0 (zlen (c_front c))); [|lia].
  destruct (Z.leb_spec (zlen (c_front c)) (zlen (c_front c) + zlen input)); [|lia].
  destruct (Z.leb_spec 0 (c_at c)); [|lia]. destruct (Z.leb_spec (c_at c) (zlen (c_buf c))); [|lia]. cbn [andb].
  revert R; destruct (Z.ltb_spec (zlen (c_buf c) - c_at c) (zlen o1)) as [Q|Q]; intros R; cbn [orb] in R; [congruence|].
  revert R; destruct (Z.ltb_spec n 0) as [Q1|Q1]; intros R; cbn [orb] in R; [congruence|].
  revert R; destruct (Z.ltb_spec (zlen input) n) as [Q2|Q2]; intros R; [congruence|].
  destruct (Z.leb_spec (c_at c + zlen o1) (zlen (c_buf c))); [|lia].
  destruct (put_at_facts (c_buf c) (c_at c) o1 ltac:(lia) ltac:(lia)) as (U & BW & L). cbn [bind]. rewrite U, BW, L.
  destruct (Z.leb_spec (zlen (c_front c)) (zlen (c_front c) + n)); [|lia].
  destruct (Z.leb_spec (zlen (c_front c) + n) (zlen (c_front c) + zlen input)); [|lia]. cbn [andb negb].
  rewrite skip_front_plus by lia.
  destruct r; cbn [cres_code ModelFfi.code]; try congruence.
  - change (DIVANS_NEEDS_MORE_INPUT =? 1) with true. cbn [andb].
    revert R; destruct (Z.ltb_spec n (zlen input)) as [W|W]; intros R; [congruence|].
    destruct (Z.eqb_spec (zlen (c_front c) + n) (zlen (c_front c) + zlen input)); [|lia]. cbn [orb].
    destruct (rsession dict wl D g fuel x1 (zskip n input) (map (fun c => (c_piece c, c_room c)) calls) (map c_room flushes)) as [[o2 v2]|] eqn:E2; [|discriminate R]. cbn [bind] in R |- *.
    assert (o = o1 ++ o2 /\ v = v2) as [-> ->] by (split; congruence).
    rewrite (IH (Started (Some (Internal g x1))) x1 _ o2 v2 S2 eq_refl E2 NB). reflexivity.
  - change (DIVANS_NEEDS_MORE_OUTPUT =? 1) with false. change (DIVANS_NEEDS_MORE_OUTPUT =? 2) with true. cbn [andb orb].
    revert R; destruct (Z.ltb_spec (zlen o1) (zlen (c_buf c) - c_at c)) as [W|W]; intros R; [congruence|].
    destruct (Z.eqb_spec (c_at c + zlen o1) (zlen (c_buf c))); [|lia].
    destruct (rsession dict wl D g fuel x1 (zskip n input) (map (fun c => (c_piece c, c_room c)) calls) (map c_room flushes)) as [[o2 v2]|] eqn:E2; [|discriminate R]. cbn [bind] in R |- *.
    assert (o = o1 ++ o2 /\ v = v2) as [-> ->] by (split; congruence).
    rewrite (IH (Started (Some (Internal g x1))) x1 _ o2 v2 S2 eq_refl E2 NB). reflexivity.
Qed.
Lemma offered_map calls : offered (map (fun c => (c_piece c, c_room c)) calls) = c_offered calls.
Proof. unfold offered, c_offered. rewrite map_map. reflexivity. Qed.
Lemma cdsession_eq skip fuel : forall calls d rest o left v, Forall sensible calls ->
  dsession dict wl D skip fuel d rest (map (fun c => (c_piece c, c_room c)) calls) = Some (o, left, v) -> v <> Broken ->
  cdsession dict wl D skip fuel d rest calls = Some (o, left, v).
Proof.
  induction calls as [|c calls IH]; intros d rest o left v SE R NB; cbn [map dsession cdsession] in *; [exact R|].
  inversion SE as [|? ? S1 S2]; subst. unfold c_decode. rewrite skip_front. change (c_room c) with (zlen (c_buf c) - c_at c) in R. unfold sensible in S1.
  set (input := rest ++ c_piece c) in *.
  destruct (decode dict wl D skip fuel d input (zlen (c_buf c) - c_at c)) as [[[[n o1] d1] r]|] eqn:E; [|discriminate R]. cbn [bind] in R |- *.
  pose proof (zlen_nonneg (c_front c)) as FN. pose proof (zlen_nonneg input) as IN.
  unfold assert. rewrite zlen_app. destruct (Z.leb_spec 0 (zlen (c_front c))); [|lia].
  destruct (Z.leb_spec (zlen (c_front c)) (zlen (c_front c) + zlen input)); [|lia].
  destruct (Z.leb_spec 0 (c_at c)); [|lia]. destruct (Z.leb_spec (c_at c) (zlen (c_buf c))); [|lia]. cbn [andb].
  revert R; destruct (Z.ltb_spec (zlen (c_buf c) - c_at c) (zlen o1)) as [Q|Q]; intros R; cbn [orb] in R; [congruence|].
  revert R; destruct (Z.ltb_spec n 0) as [Q1|Q1]; intros R; cbn [orb] in R; [congruence|].
  revert R; destruct (Z.ltb_spec (zlen input) n) as [Q2|Q2]; intros R; [congruence|].
  destruct (Z.leb_spec (c_at c + zlen o1) (zlen (c_buf c))); [|lia].
  destruct (put_at_facts (c_buf c) (c_at c) o1 ltac:(lia) ltac:(lia)) as (U & BW & L). cbn [bind]. rewrite U, BW, L.
  destruct (Z.leb_spec (zlen (c_front c)) (zlen (c_front c) + n)); [|lia].
  destruct (Z.leb_spec (zlen (c_front c) + n) (zlen (c_front c) + zlen input)); [|lia]. cbn [andb negb].
  rewrite skip_front_plus by lia. rewrite offered_map in R.
  destruct r; cbn [dres_code ModelFfi.code]; try congruence.
  - change (DIVANS_SUCCESS =? 0) with true. cbv iota. exact R.
  - change (DIVANS_NEEDS_MORE_INPUT =? 0) with false. change (DIVANS_NEEDS_MORE_INPUT =? 1) with true. cbn [andb].
    revert R; destruct (Z.ltb_spec n (zlen input)) as [W|W]; intros R; [congruence|].
    destruct (Z.eqb_spec (zlen (c_front c) + n) (zlen (c_front c) + zlen input)); [|lia]. cbn [orb].
    destruct (dsession dict wl D skip fuel d1 (zskip n input) (map (fun c => (c_piece c, c_room c)) calls)) as [[[o2 l2] v2]|] eqn:E2; [|discriminate R]. cbn [bind] in R |- *.
    assert (o = o1 ++ o2 /\ left = l2 /\ v = v2) as (-> & -> & ->) by (repeat split; congruence).
    rewrite (IH d1 _ o2 l2 v2 S2 E2 NB). reflexivity.
  - change (DIVANS_NEEDS_MORE_OUTPUT =? 0) with false. change (DIVANS_NEEDS_MORE_OUTPUT =? 1) with false. change (DIVANS_NEEDS_MORE_OUTPUT =? 2) with true. cbn [andb orb].
    revert R; destruct (Z.ltb_spec (zlen o1) (zlen (c_buf c) - c_at c)) as [W|W]; intros R; [congruence|].
    destruct (Z.eqb_spec (c_at c + zlen o1) (zlen (c_buf c))); [|lia].
    destruct (dsession dict wl D skip fuel d1 (zskip n input) (map (fun c => (c_piece c, c_room c)) calls)) as [[[o2 l2] v2]|] eqn:E2; [|discriminate R]. cbn [bind] in R |- *.
    assert (o = o1 ++ o2 /\ left = l2 /\ v = v2) as (-> & -> & ->) by (repeat split; congruence).
    rewrite (IH d1 _ o2 l2 v2 S2 E2 NB). reflexivity.
Qed.
(** ** The default compressor *)
Lemma clfinish_eq o0 fuel : forall calls s x o v, Forall sensible calls -> c_started D create s = Some (Brotli o0 x) ->
  hfinish (hybrid_processor dict wl D (cfg_of o0) fe (optimize o0) fuel fuel) x (map c_room calls) = Some (o, v) -> v <> HBroken ->
  clfinish dict wl D fe create optimize fuel s calls = Some (o, v).
Proof.
  induction calls as [|c calls IH]; intros s x o v SE ST R NB; cbn [map hfinish clfinish] in *; [exact R|].
  inversion SE as [|? ? S1 S2]; subst. unfold c_flush. rewrite ST. cbn [bind]. change (c_room c) with (zlen (c_buf c) - c_at c) in R. unfold sensible in S1. cbn [ModelIo.close hybrid_processor] in R.
  destruct (hybrid_flush dict wl D (cfg_of o0) fe (optimize o0) fuel fuel x (zlen (c_buf c) - c_at c)) as [[[o1 x1] r]|] eqn:E; [|discriminate R]. cbn [bind] in R |- *.
  unfold assert. destruct (Z.leb_spec 0 (c_at c)); [|lia]. destruct (Z.leb_spec (c_at c) (zlen (c_buf c))); [|lia]. cbn [andb].
  revert R; destruct (Z.ltb_spec (zlen (c_buf c) - c_at c) (zlen o1)) as [Q|Q]; intros R; [congruence|].
  destruct (Z.leb_spec (c_at c + zlen o1) (zlen (c_buf c))); [|lia].
  destruct (put_at_facts (c_buf c) (c_at c) o1 ltac:(lia) ltac:(lia)) as (U & BW & L). cbn [bind]. rewrite U, BW, L. cbn [negb].
  destruct r; cbn [pres_code ModelFfi.code]; try congruence.
  - change (DIVANS_SUCCESS =? 0) with true. cbv iota. exact R.
  - change (DIVANS_NEEDS_MORE_OUTPUT =? 0) with false. change (DIVANS_NEEDS_MORE_OUTPUT =? 2) with true. cbn [andb].
    revert R; destruct (Z.ltb_spec (zlen o1) (zlen (c_buf c) - c_at c)) as [W|W]; intros R; [congruence|].
    destruct (Z.eqb_spec (c_at c + zlen o1) (zlen (c_buf c))); [|lia].
    destruct (hfinish (hybrid_processor dict wl D (cfg_of o0) fe (optimize o0) fuel fuel) x1 (map c_room calls)) as [[o2 v2]|] eqn:E2; [|discriminate R]. cbn [bind] in R |- *.
    assert (o = o1 ++ o2 /\ v = v2) as [-> ->] by (split; congruence).
    rewrite (IH (Started (Some (Brotli o0 x1))) x1 o2 v2 S2 eq_refl E2 NB). reflexivity.
Qed.
Lemma untouched_same buf at_ : 0 <= at_ <= zlen buf -> untouched buf buf at_ at_ = true /\ between buf at_ at_ = [].
Proof. intros H. unfold untouched, between. rewrite !same_refl, Z.eqb_refl, Z.leb_refl, Z.sub_diag. destruct (Z.leb_spec at_ (zlen buf)); [|lia]. split; reflexivity. Qed.
Lemma clsession_eq o0 fuel flushes : Forall sensible flushes -> forall calls s x rest o v, Forall sensible calls -> c_started D create s = Some (Brotli o0 x) ->
  hsession (hybrid_processor dict wl D (cfg_of o0) fe (optimize o0) fuel fuel) x rest (map (fun c => (c_piece c, c_room c)) calls) (map c_room flushes) = Some (o, v) -> v <> HBroken ->
  clsession dict wl D fe create optimize fuel s rest calls flushes = Some (o, v).
Proof.
  intros SF. induction calls as [|c calls IH]; intros s x rest o v SE ST R NB; cbn [map hsession clsession] in *.
  { destruct rest; [|exact R]. eapply clfinish_eq; eassumption. }
  inversion SE as [|? ? S1 S2]; subst. unfold c_encode. rewrite ST. cbn [bind]. rewrite skip_front. change (c_room c) with (zlen (c_buf c) - c_at c) in R. unfold sensible in S1.
  set (input := rest ++ c_piece c) in *. cbn [ModelIo.process hybrid_processor] in R.
  assert (ON : forall n o1 x1 r, hybrid_encode dict wl D (cfg_of o0) fe (optimize o0) fuel fuel x input (zlen (c_buf c) - c_at c) = Some (n, o1, x1, r) -> o1 = [] /\ r <> ModelIo.PNeedOut /\ r <> ModelIo.PSuccess).
  { intros n o1 x1 r. unfold hybrid_encode. destruct (internal_encode_stream dict wl D (cfg_of o0) fe (optimize o0) fuel fuel false input x) as [((k & s1) & r1)|]; cbn [bind]; [|discriminate]. intros Q. split; [congruence|]. destruct r1; split; congruence. }
  destruct (hybrid_encode dict wl D (cfg_of o0) fe (optimize o0) fuel fuel x input (zlen (c_buf c) - c_at c)) as [[[[n o1] x1] r]|] eqn:E; [|discriminate R]. destruct (ON n o1 x1 r eq_refl) as (-> & NR & NS). cbn [bind] in R |- *.
  pose proof (zlen_nonneg (c_front c)) as FN. pose proof (zlen_nonneg input) as IN.
  unfold assert. rewrite zlen_app. destruct (Z.leb_spec 0 (zlen (c_front c))); [|lia].
  destruct (Z.leb_spec (zlen (c_front c)) (zlen (c_front c) + zlen input)); [|lia]. cbn [andb].
  revert R; destruct (Z.ltb_spec (zlen (c_buf c) - c_at c) (zlen (@nil Z))) as [Q|Q]; intros R; cbn [orb] in R; [congruence|].
  revert R; destruct (Z.ltb_spec n 0) as [Q1|Q1]; intros R; cbn [orb] in R; [congruence|].
  revert R; destruct (Z.ltb_spec (zlen input) n) as [Q2|Q2]; intros R; [congruence|].
  destruct (untouched_same (c_buf c) (c_at c) S1) as (U & BW). cbn [bind]. rewrite U, BW.
  destruct (Z.leb_spec (zlen (c_front c)) (zlen (c_front c) + n)); [|lia].
  destruct (Z.leb_spec (zlen (c_front c) + n) (zlen (c_front c) + zlen input)); [|lia]. cbn [andb negb].
  rewrite skip_front_plus by lia.
  destruct r; cbn [pres_code ModelFfi.code]; try congruence.
  change (DIVANS_NEEDS_MORE_INPUT =? 1) with true. cbn [andb orb].
  destruct (hsession (hybrid_processor dict wl D (cfg_of o0) fe (optimize o0) fuel fuel) x1 (zskip n input) (map (fun c => (c_piece c, c_room c)) calls) (map c_room flushes)) as [[o2 v2]|] eqn:E2; [|discriminate R]. cbn [bind app] in R |- *.
  assert (o = o2 /\ v = v2) as [-> ->] by (split; congruence).
  rewrite (IH (Started (Some (Brotli o0 x1))) x1 _ o2 v2 S2 eq_refl E2 NB). reflexivity.
Qed.
End P.

(** ** Options *)
Definition sane_opts (o : opts) : Prop :=
  (match o_literal_adaptation o with Some a => Forall sane_speed a /\ zlen a = 4 | None => True end) /\
  0 <= stride_code (o_stride o) <= 9 /\ 0 <= unwrap_or 0 (o_mixing o) /\ 0 <= unwrap_or 0 (o_prior_depth o).
Lemma palette_sane k : sane_speed (nth k PALETTE (0, 0)).
Proof.
  assert (F : Forall sane_speed PALETTE).
  { unfold PALETTE. repeat (apply Forall_cons; [unfold sane_speed; cbn [fst snd]; lia|]). apply Forall_nil. }
  destruct (Nat.lt_ge_cases k (length PALETTE)) as [L|L].
  - rewrite Forall_forall in F. apply F, nth_In, L.
  - rewrite nth_overflow by exact L. unfold sane_speed. cbn [fst snd]. lia.
Qed.
Lemma adaptation_sane o k v o' : (k < 4)%nat -> sane_opts o -> set_adaptation o k v = Some o' -> sane_opts o'.
Proof.
  intros K (A & S) H. unfold set_adaptation in H. destruct (zlen PALETTE <=? v); [discriminate H|].
  cbv zeta in H. assert (E : o' = set_o_literal_adaptation o (Some match o_literal_adaptation o with
    | None => [nth (Z.to_nat v) PALETTE (0, 0); nth (Z.to_nat v) PALETTE (0, 0); nth (Z.to_nat v) PALETTE (0, 0); nth (Z.to_nat v) PALETTE (0, 0)]
    | Some a => firstn k a ++ nth (Z.to_nat v) PALETTE (0, 0) :: skipn (Datatypes.S k) a end)) by congruence. clear H. subst o'.
  split; [|exact S]. cbn [set_o_literal_adaptation o_literal_adaptation].
  pose proof (palette_sane (Z.to_nat v)) as P. destruct (o_literal_adaptation o) as [a|].
  - destruct A as [F L]. split.
    + rewrite Forall_forall in F |- *. intros y I. apply in_app_or in I as [I|[<-|I]]; [apply F| exact P|apply F];
      [rewrite <- (firstn_skipn k a)|rewrite <- (firstn_skipn (Datatypes.S k) a)]; apply in_or_app; [left|right]; exact I.
    + unfold zlen in *. rewrite app_length. cbn [length]. rewrite firstn_length, skipn_length. lia.
  - split; [repeat (apply Forall_cons; [exact P|]); apply Forall_nil|reflexivity].
Qed.
Lemma set_sane o sel v o' : 0 <= v -> sane_opts o -> set_option_match o sel v = Some o' -> sane_opts o'.
Proof.
  intros V S H. pose proof S as (S1 & S2 & S3 & S4). unfold set_option_match in H.
  repeat match type of H with
  | (if sel =? ?n then _ else _) = _ => destruct (sel =? n)
  end; try discriminate H; try (eapply adaptation_sane in H; [exact H|lia|exact S]);
  repeat match type of H with (if ?b then _ else _) = _ => destruct b eqn:? end; try discriminate H;
  match type of H with Some ?x = _ => assert (E : o' = x) by congruence end; clear H; subst o';
  (split; [exact S1|]; split; [|split]); try assumption; cbn; unfold u8c; try lia.
Qed.
Lemma configure_sane {X} : forall l, Forall (fun p => 0 <= snd p) l -> forall s o, (forall o, s = OptionStage o -> sane_opts o) ->
  fold_left (fun s p => snd (set_option s (fst p) (snd p))) l s = @OptionStage X o -> sane_opts o.
Proof.
  induction l as [|[sel v] l IH]; intros F s o S H; cbn [fold_left fst snd] in H; [apply S, H|].
  inversion F; subst. refine (IH _ _ o _ H); [assumption|]. intros o1 E. destruct s as [o0|x]; cbn [set_option] in E.
  - destruct (set_option_match o0 sel v) as [o2|] eqn:M; cbn [snd] in E.
    + assert (o2 = o1) as -> by congruence. eapply set_sane; [|apply S; reflexivity|exact M]. assumption.
    + apply S, E.
  - cbn [snd] in E. discriminate E.
Qed.
Lemma default_sane : sane_opts opts_default.
Proof. split; [exact I|]. cbn. lia. Qed.
Lemma sane_cfg o : sane_opts o -> unwrap_or 0 (o_mixing o) < 8 -> unwrap_or 0 (o_prior_depth o) < 16 -> cfg_ok (cfg_of o).
Proof.
  intros (S1 & S2 & S3 & S4) M P. unfold cfg_ok, cfg_of, cfg_new. cbn [want_depth want_stride want_mixing want_adapt].
  unfold nibble. split; [lia|]. split; [lia|]. split; [destruct (_ && _); lia|exact S1].
Qed.
