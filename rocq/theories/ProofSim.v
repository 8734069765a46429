(** Exchanging the replay buffer of a command coder for a related one. *)
From Verif Require Import Prelude ModelAns ModelCdf ModelMux ProofZlist ModelCmd ModelRecode SpecLz ModelPriors ModelCodec ModelLit ModelPm ModelTop SpecCodec SpecReplay ProofRecode ProofRecode2 ProofRecode3 ThmRecode ModelEnc.

Section Sim.
Context {R1 R2 : Type} (RR1 : replayer R1) (RR2 : replayer R2) (rel : R1 -> R2 -> Prop) (wl : word_len_fn) (D : dims).
Context (POP : forall a b c a', rel a b -> rpop RR1 a c = Next a' -> exists b', rpop RR2 b c = Next b' /\ rel a' b')
        (L8 : forall a b, rel a b -> rlast8 RR1 a = rlast8 RR2 b).
Definition swap (c : codec R1) (r : R2) : codec R2 := K (k_bk c) (k_lbk c) (k_mix c) (k_pm c) r (k_st c).
Definition node_sim (n : tnode R1) (n' : tnode R2) (r2 : R2) (r1 : R1) : Prop :=
  match n with
  | NCode st d k => exists k', n' = NCode st d k' /\ forall v c, k v = Next c -> k' v = Next (swap c r2) /\ k_rec c = r1
  | NSilent (Next c) => n' = NSilent (Next (swap c r2)) /\ k_rec c = r1
  | NSilent _ => True
  | NAdvance c x => exists r', n' = NAdvance (swap c r') x /\ rel (k_rec c) r'
  | NEnd => n' = NEnd
  end.
Lemma lift_sim {A} (f : A -> codec R1) (f' : A -> codec R2) d d' (n : node A) r2 r1 :
  (forall a, f' a = swap (f a) r2 /\ k_rec (f a) = r1) -> (forall c, d = Next c -> d' = Next (swap c r2) /\ k_rec c = r1) ->
  node_sim (lift f d n) (lift f' d' n) r2 r1.
Proof.
  intros F Dd. unfold lift, map_node. destruct n as [st c k|o|]; cbn [node_sim].
  - eexists. split; [reflexivity|]. intros v x. cbn beta. destruct (k v) as [a|e|]; cbn [map_outcome]; try discriminate. intros [= <-]. destruct (F a) as (E1 & E). rewrite E1. auto.
  - destruct o as [a|e|]; cbn [map_outcome node_sim]; auto. destruct (F a) as (E1 & E). rewrite E1. auto.
  - destruct d; cbn; auto. destruct (Dd s eq_refl) as (-> & E). auto.
Qed.
Lemma begin_sim c r2 b v x : begin_command c b v = Next x -> begin_command (swap c r2) b v = Next (swap x r2) /\ k_rec x = k_rec c.
Proof. unfold begin_command. repeat (destruct (_ =? _); [intros [= <-]; split; reflexivity|]). discriminate. Qed.
Lemma top_sim c r2 : rel (k_rec c) r2 -> node_sim (top_node RR1 wl D c) (top_node RR2 wl D (swap c r2)) r2 (k_rec c).
Proof.
  intros RE. unfold top_node. cbn [swap k_st k_bk k_lbk k_mix k_pm k_rec]. destruct (k_st c) as [|s|s|s|s|s|s|u|cmd|].
  - unfold code. destruct (prior_index _ _ _); cbn [node_sim]; [|exact Logic.I]. eexists. split; [reflexivity|]. intros v x. apply begin_sim.
  - apply lift_sim; [intros a; split; reflexivity|intros y [= <-]; split; reflexivity].
  - apply lift_sim; [intros a; split; reflexivity|intros y [= <-]; split; reflexivity].
  - apply lift_sim; [intros a; split; reflexivity|intros y [= <-]; split; reflexivity].
  - destruct s; try (apply lift_sim; [intros a; split; reflexivity|discriminate]). cbn [node_sim]. exists r2. split; [reflexivity|exact RE].
  - destruct s; try (apply lift_sim; [intros a; split; reflexivity|discriminate]). cbn [node_sim]. exists r2. split; [reflexivity|exact RE].
  - destruct s; try (apply lift_sim; [intros a; split; reflexivity|discriminate]). cbn [node_sim]. exists r2. split; [reflexivity|exact RE].
  - destruct u; try (apply lift_sim; [intros a; split; reflexivity|discriminate]).
    destruct (obs_prediction_mode (k_lbk c) (k_pm c)); cbn [node_sim]; auto. exists r2. split; [reflexivity|exact RE].
  - destruct (rpop RR1 (k_rec c) cmd) as [r'|e|] eqn:E; cbn [node_sim]; auto. destruct (POP _ _ _ _ RE E) as (b' & -> & RE').
    exists b'. rewrite (L8 _ _ RE'). split; [reflexivity|exact RE'].
  - reflexivity.
Qed.
Lemma enc_cmd_sim g cmd e : forall fuel c r2 c' x es, rel (k_rec c) r2 -> enc_cmd RR1 wl D fuel g cmd e c = Some (c', x, es) ->
  exists r2', enc_cmd RR2 wl D fuel g cmd e (swap c r2) = Some (swap c' r2', x, es) /\ rel (k_rec c') r2'.
Proof.
  induction fuel as [|fuel IH]; intros c r2 c' x es RE; [discriminate|]. cbn [enc_cmd].
  change (top_want g cmd e (swap c r2)) with (top_want g cmd e c). destruct (top_want g cmd e c); try discriminate.
  pose proof (top_sim c r2 RE) as NS. destruct (top_node RR1 wl D c) as [st d k|o|a y|]; cbn [node_sim] in NS.
  - destruct NS as (k' & -> & KK). destruct ((0 <=? v) && (v <? 16)); [|discriminate]. destruct (k v) as [c1|er|] eqn:KV; try discriminate.
    destruct (KK v c1 KV) as (-> & RC). destruct (enc_cmd RR1 wl D fuel g cmd e c1) as [((c2, y), es2)|] eqn:E; [|discriminate]. cbn [bind]. intros [= <- <- <-].
    rewrite <- RC in RE. destruct (IH c1 r2 c2 y es2 RE E) as (r2' & -> & RE'). cbn [bind]. exists r2'. auto.
  - destruct o as [c1|er|]; try discriminate. destruct NS as (-> & RC). rewrite <- RC in RE. apply IH; exact RE.
  - destruct NS as (r' & -> & RE'). intros [= <- <- <-]. exists r'. auto.
  - rewrite NS. intros [= <- <- <-]. exists r2. auto.
Qed.
Lemma enc_all_sim g fuel : forall cmds c r2 c' xs es, rel (k_rec c) r2 -> enc_all RR1 wl D fuel g cmds c = Some (c', xs, es) ->
  exists r2', enc_all RR2 wl D fuel g cmds (swap c r2) = Some (swap c' r2', xs, es) /\ rel (k_rec c') r2'.
Proof.
  induction cmds as [|cmd cmds IH]; intros c r2 c' xs es RE; cbn [enc_all].
  - destruct (enc_cmd RR1 wl D fuel g (Copy 1 0) true c) as [((c1, x), es1)|] eqn:E; [|discriminate]. destruct x; [discriminate|]. intros [= <- <- <-].
    destruct (enc_cmd_sim _ _ _ _ _ r2 _ _ _ RE E) as (r2' & -> & RE'). exists r2'. auto.
  - destruct (enc_cmd RR1 wl D fuel g cmd false c) as [((c1, x), es1)|] eqn:E; [|discriminate]. destruct x as [x|]; [|discriminate].
    destruct (enc_all RR1 wl D fuel g cmds c1) as [((c2, ys), es2)|] eqn:E2; [|discriminate]. cbn [bind]. intros [= <- <- <-].
    destruct (enc_cmd_sim _ _ _ _ _ r2 _ _ _ RE E) as (r2' & -> & RE'). destruct (IH c1 r2' c2 ys es2 RE' E2) as (r3 & -> & RE3). cbn [bind]. exists r3. auto.
Qed.
End Sim.

(** ** The ring buffer and the history *)
Definition hrel (wlen : Z) (h : list Z) (r : rcs) : Prop := len r = wlen /\ exists e, idle r h e.
Lemma replayable_b dict wlen c : replayableb dict wlen c = true -> replayable dict wlen c.
Proof.
  destruct c; cbn [replayableb replayable]; auto.
  - lia.
  - destruct (dict _ _ _) as [w|]; [|discriminate]. intros H. exists w. split; [reflexivity|]. lia.
Qed.
Lemma hrel_last8 k wlen h r : 3 <= k -> wlen = 2 ^ k -> hrel wlen h r -> last_8_literals r = Some (if (zlen h - wlen) mod wlen <? 8 then rev (last8 h) else last8 h).
Proof.
  intros K8 L (LL & e & I). assert (P8 : 8 <= 2 ^ k) by (change 8 with (2 ^ 3); apply Z.pow_le_mono_r; lia).
  destruct I as (K & _ & _ & q & Q). pose proof K as (A & B & C & _).
  assert (DI : (zlen h - wlen) mod wlen = di r).
  { rewrite Q, LL. replace (di r + q * wlen - wlen) with (di r + (q - 1) * wlen) by lia. rewrite Z.mod_add by lia. apply Z.mod_small. lia. }
  rewrite DI. unfold last_8_literals. assert (LH : (8 <= length h)%nat) by (unfold zlen in *; lia).
  destruct (Z.ltb_spec (di r) 8) as [X|X].
  - f_equal. unfold fallback_last_8. fold (len r). rewrite (last8_nth h LH).
    assert (EQ : forall i, In i (seq 0 8) -> nth (Z.to_nat (Z.land (di r + len r - Z.of_nat i - 1) (len r - 1))) (ring r) 0 = nth (length h - 1 - i) h 0).
    { intros i IN. apply in_seq in IN. replace (length h - 1 - i)%nat with (Z.to_nat (zlen h - (Z.of_nat i + 1))) by (unfold zlen; lia).
      rewrite (hist_nth r h (Z.of_nat i + 1) K) by lia. f_equal. f_equal. rewrite LL, L.
      replace (2 ^ k - 1) with (Z.ones k) by (rewrite Z.ones_equiv; lia). rewrite Z.land_ones by lia. f_equal. lia. }
    erewrite map_ext_in; [|exact EQ]. clear - LH. cbn [seq map rev app]. repeat (f_equal; try lia).
  - rewrite slice_ok by (unfold len in *; lia). f_equal. rewrite <- (hist_near r h 8 8 K) by lia.
    unfold last8. rewrite zfirst_all by (rewrite zlen_skip; lia). unfold zskip. f_equal. unfold zlen. lia.
Qed.
Lemma scratch_pop_spec dict c h0 : forall rounds r h e, 1 < len r -> replayable dict (len r) c -> mid dict r h0 c h e ->
  zlen (h0 ++ eff dict h0 c) - zlen e < 128 * Z.of_nat rounds ->
  exists r' e', scratch_pop rounds dict r c = Next r' /\ len r' = len r /\ idle r' (h0 ++ eff dict h0 c) e'.
Proof.
  induction rounds as [|rounds IH]; intros r h e LR V M B.
  { exfalso. destruct (mid_prefix _ _ _ _ _ _ M) as (y & Y). rewrite Y, zlen_app in B. pose proof (zlen_nonneg y). lia. }
  cbn [scratch_pop]. destruct (encode_cmd_spec dict c h0 r h e 128 LR V M ltac:(lia)) as (res & o & r1 & -> & L1 & _ & _ & K).
  destruct res; [exists r1, (e ++ o); auto| |destruct K].
  destruct K as ((h' & M') & OL). rewrite <- L1 in V. destruct (IH r1 h' (e ++ o) ltac:(lia) V M') as (r2 & e2 & S2 & L2 & I2); [rewrite (zlen_app e o); lia|].
  exists r2, e2. split; [exact S2|]. split; [lia|exact I2].
Qed.
Lemma hrel_pop dict wlen h r c h' : 1 < wlen -> hrel wlen h r -> rpop (lz_replayer dict wlen) h c = Next h' ->
  exists r', rpop (rcs_replayer dict) r c = Next r' /\ hrel wlen h' r'.
Proof.
  intros W (L & e & I). cbn [rpop lz_replayer rcs_replayer]. destruct (replayableb dict wlen c) eqn:RB; [|discriminate]. intros [= <-].
  apply replayable_b in RB. rewrite <- L in W, RB.
  assert (BND : zlen (h ++ eff dict h c) - zlen e < 128 * Z.of_nat (pop_rounds dict r c)).
  { destruct I as (K & _ & EM & _). pose proof K as (A & B & C & _). pose proof (unf_range r h K) as U. rewrite EM. rewrite zlen_first by lia. rewrite zlen_app.
    assert (X : zlen (eff dict h c) <= len r + Z.of_nat (cmd_fuel dict c)).
    { destruct (eff_fuel dict h c (or_intror Logic.I)) as [X|(a1 & a2 & a3 & a4 & ->)]; [lia|]. cbn [replayable] in RB. destruct RB as (w & DE & WL & _). unfold eff. cbn [meaning1 cmd_fuel]. rewrite DE. lia. }
    unfold pop_rounds. fold (len r). lia. }
  destruct (scratch_pop_spec dict c h (pop_rounds dict r c) r h e W RB (idle_mid _ _ _ _ _ I) BND) as (r' & e' & S & L' & I').
  exists r'. split; [exact S|]. split; [lia|]. exists e'. exact I'.
Qed.
Lemma hrel_new window : 0 < zlen window -> hrel (zlen window) window (rc_new window).
Proof. intros W. split; [reflexivity|]. exists window. exact (st_new (fun _ _ _ => None) window [] W). Qed.
Lemma hrel_pack k dict wlen h r : 3 <= k -> wlen = 2 ^ k -> hrel wlen h r -> rlast8 (lz_replayer dict wlen) h = rlast8 (rcs_replayer dict) r.
Proof. intros K8 L RE. cbn [rlast8 lz_replayer rcs_replayer]. unfold pack8. rewrite (hrel_last8 k wlen h r K8 L RE). reflexivity. Qed.
(** The compressor's command coder writes what the coder over the history writes. *)
Lemma enc_ring dict k window wl D g fuel cmds c xs es : 3 <= k -> zlen window = 2 ^ k ->
  enc_all (lz_replayer dict (2 ^ k)) wl D fuel g cmds (codec_new D window) = Some (c, xs, es) ->
  exists c', enc_all (rcs_replayer dict) wl D fuel g cmds (codec_new D (rc_new window)) = Some (c', xs, es).
Proof.
  intros K8 L E. assert (P8 : 8 <= 2 ^ k) by (change 8 with (2 ^ 3); apply Z.pow_le_mono_r; lia).
  destruct (enc_all_sim (lz_replayer dict (2 ^ k)) (rcs_replayer dict) (hrel (2 ^ k)) wl D) with (g := g) (fuel := fuel) (cmds := cmds) (c := codec_new D window) (r2 := rc_new window) (c' := c) (xs := xs) (es := es) as (r' & E' & _).
  - intros a b x a' RE P. apply (hrel_pop dict (2 ^ k) a b x a'); auto. lia.
  - intros a b RE. apply (hrel_pack k); auto.
  - cbn [k_rec codec_new]. rewrite <- L. apply hrel_new. lia.
  - exact E.
  - eexists. exact E'.
Qed.
