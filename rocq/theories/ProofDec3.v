(** Decompressor: one run of the worker. *)
From Verif Require Import Prelude ProofList ModelAns SpecAns ModelCdf SpecCdf ProofAns ProofAnsRt ProofAnsDec ThmCdf ModelMux ProofZlist ProofMux ModelCmd ModelRecode SpecLz ModelPriors ModelCodec ModelLit ModelPm ModelTop SpecCodec SpecReplay SpecFile ModelEnc ModelDec ProofDec1 ProofDec2.

Definition ivs (es : list ev) : list (Z * Z) := map (fun e => ref_interval (e_cdf e) (e_val e)) es.

Lemma mb_skip b n : bok b -> (n <= length (mb_data b))%nat ->
  bok (MB (mem b) (rd b + Z.of_nat n) (wr b)) /\ mb_data (MB (mem b) (rd b + Z.of_nat n) (wr b)) = skipn n (mb_data b).
Proof.
  intros B L. pose proof (mb_data_len b B) as E. pose proof B as (B1 & B2 & B3). unfold zlen in E, L.
  split; [unfold bok; cbn [rd wr mem]; lia|]. unfold mb_data in *. cbn [rd wr mem]. unfold zfirst, zskip.
  replace (Z.to_nat (rd b + Z.of_nat n)) with (Z.to_nat (rd b) + n)%nat by lia.
  rewrite <- skipn_skipn. rewrite firstn_skipn_comm. f_equal. f_equal. lia.
Qed.
Lemma fill_spec d b sfs rest : bok b -> arel d sfs (mb_data b ++ rest) -> need d <> 0%nat ->
  exists d' b', fill_from d b = Some (d', b', Nat.eqb (need d') 0) /\ bok b' /\ mem b' = mem b /\ mb_data b' = skipn (need d) (mb_data b) /\
    arel d' sfs (mb_data b' ++ rest) /\ sym_count d' = sym_count d /\ b_req d' = b_req d /\ need d' = (need d - length (mb_data b))%nat.
Proof.
  intros B A N. destruct (arel_fill d sfs (mb_data b) rest A) as (d' & P & A' & SC & BQ & ND). unfold fill_from.
  rewrite (arel_avail d sfs _ A). destruct (Nat.eqb_spec (need d) 0) as [X|_]; [contradiction|]. rewrite P. cbn [bind].
  destruct (mb_skip b (Nat.min (length (mb_data b)) (need d)) B) as (B' & E'); [lia|].
  assert (SK : skipn (Nat.min (length (mb_data b)) (need d)) (mb_data b) = skipn (need d) (mb_data b)).
  { destruct (Nat.le_gt_cases (need d) (length (mb_data b))) as [X|X]; [rewrite Nat.min_r by lia; reflexivity|]. rewrite Nat.min_l by lia. rewrite !skipn_all2 by lia. reflexivity. }
  rewrite SK in E'. rewrite <- E' in A'. rewrite (arel_avail d' sfs _ A'). eexists. eexists. split; [reflexivity|]. auto 10.
Qed.

(** ** The worker's state, with a prediction mode that may be away *)
Definition wpm (c : codec unit) (p : predmode) : codec unit := K (k_bk c) (k_lbk c) (k_mix c) p (k_rec c) (k_st c).
Lemma wpm_same c : wpm c (k_pm c) = c.
Proof. destruct c. reflexivity. Qed.
Definition is_pm (t : top) : Prop := match t with TPm _ => True | _ => False end.
Definition pm_sim (c : codec unit) (p : predmode) (n n' : tnode unit) : Prop :=
  match n with
  | NCode st d k => exists k', n' = NCode st d k' /\ forall v c', k v = Next c' -> k' v = Next (wpm c' p) /\ k_pm c' = k_pm c
  | NSilent (Next c') => n' = NSilent (Next (wpm c' p)) /\ k_pm c' = k_pm c
  | NSilent _ => True
  | NAdvance c' x => n' = NAdvance (wpm c' p) x /\ k_pm c' = k_pm c
  | NEnd => n' = NEnd
  end.
Lemma lift_pm {A} (c : codec unit) p (f f' : A -> codec unit) d d' (n : node A) :
  (forall a, f' a = wpm (f a) p /\ k_pm (f a) = k_pm c) -> (forall x, d = Next x -> d' = Next (wpm x p) /\ k_pm x = k_pm c) ->
  pm_sim c p (lift f d n) (lift f' d' n).
Proof.
  intros F Dd. unfold lift, map_node. destruct n as [st cdf k|o|]; cbn [pm_sim].
  - eexists. split; [reflexivity|]. intros v x. cbn beta. destruct (k v) as [a|e|]; cbn [map_outcome]; try discriminate. intros [= <-]. destruct (F a) as (-> & E). auto.
  - destruct o as [a|e|]; cbn [map_outcome pm_sim]; auto. destruct (F a) as (-> & E). auto.
  - destruct d as [x|e|]; cbn [pm_sim]; auto. destruct (Dd x eq_refl) as (-> & E). auto.
Qed.
Section Worker.
Context (wl : word_len_fn) (D : dims).
Lemma top_pm b l mx q r t p : ~ is_pm t -> pm_sim (K b l mx q r t) p (top_node no_replayer wl D (K b l mx q r t)) (top_node no_replayer wl D (K b l mx p r t)).
Proof.
  intros H. destruct t as [|s|s|s|s|s|s|u|cmd|]; try (contradiction H; exact Logic.I).
  - unfold top_node. cbn [k_st k_bk]. unfold code. destruct (prior_index _ _ _); cbn [pm_sim]; [|exact Logic.I]. eexists. split; [reflexivity|]. intros v x.
    unfold begin_command. repeat (destruct (_ =? _); [intros [= <-]; split; reflexivity|]). discriminate.
  - apply (lift_pm (K b l mx q r (TLit s)) p (fun x => K (fst (fst x)) (snd (fst x)) mx q r (TLit (snd x))) (fun x => K (fst (fst x)) (snd (fst x)) mx p r (TLit (snd x)))); [intros a; split; reflexivity|intros x [= <-]; split; reflexivity].
  - apply (lift_pm (K b l mx q r (TDict s)) p (fun x => kset (K b l mx q r (TDict s)) (fst x) (TDict (snd x))) (fun x => kset (K b l mx p r (TDict s)) (fst x) (TDict (snd x)))); [intros a; split; reflexivity|intros x [= <-]; split; reflexivity].
  - apply (lift_pm (K b l mx q r (TCopy s)) p (fun x => kset (K b l mx q r (TCopy s)) (fst x) (TCopy (snd x))) (fun x => kset (K b l mx p r (TCopy s)) (fst x) (TCopy (snd x)))); [intros a; split; reflexivity|intros x [= <-]; split; reflexivity].
  - assert (F : (exists t u, s = LbFully t u) \/ hstate (TBsl s)) by (destruct s; cbn; eauto). destruct F as [(t & u & ->)|F]; [split; reflexivity|].
    rewrite !top_bsl by exact F. apply lift_pm; [intros a; split; reflexivity|discriminate].
  - assert (F : (exists t, s = BtFully t) \/ hstate (TBsc s)) by (destruct s; cbn; eauto). destruct F as [(t & ->)|F]; [split; reflexivity|].
    rewrite !top_bsc by exact F. apply lift_pm; [intros a; split; reflexivity|discriminate].
  - assert (F : (exists t, s = BtFully t) \/ hstate (TBsd s)) by (destruct s; cbn; eauto). destruct F as [(t & ->)|F]; [split; reflexivity|].
    rewrite !top_bsd by exact F. apply lift_pm; [intros a; split; reflexivity|discriminate].
  - split; reflexivity.
  - reflexivity.
Qed.
Lemma wi_pm_sim c p : ~ is_pm (k_st c) -> pm_sim c p (wi_node wl D c) (w_node wl D (wpm c p)).
Proof.
  intros H. destruct c as [b l mx q r t]. cbn [k_st] in H. pose proof (top_pm b l mx q r t p H) as T. unfold wi_node, w_node, wpm. cbn [k_st k_bk k_lbk k_mix k_pm k_rec].
  destruct t as [|s|s|s|s|s|s|u|cmd|]; try exact T; try (contradiction H; exact Logic.I).
  - destruct (l_sub s); try exact T; split; reflexivity.
  - destruct s; try exact T. split; reflexivity.
Qed.

(** ** Facts about steps *)
Lemma lift_quiet {A} (f : A -> codec unit) d (n : node A) (Q : codec unit -> Prop) : (forall a, Q (f a)) -> (forall x, d = Next x -> Q x) ->
  match lift f d n with NSilent (Next c) => Q c | NAdvance c _ => Q c | _ => True end.
Proof. intros F Dd. unfold lift, map_node. destruct n as [st cdf k|[a|e|]|]; cbn [map_outcome]; auto. destruct d; auto. Qed.
Lemma wi_quiet c : match wi_node wl D c with NSilent (Next c') | NAdvance c' _ => k_st c' <> TEnd | _ => True end.
Proof.
  destruct c as [b l mx p r t]. destruct t as [|s|s|s|s|s|s|u|cmd|].
  - unfold wi_node, w_node, top_node. cbn [k_st k_bk]. unfold code. destruct (prior_index _ _ _); exact Logic.I.
  - unfold wi_node, w_node. cbn [k_st].
    assert (G : match top_node no_replayer wl D (K b l mx p r (TLit s)) with NSilent (Next c') | NAdvance c' _ => k_st c' <> TEnd | _ => True end).
    { apply (lift_quiet (fun x => K (fst (fst x)) (snd (fst x)) mx p r (TLit (snd x)))); [intros a; discriminate|intros x [= <-]; discriminate]. }
    destruct (l_sub s); try exact G; discriminate.
  - apply (lift_quiet (fun x => kset (K b l mx p r (TDict s)) (fst x) (TDict (snd x)))); [intros a; discriminate|intros x [= <-]; discriminate].
  - apply (lift_quiet (fun x => kset (K b l mx p r (TCopy s)) (fst x) (TCopy (snd x)))); [intros a; discriminate|intros x [= <-]; discriminate].
  - assert (F : (exists t u, s = LbFully t u) \/ hstate (TBsl s)) by (destruct s; cbn; eauto). destruct F as [(t & u & ->)|F]; [discriminate|].
    replace (wi_node wl D (K b l mx p r (TBsl s))) with (top_node no_replayer wl D (K b l mx p r (TBsl s))) by (destruct s; try contradiction F; reflexivity).
    rewrite top_bsl by exact F. apply lift_quiet; [intros a; discriminate|discriminate].
  - assert (F : (exists t, s = BtFully t) \/ hstate (TBsc s)) by (destruct s; cbn; eauto). destruct F as [(t & ->)|F]; [discriminate|].
    change (wi_node wl D (K b l mx p r (TBsc s))) with (top_node no_replayer wl D (K b l mx p r (TBsc s))). rewrite top_bsc by exact F. apply lift_quiet; [intros a; discriminate|discriminate].
  - assert (F : (exists t, s = BtFully t) \/ hstate (TBsd s)) by (destruct s; cbn; eauto). destruct F as [(t & ->)|F]; [discriminate|].
    change (wi_node wl D (K b l mx p r (TBsd s))) with (top_node no_replayer wl D (K b l mx p r (TBsd s))). rewrite top_bsd by exact F. apply lift_quiet; [intros a; discriminate|discriminate].
  - assert (F : u = PmFully \/ hstate (TPm u)) by (destruct u; cbn; auto). destruct F as [->|F]; [discriminate|].
    replace (wi_node wl D (K b l mx p r (TPm u))) with (top_node no_replayer wl D (K b l mx p r (TPm u))) by (destruct u; try contradiction F; reflexivity).
    rewrite ProofDec2.top_pm by exact F. apply lift_quiet; [intros a; discriminate|discriminate].
  - discriminate.
  - exact Logic.I.
Qed.
Lemma wtr_more n c es o : wtr wl D n c es o -> k_st c <> TEnd -> es <> [].
Proof.
  induction 1 as [| n c c' es o HS N _ IH| n c c' x es o HS NP N _ IH| n c cmd es o HS ST _ IH|]; intros NE.
  - discriminate.
  - apply IH. pose proof (wi_quiet c) as Q. rewrite N in Q. exact Q.
  - apply IH. pose proof (wi_quiet c) as Q. rewrite N in Q. exact Q.
  - apply IH. discriminate.
  - contradiction.
Qed.
Definition pop_pm (t : top) : nat := match t with TPop (PredictionMode _) => 1%nat | _ => 0%nat end.
Definition steps_to (n : tnode unit) (c' : codec unit) : Prop :=
  match n with NCode _ _ k => exists v, k v = Next c' | NSilent o => o = Next c' | NAdvance c _ => c = c' | NEnd => False end.
Lemma cstate_pop t : cstate t -> pop_pm t = 0%nat.
Proof. destruct t as [| | | | | | | |[]|]; cbn; auto; contradiction. Qed.
Lemma wi_next c c' : steps_to (wi_node wl D c) c' ->
  pop_pm (k_st c') = 0%nat \/ (k_st c = TPm PmFully /\ c' = kset c (k_bk c) (TPop (PredictionMode (k_pm c)))).
Proof.
  assert (H : hstate (k_st c) -> wi_node wl D c = top_node no_replayer wl D c).
  { intros H. unfold wi_node, w_node. destruct (k_st c) as [|s|s|s|s|s|s|u|cmd|]; try reflexivity.
    - cbn [hstate] in H. destruct (l_sub s); try contradiction H; reflexivity. - destruct s; try contradiction H; reflexivity. - destruct u; try contradiction H; reflexivity. }
  assert (G : hstate (k_st c) -> steps_to (wi_node wl D c) c' -> pop_pm (k_st c') = 0%nat).
  { intros HH. rewrite (H HH). pose proof (hstep wl D no_replayer c HH) as V. destruct (top_node no_replayer wl D c) as [st d k|[c1|e|]|c1 x|]; cbn [viewed steps_to] in *; try discriminate; try contradiction V.
    - intros (v & KV). destruct V as (_ & k' & _ & KK). apply cstate_pop. exact (proj2 (proj2 (proj2 (proj2 (proj2 (KK v c' KV)))))).
    - intros [= <-]. apply cstate_pop. exact (proj2 (proj2 (proj2 (proj2 (proj2 V))))). }
  clear H. destruct c as [b l mx p r t]. cbn [k_st] in *. destruct t as [|s|s|s|s|s|s|u|cmd|]; try (intros X; left; apply G; [exact Logic.I|exact X]).
  - assert (F : past (l_sub s) \/ hstate (TLit s)) by (cbn [hstate]; destruct (l_sub s); cbn; auto). destruct F as [F|F]; [|intros X; left; apply G; [exact F|exact X]].
    unfold wi_node, w_node. cbn [k_st]. destruct (l_sub s); try contradiction F; cbn [steps_to]; intros [= <-]; left; reflexivity.
  - assert (F : (exists t u, s = LbFully t u) \/ hstate (TBsl s)) by (destruct s; cbn; eauto). destruct F as [(t & u & ->)|F]; [|intros X; left; apply G; [exact F|exact X]].
    cbn. intros [= <-]. left. reflexivity.
  - assert (F : (exists t, s = BtFully t) \/ hstate (TBsc s)) by (destruct s; cbn; eauto). destruct F as [(t & ->)|F]; [|intros X; left; apply G; [exact F|exact X]].
    cbn. intros <-. left. reflexivity.
  - assert (F : (exists t, s = BtFully t) \/ hstate (TBsd s)) by (destruct s; cbn; eauto). destruct F as [(t & ->)|F]; [|intros X; left; apply G; [exact F|exact X]].
    cbn. intros <-. left. reflexivity.
  - assert (F : u = PmFully \/ hstate (TPm u)) by (destruct u; cbn; auto). destruct F as [->|F]; [|intros X; left; apply G; [exact F|exact X]].
    cbn. intros [= <-]. right. auto.
  - cbn. intros <-. left. reflexivity.
  - cbn. intros [].
Qed.
Lemma no_fill c : w_fills (k_st c) = false -> match w_node wl D c with NCode _ _ _ => False | _ => True end.
Proof.
  destruct c as [b l mx p r t]. cbn [k_st]. destruct t as [|s|s|s|s|s|s|u|cmd|]; try discriminate; cbn [w_fills].
  - destruct (d_sub s) eqn:E; try discriminate. intros _. unfold w_node, top_node. cbn [k_st k_bk]. unfold dict_node. rewrite E. exact Logic.I.
  - destruct s; try discriminate. intros _. exact Logic.I.
  - intros _. exact Logic.I.
  - intros _. exact Logic.I.
Qed.
(** what the next step of the worker is, wherever its prediction mode is *)
Lemma w_next n ci ces outs pw : wtr wl D n ci ces outs -> (has_speeds pw = true -> pw = k_pm ci) -> (is_pm (k_st ci) -> has_speeds pw = true) ->
  ~ is_pop (k_st ci) -> k_st ci <> TEnd ->
  exists n' ci' ces' pw', n = S n' /\ wtr wl D n' ci' ces' outs /\
    ((has_speeds pw' = has_speeds pw /\ (has_speeds pw' = true -> pw' = k_pm ci') /\ (has_speeds pw = false -> k_pm ci' = k_pm ci) /\ pop_pm (k_st ci') = 0%nat) \/
     (pw' = pm_nop /\ has_speeds pw = true /\ k_pm ci' = k_pm ci /\ k_st ci' = TPop (PredictionMode (k_pm ci')))) /\
    ((exists cdf k v, ces = Ev CMD cdf v :: ces' /\ codable cdf /\ nibble v /\ w_node wl D (wpm ci pw) = NCode CMD cdf k /\ k v = Next (wpm ci' pw')) \/
     (ces' = ces /\ (w_node wl D (wpm ci pw) = NSilent (Next (wpm ci' pw')) \/ exists x, w_node wl D (wpm ci pw) = NAdvance (wpm ci' pw') x))).
Proof.
  intros W PW IP NP NE.
  assert (CASE : has_speeds pw = true \/ has_speeds pw = false) by (destruct (has_speeds pw); auto). destruct CASE as [HP|HP].
  - rewrite (PW HP). rewrite wpm_same. clear PW.
    assert (F : k_st ci = TPm PmFully \/ wi_node wl D ci = w_node wl D ci) by (unfold wi_node; destruct (k_st ci) as [| | | | | | |[]| |]; auto).
    destruct F as [F|F].
    + assert (WI : wi_node wl D ci = NSilent (Next (kset ci (k_bk ci) (TPop (PredictionMode (k_pm ci)))))) by (unfold wi_node; rewrite F; reflexivity).
      inversion W as [n0 c0 cdf k v c' es0 o0 S1 N1|n0 c0 c' es0 o0 S1 N1 W1|n0 c0 c' x es0 o0 S1 P1 N1|n0 c0 cmd es0 o0 S1 ST1|c0 S1 ST1]; subst; try congruence.
      rewrite WI in N1. injection N1 as <-. exists n0, (kset ci (k_bk ci) (TPop (PredictionMode (k_pm ci)))), ces, pm_nop. split; [reflexivity|]. split; [exact W1|]. split; [right; auto|].
      right. split; [reflexivity|]. left. unfold w_node. rewrite F. reflexivity.
    + assert (NX : forall c', steps_to (w_node wl D ci) c' -> k_st ci = TPm PmFully \/ pop_pm (k_st c') = 0%nat).
      { intros c' X. rewrite <- F in X. destruct (wi_next ci c' X) as [|(? & _)]; auto. }
      assert (FU : k_st ci <> TPm PmFully).
      { intros X. unfold wi_node, w_node in F. rewrite X in F. injection F as F1. apply (f_equal has_speeds) in F1. pose proof W as W0. inversion W0; subst; cbn in F1; congruence. }
      inversion W as [n0 c0 cdf k v c' es0 o0 S1 N1 CD NB KV W1|n0 c0 c' es0 o0 S1 N1 W1|n0 c0 c' x es0 o0 S1 P1 N1 W1|n0 c0 cmd es0 o0 S1 ST1|c0 S1 ST1]; subst; try congruence.
      * exists n0, c', es0, (k_pm c'). split; [reflexivity|]. split; [exact W1|]. rewrite F in N1.
        assert (S2 : has_speeds (k_pm c') = true) by (inversion W1; assumption).
        split; [left; split; [congruence|]; split; [auto|]; split; [congruence|]; destruct (NX c'); [rewrite N1; exists v; exact KV|congruence|assumption]|].
        left. exists cdf, k, v. rewrite wpm_same. auto 10.
      * exists n0, c', ces, (k_pm c'). split; [reflexivity|]. split; [exact W1|]. rewrite F in N1.
        assert (S2 : has_speeds (k_pm c') = true) by (inversion W1; assumption).
        split; [left; split; [congruence|]; split; [auto|]; split; [congruence|]; destruct (NX c'); [rewrite N1; reflexivity|congruence|assumption]|].
        right. rewrite wpm_same. auto.
      * exists n0, c', ces, (k_pm c'). split; [reflexivity|]. split; [exact W1|]. rewrite F in N1.
        assert (S2 : has_speeds (k_pm c') = true) by (inversion W1; assumption).
        split; [left; split; [congruence|]; split; [auto|]; split; [congruence|]; destruct (NX c'); [rewrite N1; reflexivity|congruence|assumption]|].
        right. rewrite wpm_same. eauto.
      * contradiction NP. rewrite ST1. exact Logic.I.
  - assert (NPM : ~ is_pm (k_st ci)) by (intros X; rewrite (IP X) in HP; discriminate HP). pose proof (wi_pm_sim ci pw NPM) as SIM.
    assert (NX : forall c', steps_to (wi_node wl D ci) c' -> pop_pm (k_st c') = 0%nat).
    { intros c' X. destruct (wi_next ci c' X) as [|(Y & _)]; auto. contradiction NPM. rewrite Y. exact Logic.I. }
    inversion W as [n0 c0 cdf k v c' es0 o0 S1 N1 CD NB KV W1|n0 c0 c' es0 o0 S1 N1 W1|n0 c0 c' x es0 o0 S1 P1 N1 W1|n0 c0 cmd es0 o0 S1 ST1|c0 S1 ST1]; subst; try congruence.
    + rewrite N1 in SIM, NX. cbn [pm_sim] in SIM. destruct SIM as (k' & E & KK). destruct (KK v c' KV) as (KV' & KP). exists n0, c', es0, pw. split; [reflexivity|]. split; [exact W1|].
      split; [left; split; [reflexivity|]; split; [congruence|]; split; [auto|]; apply NX; exists v; exact KV|]. left. exists cdf, k', v. auto 10.
    + rewrite N1 in SIM, NX. cbn [pm_sim] in SIM. destruct SIM as (E & KP). exists n0, c', ces, pw. split; [reflexivity|]. split; [exact W1|].
      split; [left; split; [reflexivity|]; split; [congruence|]; split; [auto|]; apply NX; reflexivity|]. right. auto.
    + rewrite N1 in SIM, NX. cbn [pm_sim] in SIM. destruct SIM as (E & KP). exists n0, c', ces, pw. split; [reflexivity|]. split; [exact W1|].
      split; [left; split; [reflexivity|]; split; [congruence|]; split; [auto|]; apply NX; reflexivity|]. right. eauto.
    + contradiction NP. rewrite ST1. exact Logic.I.
Qed.

(** ** The state of the worker and the queue *)
Definition hs (p : predmode) : nat := if has_speeds p then 1 else 0.
Fixpoint cpm (l : list command) : nat := match l with [] => 0 | PredictionMode _ :: l => S (cpm l) | _ :: l => cpm l end.
Definition expand (p : predmode) (l : list command) : list command := map (fun c => match c with PredictionMode _ => PredictionMode p | c => c end) l.
Definition fwd (c : command) : Prop := match c with PredictionMode _ => True | c => downcast c = c end.
Definition full (b : mbuf) : Prop := bok b /\ mb_data b <> [].
Definition qbytes (q : squeue) : list Z := concat (map mb_data (q_data q)).
Definition left_w (w : worker) (q : squeue) : nat := length (mb_data (wk_slice w) ++ qbytes q).
Definition held (w : worker) (q : squeue) : Z := zlen (q_data q) + zlen (q_rdata q) + (if zlen (mem (wk_slice w)) =? 0 then 0 else 1).
Record winv (n : nat) (pw : predmode) (ci : codec unit) (ces : list ev) (outs : list command) (cM : nat) (rest : list Z) (w : worker) (q : squeue) : Prop := {
  wv_tr : wtr wl D n ci ces outs;
  wv_fwd : Forall fwd outs;
  wv_c : wk_c w = wpm ci pw;
  wv_dec : arel (wk_dec w) (ivs ces) (mb_data (wk_slice w) ++ qbytes q ++ rest);
  wv_slice : bok (wk_slice w);
  wv_data : Forall full (q_data q);
  wv_data2 : zlen (q_data q) <= 2;
  wv_rdata2 : zlen (q_rdata q) <= 2;
  wv_eof : q_eof q = wk_done w;
  wv_done : wk_done w = true -> k_st ci = TEnd;
  wv_tok : (hs pw + pop_pm (k_st ci) + cpm (q_res q) + cM + length (q_cm q) = 1)%nat;
  wv_tw : has_speeds pw = true -> pw = k_pm ci;
  wv_tp : forall p, k_st ci = TPop (PredictionMode p) -> p = k_pm ci;
  wv_tq : has_speeds (fst (q_rcm q)) = Nat.eqb (cpm (q_res q)) 1;
  wv_tq2 : cpm (q_res q) = 1%nat -> fst (q_rcm q) = k_pm ci;
  wv_ts : has_speeds (snd (q_rcm q)) = false;
  wv_tc : forall p, In p (q_cm q) -> p = k_pm ci }.
Definition wgo (cM : nat) (ci : codec unit) (outs : list command) (w : worker) (q : squeue) (ci' : codec unit) (outs' : list command) (w' : worker) (q' : squeue) : Prop :=
  expand (fst (q_rcm q')) (q_res q') ++ outs' = expand (fst (q_rcm q)) (q_res q) ++ outs /\
  held w' q' = held w q /\ (left_w w' q' <= left_w w q)%nat /\ (cM = 1%nat -> k_pm ci' = k_pm ci).
Definition same_w w q w' q' : Prop := wk_slice w' = wk_slice w /\ q_data q' = q_data q /\ q_rdata q' = q_rdata q.

Lemma wtr_hs n c es o : wtr wl D n c es o -> has_speeds (k_pm c) = true.
Proof. inversion 1; assumption. Qed.
Lemma cpm_app a b : cpm (a ++ b) = (cpm a + cpm b)%nat.
Proof. induction a as [|[] a IH]; cbn [app cpm]; rewrite ?IH; reflexivity. Qed.
Lemma expand_none p p' l : cpm l = 0%nat -> expand p l = expand p' l.
Proof. induction l as [|c l IH]; [reflexivity|]. cbn [cpm expand map]. destruct c; try discriminate; intros E; f_equal; apply IH; exact E. Qed.
Lemma expand_app p a b : expand p (a ++ b) = expand p a ++ expand p b.
Proof. apply map_app. Qed.
Lemma mem_data b : bok b -> mb_data b <> [] -> zlen (mem b) <> 0.
Proof.
  intros B N E. apply N. pose proof (mb_data_len b B) as L. destruct B as (B1 & B2 & B3). rewrite E in B3. assert (Z0 : zlen (mb_data b) = 0) by lia.
  destruct (mb_data b); [reflexivity|]. exfalso. rewrite zlen_cons in Z0. pose proof (zlen_nonneg l). lia.
Qed.
(** filling the decoder *)
Lemma fills n pw ci ces outs cM rest w q : winv n pw ci ces outs cM rest w q -> k_st ci <> TEnd ->
  exists d s q1 ok,
    (if w_fills (k_st ci) then
      if num_push_bytes_avail (wk_dec w) =? 0 then Some (wk_dec w, wk_slice w, q, true)
      else let '(s, q) := pull_slice (wk_slice w) q in let? '(d, s, ok) := fill_from (wk_dec w) s in Some (d, s, q, ok)
     else Some (wk_dec w, wk_slice w, q, true)) = Some (d, s, q1, ok) /\
    arel d (ivs ces) (mb_data s ++ qbytes q1 ++ rest) /\ bok s /\ Forall full (q_data q1) /\ zlen (q_data q1) <= 2 /\ zlen (q_rdata q1) <= 2 /\
    q_cm q1 = q_cm q /\ q_res q1 = q_res q /\ q_rcm q1 = q_rcm q /\ q_eof q1 = q_eof q /\
    held (WK (wk_c w) d s false) q1 = held w q /\ (left_w (WK (wk_c w) d s false) q1 <= left_w w q)%nat /\
    (ok = true -> (need d = 0%nat \/ w_fills (k_st ci) = false) /\ ((left_w (WK (wk_c w) d s false) q1 < left_w w q)%nat \/ same_w w q (WK (wk_c w) d s false) q1)) /\
    (ok = false -> need d <> 0%nat /\ ((left_w (WK (wk_c w) d s false) q1 < left_w w q)%nat \/ (q_data q = [] /\ q_data q1 = [] /\ zlen (mem s) = 0) \/ zlen (q_rdata q) = 2)).
Proof.
  intros V NE. destruct w as [c d s dn]. destruct q as [qd qc qr qrd qrc qe]. destruct V as [TR FW WC AR BS FD D2 R2 _ _ _ _ _ _ _ _ _].
  cbn [wk_c wk_dec wk_slice wk_done q_data q_cm q_res q_rdata q_rcm q_eof] in *.
  assert (STAY : forall ok, ok = true -> need d = 0%nat \/ w_fills (k_st ci) = false ->
    exists d0 s0 q1 ok0, Some (d, s, SQ qd qc qr qrd qrc qe, ok) = Some (d0, s0, q1, ok0) /\
    arel d0 (ivs ces) (mb_data s0 ++ qbytes q1 ++ rest) /\ bok s0 /\ Forall full (q_data q1) /\ zlen (q_data q1) <= 2 /\ zlen (q_rdata q1) <= 2 /\
    q_cm q1 = qc /\ q_res q1 = qr /\ q_rcm q1 = qrc /\ q_eof q1 = qe /\
    held (WK c d0 s0 false) q1 = held (WK c d s dn) (SQ qd qc qr qrd qrc qe) /\ (left_w (WK c d0 s0 false) q1 <= left_w (WK c d s dn) (SQ qd qc qr qrd qrc qe))%nat /\
    (ok0 = true -> (need d0 = 0%nat \/ w_fills (k_st ci) = false) /\ ((left_w (WK c d0 s0 false) q1 < left_w (WK c d s dn) (SQ qd qc qr qrd qrc qe))%nat \/ same_w (WK c d s dn) (SQ qd qc qr qrd qrc qe) (WK c d0 s0 false) q1)) /\
    (ok0 = false -> need d0 <> 0%nat /\ ((left_w (WK c d0 s0 false) q1 < left_w (WK c d s dn) (SQ qd qc qr qrd qrc qe))%nat \/ (qd = [] /\ q_data q1 = [] /\ zlen (mem s0) = 0) \/ zlen qrd = 2))).
  { intros ok -> X. exists d, s, (SQ qd qc qr qrd qrc qe), true. split; [reflexivity|]. do 9 (split; [first [assumption|reflexivity]|]).
    split; [reflexivity|]. split; [unfold left_w; cbn [wk_slice]; lia|]. split; [intros _; split; [exact X|right; unfold same_w; auto]|discriminate]. }
  destruct (w_fills (k_st ci)) eqn:WF; [|apply STAY; auto].
  rewrite (arel_avail _ _ _ AR). destruct (Nat.eqb_spec (need d) 0) as [Z0|Z0]; [apply STAY; auto|]. clear STAY.
  (* the slice to read from *)
  assert (PULL : exists s1 qd1 qrd1, pull_slice s (SQ qd qc qr qrd qrc qe) = (s1, SQ qd1 qc qr qrd1 qrc qe) /\ bok s1 /\ Forall full qd1 /\ zlen qd1 <= 2 /\ zlen qrd1 <= 2 /\
    mb_data s1 ++ concat (map mb_data qd1) = mb_data s ++ concat (map mb_data qd) /\
    zlen qd1 + zlen qrd1 + (if zlen (mem s1) =? 0 then 0 else 1) = zlen qd + zlen qrd + (if zlen (mem s) =? 0 then 0 else 1) /\
    (mb_data s1 = [] -> (qd = [] /\ qd1 = [] /\ zlen (mem s1) = 0) \/ zlen qrd = 2)).
  { unfold pull_slice. destruct (Z.eqb_spec (zlen (mb_data s)) 0) as [E|E]; cbn [negb].
    2:{ exists s, qd, qrd. split; [reflexivity|]. repeat (split; [first [assumption|reflexivity]|]). intros X. rewrite X in E. contradiction E. reflexivity. }
    assert (E0 : mb_data s = []) by (destruct (mb_data s); [reflexivity|]; exfalso; rewrite zlen_cons in E; pose proof (zlen_nonneg l); lia).
    rewrite E0. cbn [app q_data q_rdata q_set_rdata q_set_data q_cm q_res q_rcm q_eof].
    destruct (Z.eqb_spec (zlen (mem s)) 0) as [M|M].
    - destruct qd as [|b bs].
      + exists s, [], qrd. split; [reflexivity|]. rewrite E0, M. repeat (split; [first [assumption|reflexivity]|]). auto.
      + exists b, bs, qrd. inversion FD as [|? ? (Bb & Nb) FD']; subst. split; [reflexivity|]. split; [exact Bb|]. split; [exact FD'|]. rewrite zlen_cons in *. split; [lia|]. split; [exact R2|]. split; [reflexivity|].
        split; [|intros X; contradiction]. pose proof (mem_data b Bb Nb). destruct (Z.eqb_spec (zlen (mem b)) 0); lia.
    - destruct (Z.ltb_spec (zlen qrd) 2) as [RR|RR].
      + destruct qd as [|b bs].
        * exists mb_empty, [], (qrd ++ [s]). split; [reflexivity|]. split; [unfold bok, mb_empty; cbn [rd wr mem]; change (zlen (@nil Z)) with 0; lia|]. split; [constructor|]. change (zlen (@nil mbuf)) with 0. split; [lia|].
          rewrite zlen_app. change (zlen [s]) with 1. split; [lia|]. split; [reflexivity|]. change (zlen (mem mb_empty) =? 0) with true. cbn iota. split; [lia|]. intros _. left. auto.
        * exists b, bs, (qrd ++ [s]). inversion FD as [|? ? (Bb & Nb) FD']; subst. split; [reflexivity|]. split; [exact Bb|]. split; [exact FD'|]. rewrite zlen_cons in *. split; [lia|].
          rewrite zlen_app. change (zlen [s]) with 1. split; [lia|]. split; [reflexivity|]. split; [|intros X; contradiction]. pose proof (mem_data b Bb Nb). destruct (Z.eqb_spec (zlen (mem b)) 0); lia.
      + exists s, qd, qrd. split; [reflexivity|]. rewrite E0. destruct (Z.eqb_spec (zlen (mem s)) 0); [contradiction|]. repeat (split; [first [assumption|reflexivity]|]). intros _. right. lia. }
  destruct PULL as (s1 & qd1 & qrd1 & -> & B1 & F1 & D1 & R1 & DT & HL & EM).
  assert (AR1 : arel d (ivs ces) (mb_data s1 ++ concat (map mb_data qd1) ++ rest)) by (rewrite app_assoc, DT, <- app_assoc; exact AR).
  destruct (fill_spec d s1 (ivs ces) _ B1 AR1 Z0) as (d' & s2 & -> & B2 & M2 & DD & AR2 & _ & _ & ND). cbn [bind].
  exists d', s2, (SQ qd1 qc qr qrd1 qrc qe), (Nat.eqb (need d') 0). split; [reflexivity|].
  unfold held, left_w, qbytes in *. cbn [wk_c wk_dec wk_slice wk_done q_data q_cm q_res q_rdata q_rcm q_eof] in *.
  do 9 (split; [first [assumption|reflexivity]|]). rewrite M2. split; [exact HL|]. rewrite <- DT, !app_length, DD, skipn_length. split; [lia|]. split.
  - intros X. apply Nat.eqb_eq in X. split; [auto|]. left. lia.
  - intros X. apply Nat.eqb_neq in X. split; [exact X|]. destruct (mb_data s1) as [|x y] eqn:E1; [|left; cbn [length]; lia]. right. destruct (EM eq_refl) as [(? & ? & ?)|?]; [left; auto|right; assumption].
Qed.

Definition stopped (ces' : list ev) (pw' : predmode) (b0 : nat) (q : squeue) (w' : worker) (q' : squeue) (r : wres) : Prop :=
  match r with
  | WSuccess => wk_done w' = true
  | WNeedOut => NUM_BUFFERED <= zlen (q_res q') \/ (has_speeds pw' = false /\ q_cm q' = [] /\ pop_pm (k_st (wk_c w')) = 0%nat)
  | WNeedIn => ces' <> [] /\ need (wk_dec w') <> 0%nat /\
      ((left_w w' q' < b0)%nat \/ (q_data q = [] /\ q_data q' = [] /\ zlen (mem (wk_slice w')) = 0) \/ zlen (q_rdata q) = 2)
  | WFail _ => False
  end.
Lemma wants_cases t (p : predmode) : (match t with TPm _ => negb (has_speeds p) | _ => false end) = false -> is_pm t -> has_speeds p = true.
Proof. destruct t; cbn; intros H I; try contradiction. destruct (has_speeds p); [reflexivity|discriminate]. Qed.
Lemma w_step_spec n pw ci ces outs cM rest w q : winv n pw ci ces outs cM rest w q ->
  exists w' q' r n' pw' ci' ces' outs', w_step wl D w q = Some (w', q', r) /\ winv n' pw' ci' ces' outs' cM rest w' q' /\ wgo cM ci outs w q ci' outs' w' q' /\
    match r with
    | None => (2 * n' + (1 - hs pw') < 2 * n + (1 - hs pw))%nat /\ ((left_w w' q' < left_w w q)%nat \/ same_w w q w' q')
    | Some r => stopped ces' pw' (left_w w q) q w' q' r /\ (n' <= n)%nat
    end.
Proof.
  intros V. pose proof V as [TR FW WC AR BS FD D2 R2 EO DN TK TW TP TQ TQ2 TS TC]. unfold w_step.
  assert (SELF : wgo cM ci outs w q ci outs w q) by (unfold wgo; auto with arith).
  destruct (wk_done w) eqn:DO.
  { exists w, q, (Some WSuccess), n, pw, ci, ces, outs. split; [reflexivity|]. split; [exact V|]. split; [exact SELF|split; [exact DO|lia]]. }
  rewrite WC. change (k_st (wpm ci pw)) with (k_st ci).
  assert (MAIN : k_st ci <> TEnd -> ~ is_pop (k_st ci) -> exists w' q' r n' pw' ci' ces' outs',
    (if match k_st ci with TPm _ => negb (has_speeds (k_pm (wpm ci pw))) | _ => false end then
        match q_cm q with
        | [] => Some (w, q, Some WNeedOut)
        | p :: ps => Some (wk_set_c w (kset_pm (wpm ci pw) p (k_st ci)), q_set_cm q ps, None)
        end
      else
        let? '(d, s, q, ok) :=
          if w_fills (k_st ci) then
            if num_push_bytes_avail (wk_dec w) =? 0 then Some (wk_dec w, wk_slice w, q, true)
            else let '(s, q) := pull_slice (wk_slice w) q in
                 let? '(d, s, ok) := fill_from (wk_dec w) s in Some (d, s, q, ok)
          else Some (wk_dec w, wk_slice w, q, true) in
        if negb ok then Some (WK (wpm ci pw) d s false, q, Some WNeedIn) else
        match w_node wl D (wpm ci pw) with
        | NCode _ cdf k =>
            let? '(v, d) := get_sym d (ref_lookup cdf) in
            match k v with
            | Next c => Some (WK c d s false, q, None)
            | Err e => Some (WK (wpm ci pw) d s false, q, Some (WFail e))
            | Panic => None
            end
        | NSilent (Next c) => Some (WK c d s false, q, None)
        | NSilent (Err e) => Some (WK (wpm ci pw) d s false, q, Some (WFail e))
        | NSilent Panic => None
        | NAdvance c _ => Some (WK c d s false, q, None)
        | NEnd => None
        end) = Some (w', q', r) /\ winv n' pw' ci' ces' outs' cM rest w' q' /\ wgo cM ci outs w q ci' outs' w' q' /\
    match r with
    | None => (2 * n' + (1 - hs pw') < 2 * n + (1 - hs pw))%nat /\ ((left_w w' q' < left_w w q)%nat \/ same_w w q w' q')
    | Some r => stopped ces' pw' (left_w w q) q w' q' r /\ (n' <= n)%nat
    end).
  { intros NE NP. change (k_pm (wpm ci pw)) with pw.
    assert (P0 : pop_pm (k_st ci) = 0%nat) by (destruct (k_st ci) as [| | | | | | | |[]|]; try reflexivity; contradiction NP; exact Logic.I).
    destruct (match k_st ci with TPm _ => negb (has_speeds pw) | _ => false end) eqn:WM.
    - assert (HP : has_speeds pw = false) by (destruct (k_st ci); try discriminate WM; destruct (has_speeds pw); [discriminate WM|reflexivity]).
      destruct (q_cm q) as [|p ps] eqn:QC.
      + exists w, q, (Some WNeedOut), n, pw, ci, ces, outs. split; [reflexivity|]. split; [exact V|]. split; [exact SELF|]. split; [right; rewrite WC; auto|lia].
      + assert (PP : p = k_pm ci) by (apply TC; left; reflexivity).
        exists (wk_set_c w (kset_pm (wpm ci pw) p (k_st ci))), (q_set_cm q ps), None, n, p, ci, ces, outs. split; [reflexivity|].
        pose proof (wtr_hs _ _ _ _ TR) as HC. unfold hs in TK |- *. rewrite HP in TK |- *. rewrite PP, HC. cbn [length] in TK. split; [|split; [exact SELF|split; [lia|right; unfold same_w; auto]]].
        constructor; try assumption; try reflexivity; cbn [q_cm q_set_cm q_res q_eof wk_done wk_set_c]; unfold hs; rewrite ?HC; try congruence; [lia|]. intros p' I'. apply TC. right. exact I'.
    - pose proof (wants_cases _ _ WM) as IP. destruct (fills _ _ _ _ _ _ _ _ _ V NE) as (d & s & q1 & ok & -> & AR1 & BS1 & FD1 & D21 & R21 & QC1 & QR1 & QRC1 & QE1 & HL1 & LF1 & OK1 & NK1). cbn [bind].
      destruct ok; cbn [negb].
      2:{ destruct (NK1 eq_refl) as (N1 & N2). rewrite WC in *. exists (WK (wpm ci pw) d s false), q1, (Some WNeedIn), n, pw, ci, ces, outs. split; [reflexivity|].
          split; [constructor; rewrite ?QC1, ?QR1, ?QRC1, ?QE1; try assumption; try reflexivity; cbn; discriminate|].
          split; [unfold wgo; rewrite QR1, QRC1; auto|]. split; [|lia]. split; [apply (wtr_more _ _ _ _ TR NE)|]. split; [exact N1|exact N2]. }
      destruct (OK1 eq_refl) as (N1 & N2). clear NK1 OK1.
      destruct (w_next _ _ _ _ _ TR TW IP NP NE) as (n' & ci' & ces' & pw' & -> & TR' & PM & ND).
      assert (FIN : forall d', arel d' (ivs ces') (mb_data s ++ qbytes q1 ++ rest) -> exists w' q' r n0 pw0 ci0 ces0 outs0,
         Some (WK (wpm ci' pw') d' s false, q1, None) = Some (w', q', r) /\ winv n0 pw0 ci0 ces0 outs0 cM rest w' q' /\ wgo cM ci outs w q ci0 outs0 w' q' /\
         match r with
         | None => (2 * n0 + (1 - hs pw0) < 2 * S n' + (1 - hs pw))%nat /\ ((left_w w' q' < left_w w q)%nat \/ same_w w q w' q')
         | Some r => stopped ces0 pw0 (left_w w q) q w' q' r /\ (n0 <= S n')%nat
         end).
      { intros d' AR'. exists (WK (wpm ci' pw') d' s false), q1, None, n', pw', ci', ces', outs. split; [reflexivity|].
        split; [|split; [|split; [unfold hs; destruct (has_speeds pw), (has_speeds pw'); lia|exact N2]]].
        - unfold hs in TK. destruct PM as [(P1 & P2 & P3 & P4)|(P1 & P2 & P3 & P4)].
          + assert (KP : (cpm (q_res q) + length (q_cm q) <> 0)%nat -> k_pm ci' = k_pm ci) by (intros X; apply P3; destruct (has_speeds pw); [lia|reflexivity]).
            constructor; rewrite ?QC1, ?QR1, ?QRC1, ?QE1; try assumption; try reflexivity; try (cbn; discriminate).
            * unfold hs. rewrite P1, P4. lia.
            * intros p X. rewrite X in P4. discriminate P4.
            * intros X. rewrite KP by lia. apply TQ2, X.
            * intros p X. rewrite KP; [apply TC, X|]. destruct (q_cm q); [contradiction X|cbn [length]; lia].
          + rewrite P2 in TK. constructor; rewrite ?QC1, ?QR1, ?QRC1, ?QE1; try assumption; try reflexivity; try (cbn; discriminate).
            * unfold hs. rewrite P1, P4. cbn. lia.
            * rewrite P1. discriminate.
            * rewrite P4. intros p [= <-]. reflexivity.
            * intros X. lia.
            * intros p X. rewrite P3. apply TC, X.
        - unfold wgo. rewrite QR1, QRC1. split; [reflexivity|]. split; [exact HL1|]. split; [exact LF1|]. intros X. unfold hs in TK. destruct PM as [(P1 & P2 & P3 & P4)|(P1 & P2 & P3 & P4)]; [|exact P3].
          apply P3. destruct (has_speeds pw); [lia|reflexivity]. }
      destruct ND as [(cdf & k & v & -> & CD & NB & NN & KV)|(-> & [NN|(x & NN)])]; rewrite NN.
      + assert (N0 : need d = 0%nat). { destruct N1 as [N1|N1]; [exact N1|]. exfalso. pose proof (no_fill (wpm ci pw) N1) as F. rewrite NN in F. exact F. }
        destruct (arel_sym d (ref_lookup cdf) v _ _ _ AR1 N0 (C04_intervals_sound _ _ CD NB)) as (d2 & -> & AR2 & _). cbn [bind]. rewrite KV. apply FIN, AR2.
      + apply FIN, AR1.
      + apply FIN, AR1. }
  destruct (k_st ci) as [|s|s|s|s|s|s|u|cmd|] eqn:ST; try (apply MAIN; [discriminate|intros []]).
  - clear MAIN. inversion TR as [n0 c0 cdf k v c' es0 o0 S1 N1|n0 c0 c' es0 o0 S1 N1 W1|n0 c0 c' x es0 o0 S1 P1 N1|n0 c0 cmd' es0 o0 S1 ST1 W1|c0 S1 ST1]; subst.
    1,2: unfold wi_node, w_node, top_node in N1; rewrite ST in N1; discriminate N1.
    1: contradiction P1; rewrite ST; exact Logic.I.
    2: congruence.
    rewrite ST in ST1. injection ST1 as <-. unfold q_push_cmd. destruct (Z.ltb_spec (zlen (q_res q)) NUM_BUFFERED) as [L|L].
    2:{ exists w, q, (Some WNeedOut), (S n0), pw, ci, ces, (cmd :: o0). split; [reflexivity|]. split; [exact V|]. split; [exact SELF|]. split; [left; exact L|lia]. }
    inversion FW as [|? ? FC FW']; subst.
    assert (GO : forall rcm', (match cmd with PredictionMode p => rcm' = (p, snd (q_rcm q)) | _ => rcm' = q_rcm q end) ->
      exists w' q' r n' pw' ci' ces' outs', Some (wk_set_c w (kset (wpm ci pw) (k_bk (wpm ci pw)) TBegin), SQ (q_data q) (q_cm q) (q_res q ++ [downcast cmd]) (q_rdata q) rcm' (q_eof q), None) = Some (w', q', r) /\
        winv n' pw' ci' ces' outs' cM rest w' q' /\ wgo cM ci (cmd :: o0) w q ci' outs' w' q' /\
        match r with
        | None => (2 * n' + (1 - hs pw') < 2 * S n0 + (1 - hs pw))%nat /\ ((left_w w' q' < left_w w q)%nat \/ same_w w q w' q')
        | Some r => stopped ces' pw' (left_w w q) q w' q' r /\ (n' <= S n0)%nat
        end).
    { intros rcm' RC. exists (wk_set_c w (kset (wpm ci pw) (k_bk (wpm ci pw)) TBegin)), (SQ (q_data q) (q_cm q) (q_res q ++ [downcast cmd]) (q_rdata q) rcm' (q_eof q)), None, n0, pw, (kset ci (k_bk ci) TBegin), ces, o0.
      split; [reflexivity|]. split; [|split; [|split; [lia|right; unfold same_w; auto]]].
      - assert (PMC : (exists p, cmd = PredictionMode p) \/ (pop_pm (TPop cmd) = 0%nat /\ cpm [downcast cmd] = 0%nat /\ rcm' = q_rcm q)).
        { destruct cmd; cbn in RC |- *; eauto. }
        destruct PMC as [(p & ->)|(PC & PD & ->)].
        + subst rcm'. pose proof (TP p eq_refl) as E. cbn [pop_pm downcast] in *. pose proof (wtr_hs _ _ _ _ TR) as HC. rewrite <- E in HC.
          constructor; cbn [q_data q_cm q_res q_rdata q_rcm q_eof wk_c wk_dec wk_slice wk_done wk_set_c fst snd]; try assumption; try reflexivity; try (rewrite DO; discriminate); rewrite ?cpm_app; cbn [cpm pop_pm k_st kset k_pm]; try lia.
          * rewrite EO, DO. reflexivity.
          * discriminate.
          * rewrite HC. symmetry. apply Nat.eqb_eq. lia.
          * intros _. exact E.
        + rewrite PC in TK.
          constructor; cbn [q_data q_cm q_res q_rdata q_rcm q_eof wk_c wk_dec wk_slice wk_done wk_set_c fst snd]; try assumption; try reflexivity; try (rewrite DO; discriminate); rewrite ?cpm_app, ?PD, ?Nat.add_0_r; cbn [pop_pm k_st kset k_pm]; try lia; try assumption.
          * rewrite EO, DO. reflexivity.
          * discriminate.
      - unfold wgo. cbn [q_data q_cm q_res q_rdata q_rcm q_eof wk_c wk_dec wk_slice wk_done wk_set_c fst snd]. split; [|auto with arith]. rewrite expand_app, <- app_assoc. f_equal; [|].
        + destruct cmd; subst rcm'; try reflexivity. apply expand_none. cbn [pop_pm] in TK. lia.
        + destruct cmd as [| | | | | |]; subst rcm'; cbn [expand map app fst]; cbn [fwd] in FC; rewrite ?FC; reflexivity. }
    destruct cmd; try (apply GO; reflexivity). cbn [pop_pm] in TK.
    assert (C0 : cpm (q_res q) = 0%nat) by lia. rewrite C0 in TQ. cbn in TQ. rewrite TQ. apply GO. reflexivity.
  - clear MAIN. exists (WK (wpm ci pw) (wk_dec w) (wk_slice w) true), (q_set_eof q true), (Some WSuccess), n, pw, ci, ces, outs. split; [reflexivity|].
    split; [constructor; try assumption; try reflexivity; rewrite ?ST; try assumption; auto|]. split; [exact SELF|split; [reflexivity|lia]].
Qed.

Lemma w_run_spec : forall fuel n pw ci ces outs cM rest w q, winv n pw ci ces outs cM rest w q -> (2 * n + 2 <= fuel)%nat ->
  exists w' q' r n' pw' ci' ces' outs', w_run wl D fuel w q = Some (w', q', r) /\ winv n' pw' ci' ces' outs' cM rest w' q' /\ wgo cM ci outs w q ci' outs' w' q' /\
    stopped ces' pw' (left_w w q) q w' q' r /\ (n' <= n)%nat.
Proof.
  assert (G : forall fuel n pw ci ces outs cM rest w q, winv n pw ci ces outs cM rest w q -> (2 * n + (1 - hs pw) < fuel)%nat ->
  exists w' q' r n' pw' ci' ces' outs', w_run wl D fuel w q = Some (w', q', r) /\ winv n' pw' ci' ces' outs' cM rest w' q' /\ wgo cM ci outs w q ci' outs' w' q' /\
    stopped ces' pw' (left_w w q) q w' q' r /\ (n' <= n)%nat).
  { induction fuel as [|fuel IH]; intros n pw ci ces outs cM rest w q V F; [lia|]. cbn [w_run].
    destruct (w_step_spec _ _ _ _ _ _ _ _ _ V) as (w1 & q1 & r & n1 & pw1 & ci1 & ces1 & outs1 & -> & V1 & G1 & R1). cbn [bind]. destruct r as [r|].
    - exists w1, q1, r, n1, pw1, ci1, ces1, outs1. auto.
    - destruct R1 as (M1 & S1). destruct (IH n1 pw1 ci1 ces1 outs1 cM rest w1 q1 V1) as (w2 & q2 & r & n2 & pw2 & ci2 & ces2 & outs2 & E2 & V2 & G2 & R2 & N2); [lia|].
      exists w2, q2, r, n2, pw2, ci2, ces2, outs2. split; [exact E2|]. split; [exact V2|].
      destruct G1 as (A1 & B1 & C1 & P1). destruct G2 as (A2 & B2 & C2 & P2). unfold wgo. rewrite A2, B2. split; [split; [exact A1|]; split; [exact B1|]; split; [lia|]; intros X; rewrite (P2 X); auto|].
      split; [|unfold hs in M1; destruct (has_speeds pw), (has_speeds pw1); lia]. destruct r; try exact R2. destruct R2 as (X1 & X2 & X3). split; [exact X1|]. split; [exact X2|].
      destruct S1 as [S1|(S1 & S2 & S3)]; [left; lia|]. rewrite S2, S3 in X3. unfold left_w, qbytes in *. rewrite S1, S2 in X3. exact X3. }
  intros fuel n pw ci ces outs cM rest w q V F. apply (G _ _ _ _ _ _ _ _ _ _ V). lia.
Qed.
End Worker.
