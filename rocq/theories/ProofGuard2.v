(** Any bytes in the decompressor: the worker's states. *)
From Verif Require Import Prelude ProofList ModelAns SpecAns ModelCdf SpecCdf ProofCdf ProofAns ProofAnsRt ProofAnsDec ThmCdf ModelMux ProofZlist ProofMux ModelCmd ModelRecode SpecLz ModelPriors ModelCodec ModelLit ModelPm ModelTop SpecCodec ModelEnc ModelDec ModelContextLut ThmPriors ProofCodecInv ProofCodecInv2 ProofRun ProofTop ProofDec2 ProofDec3 SpecHostile ProofHostile SpecGuard ProofGuard1.

(** ** The same step with another prediction mode *)
Definition pm_sim2 (c : codec unit) (p : predmode) (n n' : tnode unit) : Prop :=
  match n with
  | NCode st d k => exists k', n' = NCode st d k' /\ forall v,
      match k v with Next c' => k' v = Next (wpm c' p) /\ k_pm c' = k_pm c | Err e => k' v = Err e | Panic => k' v = Panic end
  | NSilent (Next c') => n' = NSilent (Next (wpm c' p)) /\ k_pm c' = k_pm c
  | NSilent o => match o with Panic => n' = NSilent Panic | _ => True end
  | NAdvance c' x => n' = NAdvance (wpm c' p) x /\ k_pm c' = k_pm c
  | NEnd => n' = NEnd
  end.
Lemma lift_pm2 {A} (c : codec unit) p (f f' : A -> codec unit) d d' (n : node A) :
  (forall a, f' a = wpm (f a) p /\ k_pm (f a) = k_pm c) -> match d with Next x => d' = Next (wpm x p) /\ k_pm x = k_pm c | Panic => d' = Panic | Err _ => True end ->
  pm_sim2 c p (lift f d n) (lift f' d' n).
Proof.
  intros F Dd. unfold lift, map_node. destruct n as [st cdf k|o|]; cbn [pm_sim2].
  - eexists. split; [reflexivity|]. intros v. cbn beta. destruct (k v) as [a|e|]; cbn [map_outcome]; auto. destruct (F a) as (-> & E). auto.
  - destruct o as [a|e|]; cbn [map_outcome pm_sim2]; auto. destruct (F a) as (-> & E). auto.
  - destruct d as [x|e|]; cbn [pm_sim2]; auto. destruct Dd as (-> & E). auto. rewrite Dd. reflexivity.
Qed.
Section Worker.
Context (wl : word_len_fn) (D : dims) (BIG : big D).
Notation TN := (top_node no_replayer wl D).
Lemma top_pm2 b l mx q r t p : ~ is_pm t -> pm_sim2 (K b l mx q r t) p (TN (K b l mx q r t)) (TN (K b l mx p r t)).
Proof.
  intros H. destruct t as [|s|s|s|s|s|s|u|cmd|]; try (contradiction H; exact Logic.I).
  - unfold top_node. cbn [k_st k_bk]. unfold code. destruct (prior_index _ _ _); cbn [pm_sim2]; [|reflexivity]. eexists. split; [reflexivity|]. intros v.
    unfold begin_command. repeat (destruct (_ =? _); [split; reflexivity|]). reflexivity.
  - apply (lift_pm2 (K b l mx q r (TLit s)) p (fun x => K (fst (fst x)) (snd (fst x)) mx q r (TLit (snd x))) (fun x => K (fst (fst x)) (snd (fst x)) mx p r (TLit (snd x)))); [intros a; split; reflexivity|split; reflexivity].
  - apply (lift_pm2 (K b l mx q r (TDict s)) p (fun x => kset (K b l mx q r (TDict s)) (fst x) (TDict (snd x))) (fun x => kset (K b l mx p r (TDict s)) (fst x) (TDict (snd x)))); [intros a; split; reflexivity|split; reflexivity].
  - apply (lift_pm2 (K b l mx q r (TCopy s)) p (fun x => kset (K b l mx q r (TCopy s)) (fst x) (TCopy (snd x))) (fun x => kset (K b l mx p r (TCopy s)) (fst x) (TCopy (snd x)))); [intros a; split; reflexivity|split; reflexivity].
  - assert (F : (exists t u, s = LbFully t u) \/ hstate (TBsl s)) by (destruct s; cbn; eauto). destruct F as [(t & u & ->)|F]; [split; reflexivity|].
    rewrite !top_bsl by exact F. apply lift_pm2; [intros a; split; reflexivity|reflexivity].
  - assert (F : (exists t, s = BtFully t) \/ hstate (TBsc s)) by (destruct s; cbn; eauto). destruct F as [(t & ->)|F]; [split; reflexivity|].
    rewrite !top_bsc by exact F. apply lift_pm2; [intros a; split; reflexivity|reflexivity].
  - assert (F : (exists t, s = BtFully t) \/ hstate (TBsd s)) by (destruct s; cbn; eauto). destruct F as [(t & ->)|F]; [split; reflexivity|].
    rewrite !top_bsd by exact F. apply lift_pm2; [intros a; split; reflexivity|reflexivity].
  - split; reflexivity.
  - reflexivity.
Qed.

(** ** How long a worker can go on without reading *)
Definition wrank (t : top) : nat :=
  match t with
  | TLit s => match l_sub s with LNibble _ | LLower _ _ | LFully => 2 | _ => rank t end
  | TBsl (LbFully _ _) | TPm PmFully => 2
  | _ => rank t
  end%nat.
Lemma wrank_le t : (wrank t <= 2)%nat.
Proof. clear. destruct t as [|s|s|s|s|s|s|u|cmd|]; cbn [wrank rank]; try lia; [destruct (l_sub s)|destruct (d_sub s)|destruct (c_sub s)|destruct s as [|[]| |]|destruct s|destruct s|destruct u]; lia. Qed.
Definition wquiet (t : top) (n : tnode unit) : Prop :=
  match n with NSilent (Next c') | NAdvance c' _ => (wrank (k_st c') < wrank t)%nat | _ => True end.
Lemma wquiet_code {A} t (f : A -> codec unit) d b c bl ix sp k : wquiet t (lift f d (code b c bl ix sp k)).
Proof. unfold lift, code. destruct (prior_index _ _ _); cbn [map_node wquiet map_outcome]; exact Logic.I. Qed.
Lemma wquiet_bt {A} t (f : _ -> A) (g : A -> codec unit) d b i s : (forall x, s <> BtFully x) -> wquiet t (lift g d (map_node f Panic (btype_node i b s))).
Proof. intros H. destruct s as [| | |y]; cbn [btype_node]; [| | |exfalso; exact (H y eq_refl)]; unfold lift, code; destruct (prior_index _ _ _); exact Logic.I. Qed.
Lemma w_quiet c : match k_st c with TPop _ => False | _ => True end -> wquiet (k_st c) (w_node wl D c).
Proof.
  unfold w_node, top_node. cbv zeta. destruct (k_st c) as [|s|s|s|s|s|s|u|cmd|] eqn:E; intros NP.
  - unfold code. destruct (prior_index _ _ _); exact Logic.I.
  - cbn [wrank]. destruct (l_sub s) eqn:ES; try (unfold wquiet; cbn [wrank rank kset k_st]; rewrite ES; lia);
      unfold lit_node; cbv zeta; rewrite ES; try apply wquiet_code.
    unfold lift; cbn [map_node wquiet map_outcome wrank rank kset k_st lset l_sub snd fst]; rewrite ?ES; lia.
  - unfold dict_node. cbv zeta. cbn [wrank rank]. destruct (d_sub s) eqn:ES; try apply wquiet_code; unfold lift; cbn [map_node wquiet map_outcome wrank rank kset k_st dset d_sub snd fst]; rewrite ?ES; lia.
  - unfold copy_node. cbv zeta. cbn [wrank rank]. destruct (c_sub s) eqn:ES; try apply wquiet_code; unfold lift; cbn [map_node wquiet map_outcome wrank rank kset k_st cset c_sub snd fst]; rewrite ?ES; lia.
  - destruct s as [|v|t|t st]; cbn [lbtype_node]; try apply wquiet_code.
    + unfold lift; cbn. lia.
    + destruct v; try (apply wquiet_bt; discriminate). unfold lift; cbn. lia.
    + cbn. lia.
  - destruct s; cbn [btype_node]; try apply wquiet_code. cbn. lia.
  - destruct s; cbn [btype_node]; try apply wquiet_code. cbn. lia.
  - destruct u; cbn [pm_node]; cbv zeta; try apply wquiet_code. cbn. lia.
  - contradiction NP.
  - exact Logic.I.
Qed.

(** ** States of the worker that reads arbitrary symbols; [P] is the prediction mode, or
    the last one if it is away *)
Definition pm_ok (p : predmode) : Prop := inv_pm D p /\ pm_nums p /\ has_speeds p = true.
Definition wtop (t : top) : Prop :=
  match t with
  | TPop (PredictionMode p) => pm_ok p
  | TLit s => lit_sane s /\ (past (l_sub s) -> l_data s = [] /\ l_sub s = LNibble 0)
  | t => top_sane D t
  end.
Record wok (c : codec unit) (P : predmode) : Prop := {
  wo_inv : inv adapted tame D (wpm c P);
  wo_dists : dists (k_bk c);
  wo_nums : pm_nums P;
  wo_top : wtop (k_st c);
  wo_pm : has_speeds (k_pm c) = true -> P = k_pm c }.
Lemma wok_sane c P : wok c P -> match k_st c with TPop _ => False | _ => True end -> sane D (wpm c P).
Proof.
  intros [I B N T _] NP. split; [exact I|]. split; [exact B|]. split; [exact N|]. cbn [wpm k_st]. destruct (k_st c); try exact T; [apply T|contradiction NP].
Qed.
Lemma sane_wok c P : sane D (wpm c P) -> cstate (k_st c) -> (has_speeds (k_pm c) = true -> P = k_pm c) -> wok c P.
Proof.
  intros (I & B & N & T) C H. constructor; try assumption. cbn [wpm k_st] in T. destruct (k_st c) as [| | | | | | | |cmd|]; try exact T.
  - split; [exact T|]. intros X. cbn [cstate] in C. destruct C as [C|C]; [contradiction|exact C].
  - destruct cmd; try exact T; contradiction C.
Qed.
(** the next state *)
Definition wnext (c c' : codec unit) : Prop :=
  (has_speeds (k_pm c') = has_speeds (k_pm c) /\ pop_pm (k_st c') = 0%nat /\ exists P, wok c' P) \/
  (has_speeds (k_pm c) = true /\ has_speeds (k_pm c') = false /\ pop_pm (k_st c') = 1%nat /\ wok c' (k_pm c)).
Definition wround (c : codec unit) (n : tnode unit) : Prop :=
  match n with
  | NCode _ d k => codable d /\ forall v, nibble v -> hazard c v = None -> match k v with Next c' => wnext c c' /\ has_speeds (k_pm c') = has_speeds (k_pm c) | Err _ => True | Panic => False end
  | NSilent (Next c') | NAdvance c' _ => wnext c c'
  | NSilent (Err _) => True
  | NSilent Panic | NEnd => False
  end.
Lemma SAFE0 : forall r c, sane_command D c -> rpop no_replayer r c <> Panic.
Proof. intros r c _ H. discriminate H. Qed.

Lemma tn_round c P : wok c P -> match k_st c with TPop _ | TEnd => False | _ => True end -> k_st c <> TPm PmFully -> (is_pm (k_st c) -> has_speeds (k_pm c) = true) ->
  match TN c with
  | NCode _ d k => codable d /\ forall v, nibble v -> hazard c v = None ->
      match k v with Next c' => (cstate (k_st c') -> (has_speeds (k_pm c) = false -> k_pm c' = k_pm c) /\ exists P', wok c' P') | Err _ => True | Panic => False end
  | NSilent (Next c') | NAdvance c' _ => (has_speeds (k_pm c) = false -> k_pm c' = k_pm c) /\ (cstate (k_st c') -> exists P', wok c' P')
  | NSilent (Err _) => True
  | NSilent Panic => False
  | NEnd => True
  end.
Proof.
  intros W NP NF IP.
  assert (S : sane D (wpm c P)) by (apply wok_sane; [exact W|destruct (k_st c); auto]).
  assert (WI : wild (wpm c P) = false) by (unfold wild; cbn [wpm k_st]; destruct (k_st c) as [| | | | | | |[]| |]; try reflexivity; contradiction NF; reflexivity).
  pose proof (round_safe no_replayer wl D BIG SAFE0 (wpm c P) S WI) as RO.
  assert (HZ : forall v, hazard (wpm c P) v = hazard c v) by reflexivity.
  assert (CASE : has_speeds (k_pm c) = true \/ has_speeds (k_pm c) = false) by (destruct (has_speeds (k_pm c)); auto). destruct CASE as [HP|HP].
  - rewrite (wo_pm c P W HP), wpm_same in RO. rewrite HP. unfold round_ok in RO. clear HZ.
    assert (Q : forall c', sane D c' -> cstate (k_st c') -> exists P', wok c' P').
    { intros c' S' C'. exists (k_pm c'). apply sane_wok; [rewrite wpm_same; exact S'|exact C'|reflexivity]. }
    destruct (TN c) as [st d k|[c'|e|]|c' x|]; try exact RO; try exact Logic.I.
    + destruct RO as (C & K). split; [exact C|]. intros v V H. specialize (K v (conj V H)). destruct (k v); try exact K; try exact Logic.I. intros CS. split; [discriminate|]. apply Q; assumption.
    + split; [discriminate|]. intros CS. apply Q; assumption.
    + split; [discriminate|]. intros CS. apply Q; [apply RO|assumption].
  - assert (NPM : ~ is_pm (k_st c)) by (intros X; rewrite (IP X) in HP; discriminate HP).
    assert (SIM : pm_sim2 c P (TN c) (TN (wpm c P))) by (destruct c; apply top_pm2; exact NPM). rewrite HP.
    assert (Q : forall c', k_pm c' = k_pm c -> sane D (wpm c' P) -> cstate (k_st c') -> exists P', wok c' P').
    { intros c' KP S' C'. exists P. apply sane_wok; [exact S'|exact C'|]. rewrite KP, HP. discriminate. }
    destruct (TN c) as [st d k|[c'|e|]|c' x|]; cbn [pm_sim2] in SIM; try exact Logic.I.
    + destruct SIM as (k' & E & KK). rewrite E in RO. destruct RO as (C & K). split; [exact C|]. intros v V H. specialize (K v (conj V H)). specialize (KK v). destruct (k v) as [c'|e|]; [| exact Logic.I|rewrite KK in K; exact K].
      destruct KK as (KK & KP). rewrite KK in K. intros CS. split; [auto|]. apply Q; assumption.
    + destruct SIM as (E & KP). rewrite E in RO. split; [auto|]. intros CS. apply Q; assumption.
    + rewrite SIM in RO. exact RO.
    + destruct SIM as (E & KP). rewrite E in RO. split; [auto|]. intros CS. apply Q; [exact KP|apply RO|exact CS].
Qed.
Lemma inv_state c P t : inv adapted tame D (wpm c P) -> inv_top D t P -> forall b, inv_bk adapted b -> inv adapted tame D (wpm (kset c b t) P).
Proof. intros [I1 I2 I3 I4 I5] IT b IB. constructor; cbn [wpm kset k_bk k_lbk k_mix k_pm k_rec k_st]; assumption. Qed.
Lemma w_round c P : wok c P -> match k_st c with TPop _ | TEnd => False | _ => True end -> (is_pm (k_st c) -> has_speeds (k_pm c) = true) ->
  wround c (w_node wl D c).
Proof.
  intros W NP IP. pose proof W as [I B N T PW].
  (* header states *)
  assert (HST : hstate (k_st c) -> wround c (TN c)).
  { intros H. pose proof (hstep wl D no_replayer c H) as V.
    assert (NF : k_st c <> TPm PmFully) by (intros X; rewrite X in H; exact H).
    pose proof (tn_round c P W NP NF IP) as R. unfold wround.
    destruct (TN c) as [st d k|[c'|e|]|c' x|]; cbn [viewed] in V; try contradiction; try exact R.
    - destruct R as (C & K). split; [exact C|]. intros v NV HZ. specialize (K v NV HZ). destruct V as (_ & k' & _ & KK). specialize (KK v). destruct (k v) as [c'|e|]; try exact K.
      destruct (KK c' eq_refl) as (_ & (_ & _ & _ & HS & CS)). destruct (K CS) as (_ & PP). split; [|exact HS]. left. split; [exact HS|]. split; [apply cstate_pop, CS|exact PP].
    - destruct V as (_ & (_ & _ & _ & HS & CS)). destruct R as (_ & R). left. split; [exact HS|]. split; [apply cstate_pop, CS|apply R, CS]. }
  assert (BT : forall t x, (k_st c = TBsc (BtFully x) \/ k_st c = TBsd (BtFully x)) -> TN c = t -> wround c t).
  { intros t x X <-. assert (NF : k_st c <> TPm PmFully) by (destruct X as [X|X]; rewrite X; discriminate).
    pose proof (tn_round c P W NP NF IP) as R. unfold top_node in R |- *. destruct X as [X|X]; rewrite X in R |- *; cbv zeta in R |- *; cbn [wround]; destruct R as (_ & R); (left; split; [reflexivity|]; split; [reflexivity|]; apply R; exact Logic.I). }
  unfold w_node. destruct (k_st c) as [|s|s|s|s|s|s|u|cmd|] eqn:E; try contradiction NP; try exact (HST Logic.I).
  - cbn [wtop] in T. destruct T as (T1 & T2).
    assert (PAST : past (l_sub s) -> wround c (NSilent (Next (kset c (k_bk c) (TPop (Literal (repeat 0 (Z.to_nat (l_len s))) (l_high_entropy s))))))).
    { intros X. destruct (T2 X) as (T3 & T4). unfold lit_sane in T1. rewrite T4, T3 in T1. destruct T1 as (_ & _ & T1). unfold LMAX in T1.
      left. split; [reflexivity|]. split; [reflexivity|]. exists P. constructor; try assumption.
      - apply inv_state; [exact I|exact Logic.I|apply I].
      - cbn [wtop kset k_st top_sane sane_command]. split; [apply Forall_forall; intros y Y; apply repeat_spec in Y; subst y; unfold byte; lia|]. unfold zlen. rewrite repeat_length. lia. }
    destruct (l_sub s) eqn:ES; try (apply PAST; exact Logic.I); apply HST; cbn [hstate]; rewrite ES; exact Logic.I.
  - destruct s as [|v|t|t st]; try (apply HST; exact Logic.I).
    assert (NF : k_st c <> TPm PmFully) by (rewrite E; discriminate). assert (NP' : match k_st c with TPop _ | TEnd => False | _ => True end) by (rewrite E; exact Logic.I).
    assert (IP' : is_pm (k_st c) -> has_speeds (k_pm c) = true) by (rewrite E; exact IP).
    pose proof (tn_round c P W NP' NF IP') as R. unfold top_node in R. rewrite E in R. cbv zeta in R. destruct R as (_ & R). destruct (R Logic.I) as (P' & W').
    left. split; [reflexivity|]. split; [reflexivity|]. exists P. constructor.
    + apply inv_state; [exact I|exact Logic.I|]. exact (ic_bk _ _ _ _ (wo_inv _ _ W')).
    + exact (wo_dists _ _ W').
    + exact N.
    + pose proof (ic_top _ _ _ _ I) as IT. cbn [wpm k_st] in IT. rewrite E in IT. cbn [inv_top] in IT. exact IT.
    + exact PW.
  - assert (F : (exists t, s = BtFully t) \/ hstate (TBsc s)) by (destruct s; cbn; eauto). destruct F as [(t & ->)|F]; [|exact (HST F)]. eapply BT; [left; reflexivity|reflexivity].
  - assert (F : (exists t, s = BtFully t) \/ hstate (TBsd s)) by (destruct s; cbn; eauto). destruct F as [(t & ->)|F]; [|exact (HST F)]. eapply BT; [right; reflexivity|reflexivity].
  - destruct u; try (apply HST; exact Logic.I). pose proof (IP Logic.I) as HP. pose proof (PW HP) as ->.
    right. split; [exact HP|]. split; [reflexivity|]. split; [reflexivity|]. constructor.
    + destruct I as [I1 I2 I3 I4 I5]. constructor; cbn [wpm kset_pm k_bk k_lbk k_mix k_pm k_rec k_st]; try assumption; exact Logic.I.
    + exact B.
    + exact N.
    + cbn [wtop kset_pm k_st]. split; [exact (ic_pm _ _ _ _ I)|]. split; [exact N|exact HP].
    + discriminate.
Qed.
End Worker.
