(** C31: prior lookups stay inside their table and distinct contexts never share a prior. *)
From Verif Require Import Prelude ModelPriors.

(** an index tuple with the right number of coordinates, each within its dimension *)
Definition fits (ix dims : list Z) : Prop := Forall2 (fun i d => 0 <= i < d) ix dims.

Lemma linearize_total dims : forall ix, fits ix dims -> exists k, linearize dims ix = Some k /\ 0 <= k < product dims.
Proof.
  induction dims as [|d dims IH]; intros ix F; inversion F as [|i d' ix' dims' Hi F']; subst.
  - exists 0. split; [reflexivity|]. unfold product. cbn. lia.
  - destruct (IH ix' F') as (k & E & K). exists (i + d * k). cbn [linearize].
    destruct (Z.leb_spec 0 i); [|lia]. destruct (Z.ltb_spec i d); [|lia]. cbn [andb]. unfold assert. rewrite E. cbn [bind].
    split; [reflexivity|]. change (product (d :: dims)) with (d * product dims). nia.
Qed.
Lemma linearize_fits dims : forall ix k, linearize dims ix = Some k -> fits ix dims.
Proof.
  induction dims as [|d dims IH]; intros [|i ix] k E; cbn [linearize] in E; try discriminate; [constructor|].
  unfold assert in E. destruct (Z.leb_spec 0 i); [|discriminate]. destruct (Z.ltb_spec i d); [|discriminate]. cbn [andb] in E.
  destruct (linearize dims ix) as [r|] eqn:R; [|discriminate]. constructor; [lia|]. exact (IH _ _ R).
Qed.
Lemma linearize_inj dims : forall ix ix' k, linearize dims ix = Some k -> linearize dims ix' = Some k -> ix = ix'.
Proof.
  induction dims as [|d dims IH]; intros [|i ix] [|i' ix'] k E E'; cbn [linearize] in E, E'; try discriminate; [reflexivity|].
  unfold assert in E, E'. destruct (Z.leb_spec 0 i); [|discriminate]. destruct (Z.ltb_spec i d); [|discriminate]. cbn [andb] in E.
  destruct (Z.leb_spec 0 i'); [|discriminate]. destruct (Z.ltb_spec i' d); [|discriminate]. cbn [andb] in E'.
  destruct (linearize dims ix) as [r|] eqn:R; [|discriminate]. destruct (linearize dims ix') as [r'|] eqn:R'; [|discriminate].
  cbn [bind] in E, E'. assert (i = i' /\ r = r') as (-> & ->).
  { assert (EQ : i + d * r = i' + d * r') by congruence. clear -EQ H H0 H1 H2. assert (r = r') by nia. subst r'. split; lia. }
  f_equal. exact (IH _ _ _ R R').
Qed.
Definition positive (lay : list (billing * list Z)) : Prop := Forall (fun e => 0 < product (snd e)) lay.
Lemma num_all_nonneg lay : positive lay -> 0 <= num_all lay.
Proof. induction 1; cbn in *; unfold num_all in *; cbn in *; lia. Qed.
Lemma billing_beq_eq x y : billing_beq x y = true <-> x = y.
Proof. split; [apply internal_billing_dec_bl|apply internal_billing_dec_lb]. Qed.

Lemma collapse_cons t dims e rest b ix :
  collapse ((t, dims) :: e :: rest) b ix =
  if billing_beq b t then linearize dims ix else let? r := collapse (e :: rest) b ix in Some (product dims + r).
Proof. reflexivity. Qed.
Lemma num_all_cons t dims rest : num_all ((t, dims) :: rest) = product dims + num_all rest.
Proof. reflexivity. Qed.
Lemma collapse_total lay : positive lay -> NoDup (map fst lay) -> forall b dims ix, In (b, dims) lay -> fits ix dims ->
  exists k, collapse lay b ix = Some k /\ 0 <= k < num_all lay.
Proof.
  induction lay as [|(t, d) lay IH]; intros P N b dims ix I F; [destruct I|].
  pose proof (num_all_nonneg lay (Forall_inv_tail P)) as NN. rewrite num_all_cons.
  destruct lay as [|e lay].
  - destruct I as [[= -> ->]|[]]. destruct (linearize_total dims ix F) as (k & E & K). exists k. cbn [collapse]. split; [exact E|lia].
  - rewrite collapse_cons. destruct (billing_beq b t) eqn:B.
    + apply billing_beq_eq in B. subst t. destruct I as [[= ->]|I].
      * destruct (linearize_total dims ix F) as (k & E & K). exists k. split; [exact E|lia].
      * exfalso. inversion N as [|? ? NI _]; subst. apply NI. exact (in_map fst _ _ I).
    + destruct I as [[= -> ->]|I]; [exfalso; rewrite (proj2 (billing_beq_eq b b) eq_refl) in B; discriminate|].
      destruct (IH (Forall_inv_tail P) ltac:(inversion N; assumption) b dims ix I F) as (k & E & K).
      rewrite E. cbn [bind]. exists (product d + k). pose proof (Forall_inv P). cbn [snd] in *. split; [reflexivity|lia].
Qed.
Lemma collapse_fits lay : NoDup (map fst lay) -> forall b dims ix k, In (b, dims) lay -> collapse lay b ix = Some k ->
  fits ix dims.
Proof.
  induction lay as [|(t, d) lay IH]; intros N b dims ix k I E; [destruct I|].
  destruct lay as [|e lay].
  - destruct I as [[= -> ->]|[]]. exact (linearize_fits _ _ _ E).
  - rewrite collapse_cons in E. destruct (billing_beq b t) eqn:B.
    + apply billing_beq_eq in B. subst t. destruct I as [[= ->]|I]; [exact (linearize_fits _ _ _ E)|].
      exfalso. inversion N as [|? ? NI _]; subst. apply NI. exact (in_map fst _ _ I).
    + destruct I as [[= -> ->]|I]; [exfalso; rewrite (proj2 (billing_beq_eq b b) eq_refl) in B; discriminate|].
      destruct (collapse (e :: lay) b ix) as [r|] eqn:R; [|discriminate].
      exact (IH ltac:(inversion N; assumption) b dims ix r I R).
Qed.
Lemma collapse_inj lay : positive lay -> NoDup (map fst lay) -> forall b dims ix b' dims' ix' k,
  In (b, dims) lay -> In (b', dims') lay -> collapse lay b ix = Some k -> collapse lay b' ix' = Some k -> b = b' /\ ix = ix'.
Proof.
  induction lay as [|(t, d) lay IH]; intros P N b dims ix b' dims' ix' k I I' E E'; [destruct I|].
  destruct lay as [|e lay].
  - destruct I as [[= -> ->]|[]]. destruct I' as [[= -> ->]|[]]. split; [reflexivity|]. exact (linearize_inj _ _ _ _ E E').
  - rewrite collapse_cons in E, E'. assert (NT : forall x ds, In (x, ds) (e :: lay) -> x <> t).
    { intros x ds J ->. inversion N as [|? ? NI _]; subst. apply NI. exact (in_map fst _ _ J). }
    pose proof (Forall_inv_tail P) as PT. assert (N' : NoDup (map fst (e :: lay))) by (inversion N; assumption).
    assert (LT : forall x ds y r, In (x, ds) (e :: lay) -> collapse (e :: lay) x y = Some r -> 0 <= r).
    { intros x ds y r J R. pose proof (collapse_fits _ N' _ _ _ _ J R) as F. destruct (collapse_total _ PT N' _ _ _ J F) as (r' & R' & ?). rewrite R in R'. injection R' as <-. lia. }
    assert (LD : forall x y, linearize d x = Some y -> 0 <= y < product d).
    { intros x y L. destruct (linearize_total d x (linearize_fits _ _ _ L)) as (y' & L' & ?). rewrite L in L'. injection L' as <-. lia. }
    destruct (billing_beq b t) eqn:B; destruct (billing_beq b' t) eqn:B'.
    + apply billing_beq_eq in B, B'. subst. split; [reflexivity|]. exact (linearize_inj _ _ _ _ E E').
    + exfalso. destruct (collapse (e :: lay) b' ix') as [r|] eqn:R; [|discriminate]. cbn [bind] in E'. injection E' as <-.
      destruct I' as [[= -> ->]|I']; [rewrite (proj2 (billing_beq_eq _ _) eq_refl) in B'; discriminate|].
      pose proof (LT _ _ _ _ I' R). pose proof (LD _ _ E). lia.
    + exfalso. destruct (collapse (e :: lay) b ix) as [r|] eqn:R; [|discriminate]. cbn [bind] in E. injection E as <-.
      destruct I as [[= -> ->]|I]; [rewrite (proj2 (billing_beq_eq _ _) eq_refl) in B; discriminate|].
      pose proof (LT _ _ _ _ I R). pose proof (LD _ _ E'). lia.
    + destruct I as [[= -> ->]|I]; [rewrite (proj2 (billing_beq_eq _ _) eq_refl) in B; discriminate|].
      destruct I' as [[= -> ->]|I']; [rewrite (proj2 (billing_beq_eq _ _) eq_refl) in B'; discriminate|].
      destruct (collapse (e :: lay) b ix) as [r|] eqn:R; [|discriminate]. destruct (collapse (e :: lay) b' ix') as [r'|] eqn:R'; [|discriminate].
      cbn [bind] in E, E'. assert (r = r') by (injection E; injection E'; intros; lia). subst r'.
      exact (IH PT N' _ _ _ _ _ _ _ I I' R R').
Qed.
Lemma layout_ok c : positive (layout c) /\ NoDup (map fst (layout c)).
Proof.
  split.
  - destruct c; repeat constructor.
  - destruct c; cbn; repeat constructor; cbn; intuition discriminate.
Qed.

(** Every lookup with in-range coordinates succeeds and lands inside the table ... *)
Theorem C31_lookup_in_table : forall table kind dims ix, In (kind, dims) (layout table) -> fits ix dims ->
  exists k, prior_index table kind ix = Some k /\ 0 <= k < num_all (layout table).
Proof.
  intros c b dims ix I F. destruct (layout_ok c) as (P & N). destruct (collapse_total _ P N _ _ _ I F) as (k & E & K).
  exists k. unfold prior_index. rewrite E. cbn [bind]. unfold assert. destruct (Z.ltb_spec k (num_all (layout c))); [|lia]. split; [reflexivity|lia].
Qed.
(** ... out-of-range coordinates or a wrong number of them are caught ... *)
Theorem C31_lookup_checked : forall table kind dims ix k, In (kind, dims) (layout table) ->
  prior_index table kind ix = Some k -> fits ix dims.
Proof.
  intros c b dims ix k I E. unfold prior_index in E. destruct (collapse (layout c) b ix) as [r|] eqn:R; [|discriminate].
  exact (collapse_fits _ (proj2 (layout_ok c)) _ _ _ _ I R).
Qed.
(** ... and two different contexts of the same table never share a distribution. *)
Theorem C31_lookup_injective : forall table kind dims ix kind' dims' ix' k,
  In (kind, dims) (layout table) -> In (kind', dims') (layout table) ->
  prior_index table kind ix = Some k -> prior_index table kind' ix' = Some k -> kind = kind' /\ ix = ix'.
Proof.
  intros c b dims ix b' dims' ix' k I I' E E'. unfold prior_index in E, E'.
  destruct (collapse (layout c) b ix) as [r|] eqn:R; [|discriminate]. destruct (collapse (layout c) b' ix') as [r'|] eqn:R'; [|discriminate].
  cbn [bind] in E, E'. unfold assert in E, E'. destruct (r <? num_all (layout c)); [|discriminate]. destruct (r' <? num_all (layout c)); [|discriminate].
  injection E as <-. injection E' as <-. destruct (layout_ok c) as (P & N). exact (collapse_inj _ P N _ _ _ _ _ _ _ I I' R R').
Qed.
Example C31_case : prior_index CopyP CountSmall [200; 17] = Some (256 * 64 + 256 * 2 + 256 * 1 + 256 * 5 + 200 + 256 * 17) /\ fits [200; 17] [256; 64].
Proof. split; [reflexivity|]. repeat constructor; lia. Qed.
(** Finding: two kinds of prediction-mode priors are used but missing from their table;
    the lookup then silently uses the distribution of another kind (encoder and decoder
    alike, so only compression is affected). *)
Theorem C31_unlisted_kinds_alias_refuted :
  prior_index PredP PmDynamicContextMixingSpeed [0] = prior_index PredP PmContextMapSpeedPalette [0] /\
  prior_index PredP PmPriorDepth [0] = prior_index PredP PmContextMapSpeedPalette [0] /\
  exists k, prior_index PredP PmPriorDepth [0] = Some k.
Proof. split; [reflexivity|split; [reflexivity|]]. eexists. reflexivity. Qed.

Print Assumptions C31_lookup_in_table.
Print Assumptions C31_lookup_checked.
Print Assumptions C31_lookup_injective.
Print Assumptions C31_unlisted_kinds_alias_refuted.
