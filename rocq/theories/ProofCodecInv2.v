(** Preservation of the coder invariant, continued: prediction mode and command loop. *)
From Verif Require SpecCodec.
From Verif Require Import Prelude ModelAns ModelCdf ProofCdf ModelMux ProofZlist ModelCmd ModelPriors ModelContextLut ModelCodec ModelLit ModelPm ModelTop ThmPriors ProofCodecInv.

Definition code7 (p : Z * Z) : Prop := 0 <= fst p < 128 /\ 0 <= snd p < 128.
Notation big := SpecCodec.big.
Record inv_pm (D : dims) (p : predmode) : Prop := {
  ip_lit : Forall byte (lit_map p) /\ zlen (lit_map p) = n_lit D;
  ip_dist : Forall byte (dist_map p) /\ zlen (dist_map p) = n_dist D;
  ip_mix : Forall nibble (mixing p) /\ zlen (mixing p) = n_mix D;
  ip_mode : 0 <= pm_mode p < 16 }.
Definition inv_pms (D : dims) (u : pm_sub) : Prop :=
  match u with
  | PmAdapt index out _ => 0 <= index < 16 /\ Forall code7 out /\ zlen out = 4
  | PmMnem index _ _ | PmFirst index _ _ => 0 <= index
  | PmSecond index _ msn _ => 0 <= index /\ nibble msn
  | PmMixing index _ => 0 <= index < n_mix D
  | _ => True
  end.
Lemma inv_pm_new D : 0 <= n_lit D -> 0 <= n_dist D -> 0 <= n_mix D -> inv_pm D (pm_new D).
Proof.
  intros A B C. split; unfold pm_new; cbn [lit_map dist_map mixing pm_mode]; try lia;
  (split; [apply Forall_forall; intros x Hx; apply repeat_spec in Hx; subst x; (exact byte0 || exact nibble0)|]);
  unfold zlen; rewrite repeat_length; lia.
Qed.
Lemma u8_some c : 0 <= c < 128 -> exists v, u8_to_speed c = Some v.
Proof.
  intros C. unfold u8_to_speed. destruct (c <? 8); [eauto|]. cbv zeta. unfold assert.
  rewrite Z.shiftr_div_pow2 by lia. change (2 ^ 3) with 8. destruct (Z.ltb_spec (c / 8 - 1) 16); [eauto|lia].
Qed.
Lemma store_speed_some p : code7 p -> exists q, store_speed p = Some q.
Proof.
  intros (A & B). unfold store_speed. destruct (u8_some _ A) as (x & ->), (u8_some _ B) as (y & ->). cbn [bind]. eauto.
Qed.
Lemma adapt_store_ok out index v : 0 <= index < 16 -> Forall code7 out -> zlen out = 4 -> nibble v ->
  Forall code7 (adapt_store out index v) /\ zlen (adapt_store out index v) = 4.
Proof.
  intros I F L V. unfold adapt_store. cbv zeta.
  assert (Z00 : code7 (0, 0)) by (split; cbn; lia).
  pose proof (Forall_nth_pair code7 out (Z.shiftr index 2) F Z00) as (X & Y).
  destruct (nth_pair out (Z.shiftr index 2)) as (x, y). cbn [fst snd] in X, Y.
  assert (S : 0 <= Z.shiftr index 2 < 4) by (rewrite Z.shiftr_div_pow2 by lia; change (2 ^ 2) with 4; lia).
  unfold nibble in V.
  assert (V3 : 0 <= Z.shiftl v 3 mod 256 < 128).
  { rewrite Z.shiftl_mul_pow2 by lia. change (2 ^ 3) with 8. lia. }
  assert (J : forall a b, 0 <= a < 128 -> 0 <= b < 128 -> 0 <= Z.lor a b < 128) by (intros; apply (lor_range _ _ 7); lia).
  split; [|rewrite upd_length; [exact L|lia]]. apply Forall_upd; [|exact F].
  destruct (Z.land index 3 =? 0); [|destruct (Z.land index 3 =? 1); [|destruct (Z.land index 3 =? 2)]]; split; cbn [fst snd]; try assumption; apply J; lia.
Qed.
Lemma index_of_lt v l i : index_of v l = Some i -> (i < length l)%nat.
Proof.
  revert i. induction l as [|x l IH]; intros i E; cbn [index_of] in E; [discriminate|].
  destruct (x =? v); [injection E as <-; cbn; lia|]. destruct (index_of v l) as [j|]; [|discriminate].
  injection E as <-. specialize (IH j eq_refl). cbn [length]. lia.
Qed.
Lemma lru_touch_ok l v : Forall byte l -> zlen l = 13 -> byte v -> Forall byte (lru_touch l v) /\ zlen (lru_touch l v) = 13.
Proof.
  intros F L V. unfold lru_touch, zlen in *. destruct (index_of v l) as [i|] eqn:E.
  - pose proof (index_of_lt _ _ _ E). split.
    + constructor; [exact V|]. apply Forall_app. split; [apply Forall_firstn; exact F|]. apply Forall_skipn. exact F.
    + cbn [length]. rewrite app_length, firstn_length, skipn_length. lia.
  - split; [constructor; [exact V|apply Forall_firstn; exact F]|]. cbn [length]. rewrite firstn_length. lia.
Qed.
Lemma reset_ok : Forall byte lru_reset /\ zlen lru_reset = 13.
Proof. split; [|reflexivity]. repeat constructor; unfold byte; lia. Qed.
Lemma pm_store_ok D p distance index v q : inv_pm D p -> 0 <= index -> byte v -> pm_store p distance index v = Some q -> inv_pm D q.
Proof.
  intros [(L1&L2) (D1&D2) M O] I V E. unfold pm_store in E. destruct distance.
  - destruct (Z.ltb_spec index (zlen (dist_map p))); [|discriminate]. injection E as <-.
    split; cbn [pm_set_dist lit_map dist_map mixing pm_mode]; try assumption; [split; assumption|].
    split; [apply Forall_upd; assumption|rewrite upd_length; [assumption|lia]].
  - destruct (Z.ltb_spec index (zlen (lit_map p))); [|discriminate]. injection E as <-.
    split; cbn [pm_set_lit lit_map dist_map mixing pm_mode]; try assumption; [|split; assumption].
    split; [apply Forall_upd; assumption|rewrite upd_length; [assumption|lia]].
Qed.

Section Inv2.
Variable P : list Z -> Prop.
Variable SP : Z * Z -> Prop.
Hypothesis P0 : P cdf_default.
Hypothesis Pblend : forall c v sp, P c -> nibble v -> SP sp -> P (blend c v (fst sp) (snd sp)).
Hypothesis SPpos : forall inc, 0 <= inc <= 384 -> forall lim, 0 <= lim <= 16384 -> SP (inc, lim).
Notation inv_bk := (inv_bk P). Notation inv_lbk := (inv_lbk P SP). Notation node_ok := (node_ok P).

Lemma obs_cmap_ok b distance index v q : inv_bk b -> 0 <= index -> byte v -> obs_context_map b distance index v = Some q -> inv_bk q.
Proof.
  intros I X V E. unfold obs_context_map in E. cbv zeta in E.
  destruct (lru_touch_ok _ v (proj1 (ib_lru _ _ I)) (proj2 (ib_lru _ _ I)) V) as (T1 & T2).
  pose proof (inv_clru P b _ I T1 T2) as J. destruct distance; cbn [negb] in E.
  - set (b' := set_cmap_lru b (lru_touch (cmap_lru b) v)) in *. destruct (Z.ltb_spec index (zlen (distance_context_map b'))); [|discriminate].
    injection E as <-. destruct (ib_dcm _ _ J) as (F & L). apply inv_dcm_set; [exact J|apply Forall_upd; assumption|rewrite upd_length; [exact L|split; [exact X|exact H]]].
  - injection E as <-. exact J.
Qed.
Lemma inv_reset b : inv_bk b -> inv_bk (reset_dcm (set_cmap_lru b lru_reset)).
Proof.
  intros I. destruct reset_ok as (R1 & R2). pose proof (inv_clru P b _ I R1 R2) as J. unfold reset_dcm.
  apply inv_dcm_set; [exact J| |].
  - apply Forall_forall. intros x Hx. apply in_map_iff in Hx. destruct Hx as (n & <- & _). pose proof (land3 (Z.of_nat n)). unfold byte. lia.
  - unfold zlen. rewrite map_length, seq_length. exact (proj2 (ib_dcm _ _ I)).
Qed.
Definition Qpm (D : dims) (q : bk * pm_st) : Prop := inv_bk (fst q) /\ inv_pm D (fst (snd q)) /\ inv_pms D (snd (snd q)).
Ltac by_code := apply code_ok with (SP := SP); [exact Pblend|assumption|apply SPpos; lia| |].
Lemma lru_next_byte l : byte (lru_next l).
Proof. unfold lru_next, byte. apply Z.mod_pos_bound. lia. Qed.
Lemma pm_node_ok D b p u : 0 < n_mix D -> inv_bk b -> inv_pm D p -> inv_pms D u -> node_ok (Qpm D) (pm_node D b (p, u)).
Proof.
  intros NM I J K. destruct u as [| |cb|index out cb|index ds cb|index ds cb|index ds msn cb|index cb|]; cbn [pm_node inv_pms] in *.
  - cbv zeta. pose proof (inv_reset b I) as I2. by_code.
    + eapply lookup_some; [cbn; left; reflexivity|]. fits_tac; lia.
    + intros b' v I' V. split; [exact I'|]. split; [|exact Logic.I]. destruct J. split; try assumption.
  - by_code.
    + eexists. reflexivity.
    + intros b' v I' V. split; [exact I'|]. split; [|exact Logic.I]. destruct J. split; try assumption.
  - by_code.
    + eexists. reflexivity.
    + intros b' v I' V. split; [exact I'|]. split; [exact J|]. cbn [snd inv_pms]. split; [lia|]. split; [|reflexivity]. repeat constructor; cbn; lia.
  - by_code.
    + eapply lookup_some; [cbn; do 6 right; left; reflexivity|]. fits_tac. apply land3.
    + intros b' v I' V. destruct K as (K1 & K2 & K3). destruct (adapt_store_ok out index v K1 K2 K3 V) as (A1 & A2). cbv zeta. set (out' := adapt_store out index v) in *.
      destruct (Z.eqb_spec (index + 1) 16).
      * assert (Z00 : code7 (0, 0)) by (split; cbn; lia).
        destruct (store_speed_some _ (Forall_nth_pair code7 out' 0 A1 Z00)) as (s0 & ->).
        destruct (store_speed_some _ (Forall_nth_pair code7 out' 1 A1 Z00)) as (s1 & ->).
        destruct (store_speed_some _ (Forall_nth_pair code7 out' 2 A1 Z00)) as (s2 & ->).
        destruct (store_speed_some _ (Forall_nth_pair code7 out' 3 A1 Z00)) as (s3 & ->).
        split; [exact I'|]. split; [|cbn; lia]. destruct J. split; assumption.
      * split; [exact I'|]. split; [exact J|]. cbn [snd inv_pms]. split; [lia|]. split; assumption.
  - by_code.
    + eapply lookup_some; [cbn; do 4 right; left; reflexivity|]. fits_tac. destruct ds; cbn; lia.
    + intros b' v I' V. destruct (Z.eqb_spec v 14); [|destruct (Z.eqb_spec v 15)].
      * destruct ds; (split; [|split; [exact J|cbn; lia]]); cbn [fst]; [exact I'|]. apply inv_clru; [exact I'|apply reset_ok|reflexivity].
      * split; [exact I'|]. split; [exact J|exact K].
      * cbv zeta. set (x := if v =? 13 then lru_next (cmap_lru b') else znth (cmap_lru b') v).
        assert (X : byte x) by (unfold x; destruct (v =? 13); [apply lru_next_byte|exact (Forall_znth byte _ _ (proj1 (ib_lru _ _ I')) byte0)]).
        destruct (obs_context_map b' ds index x) as [b2|] eqn:E1; [|exact Logic.I].
        destruct (pm_store p ds index x) as [p2|] eqn:E2; [|exact Logic.I].
        split; [exact (obs_cmap_ok _ _ _ _ _ I' K X E1)|]. split; [exact (pm_store_ok _ _ _ _ _ _ J K X E2)|]. cbn. lia.
  - by_code.
    + eapply lookup_some; [cbn; do 2 right; left; reflexivity|]. fits_tac. destruct ds; cbn; lia.
    + intros b' v I' V. split; [exact I'|]. split; [exact J|]. split; [exact K|exact V].
  - destruct K as (K & M). by_code.
    + eapply lookup_some; [cbn; do 3 right; left; reflexivity|]. fits_tac. destruct ds; cbn; lia.
    + intros b' v I' V. cbv zeta. set (x := Z.lor (Z.shiftl msn 4) v). assert (X : byte x) by (apply nib_join; assumption).
      destruct (pm_store p ds index x) as [p2|] eqn:E2; [|exact Logic.I].
      destruct (obs_context_map b' ds index x) as [b2|] eqn:E1; [|exact Logic.I].
      split; [exact (obs_cmap_ok _ _ _ _ _ I' K X E1)|]. split; [exact (pm_store_ok _ _ _ _ _ _ J K X E2)|]. cbn. lia.
  - by_code.
    + eapply lookup_some; [cbn; do 5 right; left; reflexivity|]. fits_tac. destruct ((256 <=? index) && has_speeds p); [|lia].
      pose proof (land15 (znth (mixing p) (index - 256))). lia.
    + intros b' v I' V. destruct J as [J1 J2 (J3 & J4) J5]. destruct (Z.ltb_spec index (zlen (mixing p))); [|lia].
      cbv zeta. split; [exact I'|]. split.
      * split; cbn [fst snd pm_set_mixing lit_map dist_map mixing pm_mode]; try assumption.
        split; [apply Forall_upd; assumption|rewrite upd_length; [assumption|lia]].
      * cbn [snd]. destruct (Z.eqb_spec (index + 1) (n_mix D)); cbn [inv_pms]; [exact Logic.I|lia].
  - exact Logic.I.
Qed.
(** what the decoded speeds must satisfy for the literal coder to go on *)
Definition speeds_good (p : predmode) : Prop :=
  exists s0 s1 s2 s3, speed_of_f8 (nth_pair (stride_f8 p) 0) = Some s0 /\ speed_of_f8 (nth_pair (stride_f8 p) 1) = Some s1 /\
    speed_of_f8 (nth_pair (cm_f8 p) 0) = Some s2 /\ speed_of_f8 (nth_pair (cm_f8 p) 1) = Some s3 /\
    SP s0 /\ SP s1 /\ SP s2 /\ SP s3.
Lemma obs_pm_ok D l p : big D -> inv_lbk l -> inv_pm D p -> speeds_good p ->
  match obs_prediction_mode l p with
  | Next l' => pm_mode p < 4 /\ inv_lbk l' /\ inv_mix (should_mix (wt_low l') || should_mix (wt_high l')) l'
  | Err _ => 4 <= pm_mode p
  | Panic => False end.
Proof.
  intros (B1 & B2 & B3) L J (s0 & s1 & s2 & s3 & E0 & E1 & E2 & E3 & S0 & S1 & S2 & S3). unfold obs_prediction_mode.
  destruct (Z.ltb_spec (pm_mode p) 4); cbn [negb]; [|assumption]. rewrite E0, E1, E2, E3.
  split; [assumption|]. destruct L, J. split.
  - split; cbn [lpriors lit_cmap btype_last lit_mode lit_adapt mixing_mask wt_low wt_high]; try assumption.
    + split; [tauto|lia].
    + lia.
    + split; [repeat constructor; assumption|reflexivity].
    + split; [tauto|lia].

  - unfold inv_mix, should_mix, set_mixing_param. cbn [wt_low wt_high mixing_param]. rewrite orb_diag. tauto.
Qed.

Section Loop.
Context {R : Type} (RR : replayer R) (wl : word_len_fn) (D : dims).
Hypothesis BIG : big D.
Definition inv_top (t : top) (p : predmode) : Prop :=
  match t with
  | TLit s => inv_lit s | TDict s => inv_dict s | TCopy s => inv_copy s | TBsl s => inv_lbt s
  | TBsc s | TBsd s => inv_bt s | TPm u => inv_pms D u | _ => True
  end.
Record inv (c : codec R) : Prop := {
  ic_bk : inv_bk (k_bk c); ic_lbk : inv_lbk (k_lbk c); ic_mix : inv_mix (k_mix c) (k_lbk c);
  ic_pm : inv_pm D (k_pm c); ic_top : inv_top (k_st c) (k_pm c) }.
Lemma inv_codec_new r : inv (codec_new D r).
Proof.
  split; unfold codec_new; cbn [k_bk k_lbk k_mix k_pm k_st]; [apply inv_bk_new; assumption|apply inv_lbk_new; assumption| | |exact Logic.I].
  - split; reflexivity.
  - destruct BIG as (? & ? & ?). apply inv_pm_new; lia.
Qed.
Definition tnode_ok (n : tnode R) : Prop :=
  match n with
  | NCode st d k => src_ok P d /\ forall v, nibble v -> oc_ok inv (k v)
  | NSilent (Next c) => inv c
  | NSilent (Err _) => True
  | NSilent Panic => False
  | NAdvance c cmd => inv c
  | NEnd => True
  end.
Lemma lift_ok {A} (f : A -> codec R) d n (QA : A -> Prop) : (forall a, QA a -> inv (f a)) -> n <> Done \/ oc_ok inv d ->
  node_ok QA n -> tnode_ok (lift f d n).
Proof.
  intros F Dn N. pose proof (map_node_ok P f QA inv d n F Dn N) as M. unfold lift.
  destruct (map_node f d n) as [st c k|[]|] eqn:E; cbn in *; try assumption.
  destruct n as [|o|]; cbn in E; [discriminate|destruct o; discriminate|discriminate].
Qed.
Lemma begin_ok c b v : inv c -> inv_bk b -> oc_ok inv (begin_command c b v).
Proof.
  intros [? ? ? ? ?] I. unfold begin_command.
  repeat match goal with |- context[v =? ?n] => destruct (v =? n); [cbn [oc_ok]; split; cbn [kset k_bk k_lbk k_mix k_pm k_st inv_top]; try assumption; try exact Logic.I|] end; try exact Logic.I.
  - apply inv_obs_copy; assumption.
  - exact inv_copy_begin.
  - apply inv_obs_dict; assumption.
  - apply inv_obs_literal; assumption.
Qed.
(** the situations excluded: a hostile length code, unusable speeds, and a failing replay *)
Definition excl (c : codec R) : Prop :=
  match k_st c with
  | TCopy s => c_sub s <> CCountGreater18
  | TPm PmFully => speeds_good (k_pm c)
  | TPop cmd => rpop RR (k_rec c) cmd <> Panic
  | _ => True
  end.
Lemma top_node_ok c : inv c -> excl c -> tnode_ok (top_node RR wl D c).
Proof.
  intros IC X. pose proof IC as [I L M J K]. unfold top_node. cbv zeta. unfold excl in X. destruct (k_st c) as [|s|s|s|s|s|s|u|cmd|] eqn:E; cbn [inv_top] in K.
  - pose proof (code_ok P SP Pblend inv (k_bk c) CcP FullSelection [Z.shiftr (last_4_states (k_bk c)) 4; 0] ROCKET (fun b v => begin_command c b v) I) as N.
    assert (N' : node_ok inv (code (k_bk c) CcP FullSelection [Z.shiftr (last_4_states (k_bk c)) 4; 0] ROCKET (fun b v => begin_command c b v))).
    { apply N; [apply SPpos; lia| |intros; apply begin_ok; assumption].
      eapply lookup_some; [cbn; left; reflexivity|]. fits_tac; [|lia].
      exact (shiftr_range _ 8 4 ltac:(lia) (ib_st _ _ I) ltac:(lia)). }
    clear N. pose proof (code_not_done (k_bk c) CcP FullSelection [Z.shiftr (last_4_states (k_bk c)) 4; 0] ROCKET (fun b v => begin_command c b v)) as ND.
    destruct (code _ _ _ _ _ _) as [|[]|]; cbn in *; try assumption. exfalso. apply ND. reflexivity.
  - apply lift_ok with (QA := Qlit P SP (k_mix c)).
    + intros ((b', l'), s') (A1 & A2 & A3 & A4). split; cbn [k_bk k_lbk k_mix k_pm k_st fst snd inv_top] in *; assumption.
    + right. split; cbn [kset k_bk k_lbk k_mix k_pm k_st inv_top]; try assumption; try exact Logic.I.
    + apply lit_node_ok; assumption.
  - apply lift_ok with (QA := Qdict P).
    + intros (b', s') (A1 & A4). split; cbn [kset k_bk k_lbk k_mix k_pm k_st fst snd inv_top] in *; assumption.
    + right. split; cbn [kset k_bk k_lbk k_mix k_pm k_st inv_top]; try assumption; try exact Logic.I.
    + apply dict_node_ok with (SP := SP); assumption.
  - apply lift_ok with (QA := Qcopy P).
    + intros (b', s') (A1 & A4). split; cbn [kset k_bk k_lbk k_mix k_pm k_st fst snd inv_top] in *; assumption.
    + right. split; cbn [kset k_bk k_lbk k_mix k_pm k_st inv_top]; try assumption; try exact Logic.I; apply inv_obs_distance; assumption.
    + apply copy_node_ok with (SP := SP); assumption.
  - assert (G : (forall t st, s <> LbFully t st) -> tnode_ok (lift (fun p => kset c (fst p) (TBsl (snd p))) Panic (lbtype_node (k_bk c) s))).
    { intros NF. apply lift_ok with (QA := Qlbt P).
      - intros (b', s') (A1 & A4). split; cbn [kset k_bk k_lbk k_mix k_pm k_st fst snd inv_top] in *; assumption.
      - left. destruct s as [|u|t|t st]; cbn [lbtype_node]; try discriminate; try apply code_not_done; [|exfalso; exact (NF _ _ eq_refl)].
        destruct u; cbn; discriminate || (unfold code; destruct (prior_index _ _ _); discriminate).
      - apply lbtype_node_ok with (SP := SP); assumption. }
    destruct s as [|u|t|t st]; try (apply G; discriminate). clear G.
    cbn [tnode_ok]. destruct K as (K1 & K2). split; cbn [k_bk k_lbk k_mix k_pm k_st inv_top]; try assumption; try exact Logic.I.
    + apply (inv_obs_btype P SP Pblend SPpos); [exact I|lia|exact K1].
    + destruct L. split; assumption.
  - assert (G : (forall t, s <> BtFully t) -> tnode_ok (lift (fun p => kset c (fst p) (TBsc (snd p))) Panic (btype_node 1 (k_bk c) s))).
    { intros NF. apply lift_ok with (QA := Qbt P).
      - intros (b', s') (A1 & A4). split; cbn [kset k_bk k_lbk k_mix k_pm k_st fst snd inv_top] in *; assumption.
      - left. apply btype_not_done. exact NF.
      - apply btype_node_ok with (SP := SP); try assumption. lia. }
    destruct s; try (apply G; discriminate). split; cbn [kset k_bk k_lbk k_mix k_pm k_st inv_top]; try assumption; try exact Logic.I.
    apply (inv_obs_btype P SP Pblend SPpos); [exact I|lia|exact K].
  - assert (G : (forall t, s <> BtFully t) -> tnode_ok (lift (fun p => kset c (fst p) (TBsd (snd p))) Panic (btype_node 2 (k_bk c) s))).
    { intros NF. apply lift_ok with (QA := Qbt P).
      - intros (b', s') (A1 & A4). split; cbn [kset k_bk k_lbk k_mix k_pm k_st fst snd inv_top] in *; assumption.
      - left. apply btype_not_done. exact NF.
      - apply btype_node_ok with (SP := SP); try assumption. lia. }
    destruct s; try (apply G; discriminate). split; cbn [kset k_bk k_lbk k_mix k_pm k_st inv_top]; try assumption; try exact Logic.I.
    apply (inv_obs_btype P SP Pblend SPpos); [exact I|lia|exact K].
  - assert (G : u <> PmFully -> tnode_ok (lift (fun p => ModelTop.K (fst p) (k_lbk c) (k_mix c) (fst (snd p)) (k_rec c) (TPm (snd (snd p)))) Panic (pm_node D (k_bk c) (k_pm c, u)))).
    { intros NF. apply lift_ok with (QA := Qpm D).
      - intros (b', (p', u')) (A1 & A2 & A3). split; cbn [kset k_bk k_lbk k_mix k_pm k_st fst snd inv_top] in *; assumption.
      - left. destruct u; cbn [pm_node]; cbv zeta; try apply code_not_done. congruence.
      - destruct BIG as (? & ? & ?). apply pm_node_ok; try assumption. lia. }
    destruct u; try (apply G; discriminate). clear G.
    pose proof (obs_pm_ok D (k_lbk c) (k_pm c) BIG L J X) as O. destruct (obs_prediction_mode (k_lbk c) (k_pm c)) as [l'|e|]; cbn [tnode_ok]; [|exact Logic.I|exact O].
    destruct O as (_ & O1 & O2). split; cbn [k_bk k_lbk k_mix k_pm k_st inv_top]; try assumption; try exact Logic.I.
  - destruct (rpop RR (k_rec c) cmd) as [r|e|]; cbn [tnode_ok]; try exact Logic.I; [|congruence].
    split; cbn [k_bk k_lbk k_mix k_pm k_st inv_top]; try assumption; try exact Logic.I.
    destruct L. split; assumption.
  - exact Logic.I.
Qed.
End Loop.
End Inv2.
