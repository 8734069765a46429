(** From the runs of the sub-coders to commands, and from one command to lists. *)
From Verif Require Import Prelude ModelAns ModelCdf SpecCdf ProofCdf ModelMux ProofZlist ModelCmd ModelPriors ModelContextLut ModelCodec ModelLit ModelPm ModelTop SpecCodec ThmPriors ProofCodecInv ProofCodecInv2 ProofRun ProofCopy ProofDict ProofLit ProofPm.

Definition good (e : ev) : Prop := codable (e_cdf e) /\ nibble (e_val e).

Section TopRun.
Context {R : Type} (RR : replayer R) (wl : word_len_fn) (D : dims).
Notation ENC := (enc_cmd RR wl D).
Notation DEC := (dec_cmd RR wl D).
Notation TN := (top_node RR wl D).

(** ** the decoder follows the encoder *)
Lemma take_head st d v es rest : take (chan_of (Ev st d v :: es) rest) st = Some (v, chan_of es rest).
Proof. unfold take, chan_of, vals, on. cbn [filter e_st]. destruct st; cbn [filter on e_st map e_val app ch_cmd ch_lit]; reflexivity. Qed.
Lemma dec_of_enc g cmd is_end rest : forall fuel c c2 x es, ENC fuel g cmd is_end c = Some (c2, x, es) -> DEC fuel c (chan_of es rest) = Some (c2, x, es, rest).
Proof.
  induction fuel as [|fuel IH]; intros c c2 x es H; cbn [enc_cmd dec_cmd] in *; [discriminate|].
  destruct (top_want g cmd is_end c) as [v| |]; try discriminate. destruct (TN c) as [st d k|o|c' y|].
  - destruct ((0 <=? v) && (v <? 16)); [|discriminate]. destruct (k v) as [c'| |] eqn:KV; try discriminate.
    destruct (ENC fuel g cmd is_end c') as [((c3, x3), es3)|] eqn:E; [|discriminate]. injection H as <- <- <-.
    rewrite take_head. cbn [bind]. rewrite KV. rewrite (IH _ _ _ _ E). reflexivity.
  - destruct o; try discriminate. apply IH. exact H.
  - injection H as <- <- <-. unfold chan_of, vals. cbn [filter map app]. destruct rest; reflexivity.
  - injection H as <- <- <-. unfold chan_of, vals. cbn [filter map app]. destruct rest; reflexivity.
Qed.
Lemma enc_mono g cmd is_end : forall f f' c r, ENC f g cmd is_end c = Some r -> (f <= f')%nat -> ENC f' g cmd is_end c = Some r.
Proof.
  induction f as [|f IH]; intros f' c r H L; cbn [enc_cmd] in *; [discriminate|]. destruct f' as [|f']; [lia|]. cbn [enc_cmd].
  destruct (top_want g cmd is_end c) as [v| |]; try discriminate. destruct (TN c) as [st d k|o|c' y|]; [|destruct o; try discriminate; apply IH; [exact H|lia]|exact H|exact H].
  destruct ((0 <=? v) && (v <? 16)); [|discriminate]. destruct (k v) as [c'| |]; try discriminate.
  destruct (ENC f g cmd is_end c') as [((c3, x3), es3)|] eqn:E; [|discriminate]. rewrite (IH f' c' _ E) by lia. exact H.
Qed.

Section OneCmd.
Variables (g : cfg) (cmd : command) (is_end : bool).
(** the encoder, from [c], writes [es] and finishes with the result in [G] *)
Definition ends (c : codec R) (G : codec R -> option command -> Prop) : Prop :=
  exists fuel c2 x es, ENC fuel g cmd is_end c = Some (c2, x, es) /\ Forall good es /\ G c2 x.
Lemma ends_silent c c' v G : top_want g cmd is_end c = Put v -> TN c = NSilent (Next c') -> ends c' G -> ends c G.
Proof. intros W N (f & c2 & x & es & E & F & H). exists (S f), c2, x, es. split; [|auto]. cbn [enc_cmd]. rewrite W, N. exact E. Qed.
Lemma ends_code c c' st d k v G : top_want g cmd is_end c = Put v -> TN c = NCode st d k -> nibble v -> codable d -> k v = Next c' -> ends c' G -> ends c G.
Proof.
  intros W N V C KV (f & c2 & x & es & E & F & H). exists (S f), c2, x, (Ev st d v :: es). split; [|split; [constructor; [split; assumption|exact F]|exact H]].
  cbn [enc_cmd]. rewrite W, N. unfold nibble in V. replace ((0 <=? v) && (v <? 16)) with true by (symmetry; apply andb_true_intro; split; [apply Z.leb_le|apply Z.ltb_lt]; lia).
  rewrite KV, E. reflexivity.
Qed.
Lemma ends_advance c c' v x (G : codec R -> option command -> Prop) : top_want g cmd is_end c = Put v -> TN c = NAdvance c' x -> G c' (Some x) -> ends c G.
Proof. intros W N H. exists 1%nat, c', (Some x), []. split; [|auto]. cbn [enc_cmd]. rewrite W, N. reflexivity. Qed.
Lemma ends_end c v (G : codec R -> option command -> Prop) : top_want g cmd is_end c = Put v -> TN c = NEnd -> G c None -> ends c G.
Proof. intros W N H. exists 1%nat, c, None, []. split; [|auto]. cbn [enc_cmd]. rewrite W, N. reflexivity. Qed.
Lemma ends_nsteps {S} (nd : S -> node S) wt (f : S -> codec R) : (forall s, top_want g cmd is_end (f s) = wt s) ->
  (forall s, nd s <> Done -> exists d, TN (f s) = lift f d (nd s)) ->
  forall s es s' G, nsteps nd wt s es s' -> ends (f s') G -> ends (f s) G.
Proof.
  intros FW FN s es s' G H E. induction H as [s|s s' v es s2 W N X IH|s st d k v s' es s2 W N V C KV X IH]; [exact E| |].
  - destruct (FN s) as (dd & T); [rewrite N; discriminate|]. rewrite N in T. eapply ends_silent; [rewrite FW; exact W|exact T|apply IH, E].
  - destruct (FN s) as (dd & T); [rewrite N; discriminate|]. rewrite N in T. eapply ends_code; [rewrite FW; exact W|exact T|exact V|exact C| |apply IH, E].
    cbv beta. rewrite KV. reflexivity.
Qed.
Lemma ends_reaches {S} (nd : S -> node S) wt (f : S -> codec R) (P : S -> Prop) : (forall s, top_want g cmd is_end (f s) = wt s) ->
  (forall s, nd s <> Done -> exists d, TN (f s) = lift f d (nd s)) ->
  forall s G, reaches nd wt s P -> (forall s', P s' -> ends (f s') G) -> ends (f s) G.
Proof. intros FW FN s G (es & s' & X & H) K. eapply ends_nsteps; [exact FW|exact FN|exact X|exact (K _ H)]. Qed.
End OneCmd.

Hypothesis BIG : big D.
Notation cinv := (inv adapted tame D).
Lemma cinv_node c : cinv c -> excl tame RR c -> tnode_ok adapted tame D (TN c).
Proof. intros. apply top_node_ok; auto using adapted_blend, tame_pos, adapted0. Qed.

(** the first nibble of a command *)
Lemma ends_begin g cmd is_end c G : cinv c -> k_st c = TBegin ->
  (forall pr, match begin_command c (set_priors (k_bk c) pr) (command_type_to_nibble cmd is_end) with
     | Next c' => cinv c' -> ends g cmd is_end c' G | _ => False end) ->
  ends g cmd is_end c G.
Proof.
  intros I T KK. assert (N := cinv_node c I). unfold excl in N. rewrite T in N. specialize (N Logic.I).
  unfold top_node in N. rewrite T in N. unfold code in N.
  destruct (prior_index CcP FullSelection [Z.shiftr (last_4_states (k_bk c)) 4; 0]) as [i|] eqn:PI; [|destruct N]. cbn [tnode_ok] in N. destruct N as (N1 & N2).
  assert (V : nibble (command_type_to_nibble cmd is_end)) by (unfold nibble, command_type_to_nibble; destruct is_end; [lia|destruct cmd; lia]).
  specialize (N2 _ V). set (b' := set_priors (k_bk c) _) in N2. specialize (KK (priors b')).
  change (set_priors (k_bk c) (priors b')) with b' in KK. destruct (begin_command c b' (command_type_to_nibble cmd is_end)) as [c'| |] eqn:BC; try contradiction.
  eapply ends_code with (c' := c'); [unfold top_want; rewrite T; reflexivity|unfold top_node; rewrite T; cbv zeta; unfold code; rewrite PI; reflexivity|exact V|apply src_codable; exact N1|exact BC|].
  apply KK. exact N2.
Qed.

Section Kinds.
Variable g : cfg.
Hypothesis HG : cfg_ok g.
Definition after (c : codec R) (cmd : command) (c2 : codec R) (x : option command) : Prop :=
  x = Some (coded wl D g (k_pm c) cmd) /\ cinv c2 /\ k_st c2 = TBegin /\ k_pm c2 = pm_after D g (k_pm c) cmd /\
  (if moves_data cmd then rpop RR (k_rec c) (coded wl D g (k_pm c) cmd) = Next (k_rec c2) else k_rec c2 = k_rec c).
Lemma adv_inv c c' x : cinv c -> excl tame RR c -> TN c = NAdvance c' x -> cinv c'.
Proof. intros I X E. pose proof (cinv_node c I X) as N. rewrite E in N. exact N. Qed.
Lemma ends_pop cmd c x r : cinv c -> k_st c = TPop x -> rpop RR (k_rec c) x = Next r ->
  ends g cmd false c (fun c2 y => y = Some x /\ cinv c2 /\ k_st c2 = TBegin /\ k_pm c2 = k_pm c /\ k_rec c2 = r).
Proof.
  intros I T E.
  assert (A : TN c = NAdvance (ModelTop.K (k_bk c) (set_last_8 (k_lbk c) (rlast8 RR r)) (k_mix c) (k_pm c) r TBegin) x).
  { unfold top_node. rewrite T. cbv zeta. rewrite E. reflexivity. }
  eapply ends_advance; [unfold top_want; rewrite T; reflexivity|exact A|].
  split; [reflexivity|]. split; [|cbn [k_st k_pm k_rec]; auto]. eapply adv_inv; [exact I| |exact A]. unfold excl. rewrite T, E. discriminate.
Qed.
Lemma ends_weaken cmd is_end c (G G' : codec R -> option command -> Prop) : ends g cmd is_end c G -> (forall c2 x, G c2 x -> G' c2 x) -> ends g cmd is_end c G'.
Proof. intros (f & c2 & x & es & E & F & H) W. exists f, c2, x, es. auto. Qed.
Lemma run_copy c d n r : cinv c -> k_st c = TBegin -> 1 <= d < 2 ^ 30 -> 0 <= n < 2 ^ 32 -> rpop RR (k_rec c) (Copy d n) = Next r ->
  ends g (Copy d n) false c (after c (Copy d n)).
Proof.
  intros I T HD HN HR. apply ends_begin; [exact I|exact T|]. intros pr. cbn [command_type_to_nibble]. unfold begin_command.
  change (1 =? 1) with true. cbv iota. intros I1. set (b1 := obs_copy_state (set_priors (k_bk c) pr)) in *.
  set (f := fun p : bk * copy_st => kset c (fst p) (TCopy (snd p))). change (kset c b1 (TCopy copy_begin)) with (f (b1, copy_begin)) in *.
  eapply ends_reaches with (nd := cnd) (wt := cwt d n) (P := copied_ok d n (distance_lru b1)).
  - intros (b, s). reflexivity.
  - intros (b, s) _. eexists. reflexivity.
  - apply copy_run; [exact HD|exact HN|apply I1].
  - intros (b2, s2) (Q & _ & E). cbn [snd] in E. subst s2.
    eapply ends_silent with (c' := kset c (obs_distance b2 d) (TPop (Copy d n))) (v := 0); [|reflexivity|].
    { unfold top_want, f. cbn [kset k_st k_bk fst snd]. unfold copy_want. cbv zeta. destruct (Z.eqb_spec (bitlen d) 0); [|reflexivity]. pose proof (bitlen_spec d ltac:(lia)). lia. }
    eapply ends_weaken; [apply (ends_pop (Copy d n) _ (Copy d n) r); [|reflexivity|exact HR]|].
    + destruct I as [? ? ? ? ?]. destruct Q as (QB & _). cbn [fst] in QB. split; cbn [kset k_bk k_lbk k_mix k_pm k_st inv_top]; try assumption; [apply inv_obs_distance; exact QB|exact Logic.I].
    + intros c2 x (E1 & E2 & E3 & E4 & E5). unfold after. cbn [coded pm_after moves_data]. rewrite E5. auto.
Qed.
Lemma run_dict c ws wid tr fs r : cinv c -> k_st c = TBegin -> encodable D g (Dict ws wid tr fs) -> rpop RR (k_rec c) (Dict ws wid tr (wl ws wid tr mod 256)) = Next r ->
  ends g (Dict ws wid tr fs) false c (after c (Dict ws wid tr fs)).
Proof.
  intros I T (H1 & H2 & H3) HR. apply ends_begin; [exact I|exact T|]. intros pr. cbn [command_type_to_nibble]. unfold begin_command.
  change (2 =? 1) with false. change (2 =? 2) with true. cbv iota. intros I1. set (b1 := obs_dict_state (set_priors (k_bk c) pr)) in *.
  set (f := fun p : bk * dict_st => kset c (fst p) (TDict (snd p))). change (kset c b1 (TDict dict_begin)) with (f (b1, dict_begin)) in *.
  eapply ends_reaches with (nd := dnd wl) (wt := dwt ws wid tr) (P := dict_done wl ws wid tr).
  - intros (b, s). reflexivity.
  - intros (b, s) _. eexists. reflexivity.
  - apply dict_run; [exact H1|exact H2|exact H3|apply I1].
  - intros (b2, s2) (Q & E). cbn [snd] in E. subst s2.
    eapply ends_silent with (c' := kset c b2 (TPop (Dict ws wid tr (wl ws wid tr mod 256)))); [reflexivity|reflexivity|].
    eapply ends_weaken; [apply (ends_pop _ _ (Dict ws wid tr (wl ws wid tr mod 256)) r); [|reflexivity|exact HR]|].
    + destruct I as [? ? ? ? ?]. destruct Q as (QB & _). cbn [fst] in QB. split; cbn [kset k_bk k_lbk k_mix k_pm k_st inv_top]; try assumption; exact Logic.I.
    + intros c2 x (E1 & E2 & E3 & E4 & E5). unfold after. cbn [coded pm_after moves_data]. rewrite E5. auto.
Qed.
Lemma run_lit c data he r : cinv c -> k_st c = TBegin -> bytes data -> 1 <= zlen data <= 2 ^ 30 + 14 -> rpop RR (k_rec c) (Literal data he) = Next r ->
  ends g (Literal data he) false c (after c (Literal data he)).
Proof.
  intros I T H1 H2 HR. apply ends_begin; [exact I|exact T|]. intros pr. cbn [command_type_to_nibble]. unfold begin_command.
  change (3 =? 1) with false. change (3 =? 2) with false. change (3 =? 3) with true. cbv iota. intros I1. set (b1 := obs_literal_state (set_priors (k_bk c) pr)) in *.
  set (f := fun p : bk * lbk * lit_st => ModelTop.K (fst (fst p)) (snd (fst p)) (k_mix c) (k_pm c) (k_rec c) (TLit (snd p))).
  change (kset c b1 (TLit lit_begin)) with (f (b1, k_lbk c, lit_begin)) in *.
  eapply ends_reaches with (nd := tnd (k_mix c)) (wt := twt data he) (P := lit_done (k_mix c) data he).
  - intros ((b, l), s). reflexivity.
  - intros ((b, l), s) _. eexists. reflexivity.
  - apply lit_run; [exact H1|exact H2|apply I1|apply I|apply I].
  - intros ((b2, l2), s2) (Q & E). cbn [snd] in E. subst s2.
    eapply ends_silent with (c' := ModelTop.K b2 l2 (k_mix c) (k_pm c) (k_rec c) (TPop (Literal data he))); [reflexivity|reflexivity|].
    eapply ends_weaken; [apply (ends_pop _ _ (Literal data he) r); [|reflexivity|exact HR]|].
    + destruct I as [? ? ? ? ?]. destruct Q as (QB & QL & QX & _). cbn [fst snd] in *. split; cbn [k_bk k_lbk k_mix k_pm k_st inv_top]; try assumption; exact Logic.I.
    + intros c2 x (E1 & E2 & E3 & E4 & E5). unfold after. cbn [coded pm_after moves_data]. rewrite E5. auto.
Qed.
Lemma run_bsl c t s : cinv c -> k_st c = TBegin -> byte t -> nibble s -> ends g (BlockSwitchLiteral t s) false c (after c (BlockSwitchLiteral t s)).
Proof.
  intros I T H1 H2. pose proof HG as (_ & GS & _). apply ends_begin; [exact I|exact T|]. intros pr. cbn [command_type_to_nibble]. unfold begin_command.
  change (4 =? 1) with false. change (4 =? 2) with false. change (4 =? 3) with false. change (4 =? 4) with true. cbv iota. intros I1. set (b1 := set_priors (k_bk c) pr) in *.
  set (f := fun p : bk * lbtype_st => kset c (fst p) (TBsl (snd p))). change (kset c b1 (TBsl LbBegin)) with (f (b1, LbBegin)) in *.
  eapply ends_reaches with (nd := lnd) (wt := lwt g t s) (P := lbt_done g t s).
  - intros (b, u). reflexivity.
  - intros (b, u) ND. exists Panic. destruct u; try reflexivity. exfalso. apply ND. reflexivity.
  - apply lbtype_run; [exact GS|exact H1|exact H2|apply I1].
  - intros (b2, s2) (Q & E). cbn [snd] in E. subst s2. set (st := if want_stride g =? 9 then s else want_stride g) in *.
    assert (I2 : cinv (f (b2, LbFully t st))).
    { destruct I as [? ? ? ? ?]. destruct Q as (QB & QS). unfold f. split; cbn [kset k_bk k_lbk k_mix k_pm k_st inv_top fst snd] in *; assumption. }
    eapply ends_advance; [reflexivity|reflexivity|]. split; [reflexivity|]. split; [|cbn; auto]. eapply (adv_inv (f (b2, LbFully t st))); [exact I2|exact Logic.I|reflexivity].
Qed.
Lemma run_bsc c t : cinv c -> k_st c = TBegin -> byte t -> ends g (BlockSwitchCommand t) false c (after c (BlockSwitchCommand t)).
Proof.
  intros I T H1. apply ends_begin; [exact I|exact T|]. intros pr. cbn [command_type_to_nibble]. unfold begin_command.
  change (5 =? 1) with false. change (5 =? 2) with false. change (5 =? 3) with false. change (5 =? 4) with false. change (5 =? 5) with true. cbv iota. intros I1. set (b1 := set_priors (k_bk c) pr) in *.
  set (f := fun p : bk * btype_st => kset c (fst p) (TBsc (snd p))). change (kset c b1 (TBsc BtBegin)) with (f (b1, BtBegin)) in *.
  eapply ends_reaches with (nd := bnd 1) (wt := bwt 1 t) (P := bt_done t (btype_lru b1) (btype_max_seen b1)).
  - intros (b, u). reflexivity.
  - intros (b, u) ND. exists Panic. destruct u; try reflexivity. exfalso. apply ND. reflexivity.
  - apply btype_run; [lia|exact H1|apply I1].
  - intros (b2, s2) (Q & E). cbn [snd] in E. subst s2.
    assert (I2 : cinv (f (b2, BtFully t))).
    { destruct I as [? ? ? ? ?]. destruct Q as (QB & QS). unfold f. split; cbn [kset k_bk k_lbk k_mix k_pm k_st inv_top fst snd] in *; assumption. }
    eapply ends_advance; [reflexivity|reflexivity|]. split; [reflexivity|]. split; [|cbn; auto]. eapply (adv_inv (f (b2, BtFully t))); [exact I2|exact Logic.I|reflexivity].
Qed.
Lemma run_bsd c t : cinv c -> k_st c = TBegin -> byte t -> ends g (BlockSwitchDistance t) false c (after c (BlockSwitchDistance t)).
Proof.
  intros I T H1. apply ends_begin; [exact I|exact T|]. intros pr. cbn [command_type_to_nibble]. unfold begin_command.
  change (6 =? 1) with false. change (6 =? 2) with false. change (6 =? 3) with false. change (6 =? 4) with false. change (6 =? 5) with false. change (6 =? 6) with true. cbv iota. intros I1. set (b1 := set_priors (k_bk c) pr) in *.
  set (f := fun p : bk * btype_st => kset c (fst p) (TBsd (snd p))). change (kset c b1 (TBsd BtBegin)) with (f (b1, BtBegin)) in *.
  eapply ends_reaches with (nd := bnd 2) (wt := bwt 2 t) (P := bt_done t (btype_lru b1) (btype_max_seen b1)).
  - intros (b, u). reflexivity.
  - intros (b, u) ND. exists Panic. destruct u; try reflexivity. exfalso. apply ND. reflexivity.
  - apply btype_run; [lia|exact H1|apply I1].
  - intros (b2, s2) (Q & E). cbn [snd] in E. subst s2.
    assert (I2 : cinv (f (b2, BtFully t))).
    { destruct I as [? ? ? ? ?]. destruct Q as (QB & QS). unfold f. split; cbn [kset k_bk k_lbk k_mix k_pm k_st inv_top fst snd] in *; assumption. }
    eapply ends_advance; [reflexivity|reflexivity|]. split; [reflexivity|]. split; [|cbn; auto]. eapply (adv_inv (f (b2, BtFully t))); [exact I2|exact Logic.I|reflexivity].
Qed.
Lemma pm_coded_good old p : pm_encodable D g p -> speeds_good tame (pm_coded D g old p).
Proof.
  intros (_ & _ & (s & E & F & L) & _). unfold speeds_good, pm_coded. rewrite E. cbn [stride_f8 cm_f8].
  assert (H : forall i, sane_speed (nth_pair s i)) by (intros i; apply Forall_nth_pair; [exact F|exact sane0]).
  destruct (f8_good _ (H 0)) as (s0 & E0 & T0). destruct (f8_good _ (H 1)) as (s1 & E1 & T1).
  destruct (f8_good _ (H 2)) as (s2 & E2 & T2). destruct (f8_good _ (H 3)) as (s3 & E3 & T3).
  exists s0, s1, s2, s3. change (nth_pair [?a; ?b] 0) with a. change (nth_pair [?a; ?b] 1) with b. tauto.
Qed.
Lemma run_pm c p : cinv c -> k_st c = TBegin -> pm_encodable D g p -> ends g (PredictionMode p) false c (after c (PredictionMode p)).
Proof.
  intros I T H1. apply ends_begin; [exact I|exact T|]. intros pr. cbn [command_type_to_nibble]. unfold begin_command.
  change (7 =? 1) with false. change (7 =? 2) with false. change (7 =? 3) with false. change (7 =? 4) with false. change (7 =? 5) with false. change (7 =? 6) with false. change (7 =? 7) with true. cbv iota.
  intros I1. set (b1 := set_priors (k_bk c) pr) in *.
  set (f := fun p : bk * pm_st => ModelTop.K (fst p) (k_lbk c) (k_mix c) (fst (snd p)) (k_rec c) (TPm (snd (snd p)))).
  change (kset c b1 (TPm PmBegin)) with (f (b1, (k_pm c, PmBegin))) in *.
  eapply ends_reaches with (nd := pnd D) (wt := pwt g p) (P := pm_done D g p (k_pm c)).
  - intros (b, (q, u)). reflexivity.
  - intros (b, (q, u)) ND. exists Panic. destruct u; try reflexivity. exfalso. apply ND. reflexivity.
  - apply pm_run; [destruct BIG; lia|exact HG|exact H1|apply I|apply I1].
  - intros (b2, s2) (Q & E). cbn [snd] in E. subst s2. set (p2 := pm_coded D g (k_pm c) p) in *.
    assert (I2 : cinv (f (b2, (p2, PmFully)))).
    { destruct I as [? ? ? ? ?]. destruct Q as (QB & QS & QU). unfold f. split; cbn [kset k_bk k_lbk k_mix k_pm k_st inv_top fst snd] in *; assumption. }
    assert (SG : speeds_good tame p2) by (apply pm_coded_good; exact H1).
    pose proof (obs_pm_ok adapted tame D (k_lbk c) p2 BIG (ic_lbk _ _ _ _ I) (ic_pm _ _ _ _ I2) SG) as OP.
    destruct (obs_prediction_mode (k_lbk c) p2) as [l'|e|] eqn:EO; [|exfalso|destruct OP].
    + assert (A : TN (f (b2, (p2, PmFully))) = NAdvance (ModelTop.K b2 l' (should_mix (wt_low l') || should_mix (wt_high l')) p2 (k_rec c) TBegin) (PredictionMode p2)).
      { unfold top_node, f. cbn [k_st k_bk k_lbk k_pm k_rec fst snd]. rewrite EO. reflexivity. }
      eapply ends_advance with (v := 0); [unfold top_want, f; cbn [k_st k_bk k_pm fst snd]; unfold pm_want; destruct H1 as (_ & _ & (sp & ES & _) & _); rewrite ES; reflexivity|exact A|].
      split; [reflexivity|]. split; [|cbn; auto]. eapply adv_inv; [exact I2|exact SG|exact A].
    + unfold p2 in OP. cbn [pm_coded pm_mode] in OP. destruct H1. lia.
Qed.
Lemma run_cmd c cmd : cinv c -> k_st c = TBegin -> encodable D g cmd ->
  (moves_data cmd = true -> exists r, rpop RR (k_rec c) (coded wl D g (k_pm c) cmd) = Next r) -> ends g cmd false c (after c cmd).
Proof.
  intros I T H M. destruct cmd; cbn [encodable moves_data coded] in *; try (destruct (M eq_refl) as (r & HR)).
  - eapply run_copy; [exact I|exact T|apply H|apply H|exact HR].
  - eapply run_dict; [exact I|exact T|exact H|exact HR].
  - eapply run_lit; [exact I|exact T|apply H|apply H|exact HR].
  - apply run_pm; [exact I|exact T|exact H].
  - apply run_bsc; [exact I|exact T|exact H].
  - apply run_bsd; [exact I|exact T|exact H].
  - apply run_bsl; [exact I|exact T|apply H|apply H].
Qed.
Lemma run_end c : cinv c -> k_st c = TBegin -> ends g (Copy 1 0) true c (fun c2 x => x = None /\ cinv c2 /\ k_rec c2 = k_rec c).
Proof.
  intros I T. apply ends_begin; [exact I|exact T|]. intros pr. cbn [command_type_to_nibble]. unfold begin_command.
  repeat match goal with |- context[15 =? ?n] => let b := eval compute in (15 =? n) in change (15 =? n) with b end. cbv iota. intros I1.
  eapply ends_end; [reflexivity|reflexivity|]. auto.
Qed.
End Kinds.

(** ** lists of commands *)
Lemma all_mono g : forall cmds f f' c r, enc_all RR wl D f g cmds c = Some r -> (f <= f')%nat -> enc_all RR wl D f' g cmds c = Some r.
Proof.
  induction cmds as [|cmd cmds IH]; intros f f' c r H L; cbn [enc_all] in *.
  - destruct (ENC f g (Copy 1 0) true c) as [((c1, x), es)|] eqn:E; [|discriminate]. rewrite (enc_mono _ _ _ _ _ _ _ E L). exact H.
  - destruct (ENC f g cmd false c) as [((c1, x), es)|] eqn:E; [|discriminate]. rewrite (enc_mono _ _ _ _ _ _ _ E L).
    destruct x as [x|]; [|discriminate]. destruct (enc_all RR wl D f g cmds c1) as [((c2, xs), es2)|] eqn:E2; [|discriminate].
    rewrite (IH f f' c1 _ E2 L). exact H.
Qed.
Lemma chan_of_app es es2 rest : chan_of (es ++ es2) rest = chan_of es (chan_of es2 rest).
Proof. unfold chan_of, vals. cbn [ch_cmd ch_lit]. rewrite !filter_app, !map_app, <- !app_assoc. reflexivity. Qed.
Lemma dec_all_of_enc g fuel rest : forall cmds c c2 xs es, enc_all RR wl D fuel g cmds c = Some (c2, xs, es) ->
  dec_all RR wl D fuel (S (length cmds)) c (chan_of es rest) = Some (c2, xs, es, rest).
Proof.
  induction cmds as [|cmd cmds IH]; intros c c2 xs es H; cbn [enc_all dec_all length] in *.
  - destruct (ENC fuel g (Copy 1 0) true c) as [((c1, x), es1)|] eqn:E; [|discriminate]. destruct x; [discriminate|]. injection H as <- <- <-.
    rewrite (dec_of_enc _ _ _ rest _ _ _ _ _ E). reflexivity.
  - destruct (ENC fuel g cmd false c) as [((c1, x), es1)|] eqn:E; [|discriminate]. destruct x as [x|]; [|discriminate].
    destruct (enc_all RR wl D fuel g cmds c1) as [((c3, ys), es2)|] eqn:E2; [|discriminate]. injection H as <- <- <-.
    rewrite chan_of_app, (dec_of_enc _ _ _ (chan_of es2 rest) _ _ _ _ _ E). cbn [bind]. rewrite (IH _ _ _ _ E2). reflexivity.
Qed.
Lemma run_all g : cfg_ok g -> forall cmds c r, cinv c -> k_st c = TBegin -> Forall (encodable D g) cmds -> replay_to RR (k_rec c) (coded_all wl D g (k_pm c) cmds) = Some r ->
  exists fuel c2 es, enc_all RR wl D fuel g cmds c = Some (c2, coded_all wl D g (k_pm c) cmds, es) /\ Forall good es /\ cinv c2 /\ k_rec c2 = r.
Proof.
  intros HG. induction cmds as [|cmd cmds IH]; intros c r I T F RP; cbn [coded_all enc_all replay_to] in *.
  - destruct (run_end g c I T) as (f & c2 & x & es & E & GE & -> & I2 & R2). exists f, c2, es. rewrite E. injection RP as <-. auto.
  - inversion F as [|? ? F1 F2]; subst.
    assert (MD : moves_data (coded wl D g (k_pm c) cmd) = moves_data cmd) by (destruct cmd; reflexivity). rewrite MD in RP.
    destruct (run_cmd g HG c cmd I T F1) as (f & c2 & x & es & E & GE & -> & I2 & T2 & P2 & R2).
    { intros M. rewrite M in RP. destruct (rpop RR (k_rec c) (coded wl D g (k_pm c) cmd)) as [r1| |]; try discriminate. eauto. }
    destruct (IH c2 r I2 T2 F2) as (f2 & c3 & es2 & E2 & GE2 & I3 & R3).
    { rewrite P2. destruct (moves_data cmd); [|rewrite R2; exact RP]. rewrite R2 in RP. exact RP. }
    exists (Nat.max f f2), c3, (es ++ es2). split; [|split; [apply Forall_app; split; assumption|auto]].
    rewrite (enc_mono _ _ _ _ (Nat.max f f2) _ _ E) by lia. rewrite (all_mono _ _ _ (Nat.max f f2) _ _ E2) by lia. rewrite P2. reflexivity.
Qed.
End TopRun.
