(** The decoder on arbitrary nibbles. *)
From Verif Require Import Prelude ModelAns ModelCdf SpecCdf ProofCdf ModelMux ProofZlist ModelCmd ModelPriors ModelContextLut ModelCodec ModelLit ModelPm ModelTop SpecCodec SpecHostile ThmPriors ProofCodecInv ProofCodecInv2 ProofRun ProofTop.

(** ** ranges of what has been decoded so far (whatever else happens) *)
Definition oc_all {S} (Q : S -> Prop) (o : outcome S) : Prop := match o with Next s => Q s | _ => True end.
Definition node_all (ok : Z -> Prop) {S} (Q : S -> Prop) (n : node S) : Prop :=
  match n with Code _ _ k => forall v, ok v -> oc_all Q (k v) | Silent o => oc_all Q o | Done => True end.
Definition dists (b : bk) : Prop := Forall u32 (distance_lru b).
Lemma u32_0 : u32 0. Proof. unfold u32. lia. Qed.
Lemma code_all (ok : Z -> Prop) {S} (Q : S -> Prop) b c bl ix sp k : dists b -> (forall b' v, dists b' -> ok v -> oc_all Q (k b' v)) -> node_all ok Q (code b c bl ix sp k).
Proof. intros B H. unfold code. destruct (prior_index c bl ix); cbn [node_all oc_all]; [|exact Logic.I]. intros v V. apply H; [exact B|exact V]. Qed.
Lemma map_all (ok : Z -> Prop) {A B} (f : A -> B) (QA : A -> Prop) (QB : B -> Prop) d n : (forall a, QA a -> QB (f a)) -> n <> Done \/ oc_all QB d ->
  node_all ok QA n -> node_all ok QB (map_node f d n).
Proof.
  intros F Dn N. destruct n as [st c k|o|]; cbn [map_node node_all] in *.
  - intros v V. specialize (N v V). destruct (k v); cbn in *; auto.
  - destruct o; cbn in *; auto.
  - destruct Dn as [X|X]; [congruence|exact X].
Qed.

(** copy *)
Definition copy_sane (s : copy_st) : Prop :=
  u32 (cc_distance s) /\ u32 (cc_num_bytes s) /\
  match c_sub s with
  | CCountMant _ lr dsf => 0 < lr <= 32 /\ lr mod 4 = 0 /\ u32 dsf
  | CDistMant _ lr dsf => 0 < lr <= 32 /\ u32 dsf
  | _ => True
  end.
Lemma from_code_range l v : Forall u32 l -> u32 (fst (distance_from_code l v)).
Proof.
  intros F. unfold distance_from_code. destruct (v <? 4); [exact (Forall_znth u32 l v F u32_0)|]. cbn [fst].
  apply Z.mod_pos_bound. lia.
Qed.
Lemma wsub_range a b : u32 (wsub32 a b).
Proof. unfold wsub32, u32. apply Z.mod_pos_bound. lia. Qed.
Definition QC (p : bk * copy_st) : Prop := dists (fst p) /\ copy_sane (snd p).
Lemma copy_all b s : dists b -> copy_sane s -> node_all nibble QC (copy_node b s).
Proof.
  intros B (S1 & S2 & S3). unfold copy_node. cbv zeta.
  destruct (c_sub s) as [| | | |ld lr dsf| | | | |ld lr dsf|] eqn:E;
  try (apply code_all; [exact B|]; intros b' v B' V); cbn [node_all oc_all].
  - split; [exact B|]. split; [exact S1|]. split; [exact S2|exact Logic.I].
  - unfold nibble in V. destruct (v =? 15); cbn [oc_all]; (split; [exact B'|]); (split; [exact S1|]); (split; [|exact Logic.I]); [exact S2|]. cbn [snd set_num cc_num_bytes]. unfold u32. lia.
  - unfold nibble in V. destruct (Z.eqb_spec v 15); cbn [oc_all]; (split; [exact B'|]); (split; [exact S1|]); (split; [exact S2|]); cbn [snd cset c_sub]; [exact Logic.I|].
    pose proof (round_up_spec (v + 3) ltac:(lia)). pose proof (shiftl1_range (v + 3) ltac:(lia)). split; [lia|]. split; [tauto|assumption].
  - unfold nibble in V. destruct (Z.ltb_spec (v + 18) 32); cbn [oc_all]; [|exact Logic.I]. (split; [exact B'|]); (split; [exact S1|]); (split; [exact S2|]); cbn [snd cset c_sub].
    pose proof (round_up_spec (v + 18) ltac:(lia)). pose proof (shiftl1_range (v + 18) ltac:(lia)). split; [lia|]. split; [tauto|assumption].
  - destruct S3 as (J1 & J2 & J3). pose proof (mant_range dsf v (lr - 4) J3 V ltac:(lia)) as M.
    destruct (Z.eqb_spec (lr - 4) 0); cbn [oc_all]; (split; [exact B'|]); (split; [exact S1|]); cbn [snd cset set_num c_sub cc_num_bytes].
    + split; [exact M|exact Logic.I].
    + split; [exact S2|]. split; [lia|]. split; [lia|exact M].
  - split; [exact B|]. split; [exact S1|]. split; [exact S2|exact Logic.I].
  - destruct (v =? 15); cbn [oc_all]; [split; [exact B'|split; [exact S1|split; [exact S2|exact Logic.I]]]|].
    pose proof (from_code_range (distance_lru b') v B') as F. destruct (distance_from_code (distance_lru b') v) as (d, ok). cbn [fst] in F.
    destruct ok; cbn [oc_all]; [|exact Logic.I]. split; [exact B'|]. split; [exact F|split; [exact S2|exact Logic.I]].
  - unfold nibble in V. destruct (Z.eqb_spec v 14); [|destruct (Z.eqb_spec v 15); [|destruct (Z.eqb_spec v 0)]]; cbn [oc_all]; (split; [exact B'|]); split; cbn [snd cset set_dist c_sub cc_distance cc_num_bytes]; try exact S1.
    + split; [exact S2|exact Logic.I].
    + apply wsub_range.
    + split; [exact S2|exact Logic.I].
    + unfold u32. lia.
    + split; [exact S2|exact Logic.I].
    + split; [exact S2|]. pose proof (round_up_spec v ltac:(lia)). pose proof (shiftl1_range v ltac:(lia)). split; [lia|assumption].
  - unfold nibble in V. split; [exact B'|]. split; [exact S1|]. split; [exact S2|]. cbn [snd cset c_sub].
    pose proof (round_up_spec (v + 14) ltac:(lia)). pose proof (shiftl1_range (v + 14) ltac:(lia)). split; [lia|assumption].
  - destruct S3 as (J1 & J3). pose proof (mantissa_lr lr J1) as ML. pose proof (mant_range dsf v _ J3 V (proj1 ML)) as M. set (nlr := Z.shiftl (Z.shiftr (lr + 3) 2 - 1) 2) in *.
    destruct (Z.eqb_spec nlr 0); cbn [oc_all]; (split; [exact B'|]); split; cbn [snd cset set_dist c_sub cc_distance cc_num_bytes].
    + exact M.
    + split; [exact S2|exact Logic.I].
    + exact S1.
    + split; [exact S2|]. split; [lia|exact M].
  - exact Logic.I.
Qed.
Lemma obs_distance_u32 b d : dists b -> u32 d -> dists (obs_distance b d).
Proof.
  intros B U. unfold obs_distance. cbv zeta. assert (G : forall i, u32 (znth (distance_lru b) i)) by (intros; exact (Forall_znth u32 _ _ B u32_0)).
  repeat match goal with |- context[if ?e then _ else _] => destruct e end; try exact B; unfold dists; cbn [set_distance_lru distance_lru]; repeat (apply Forall_cons; [first [exact U|apply G]|]); apply Forall_nil.
Qed.

(** dictionary *)
Definition dict_sane (s : dict_st) : Prop :=
  match d_sub s with
  | DIndex _ lr dsf => 4 <= dc_word_size s <= 24 /\ 0 < lr <= round_up_mod_4 (znth DICT_BITS (dc_word_size s)) /\ lr mod 4 = 0 /\
                       0 <= dsf < 2 ^ round_up_mod_4 (znth DICT_BITS (dc_word_size s))
  | DTransformHigh => 4 <= dc_word_size s <= 24 /\ 0 <= dc_word_id s < 2 ^ round_up_mod_4 (znth DICT_BITS (dc_word_size s))
  | DTransformLow => 4 <= dc_word_size s <= 24 /\ 0 <= dc_word_id s < 2 ^ round_up_mod_4 (znth DICT_BITS (dc_word_size s)) /\ 0 <= dc_transform s
  | DFully => 4 <= dc_word_size s <= 24 /\ 0 <= dc_word_id s < 2 ^ round_up_mod_4 (znth DICT_BITS (dc_word_size s)) /\ 0 <= dc_transform s < 121 /\ byte (dc_final_size s)
  | _ => True
  end.
Definition QD (p : bk * dict_st) : Prop := dists (fst p) /\ dict_sane (snd p).
Lemma dict_all wl b s : dists b -> dict_sane s -> node_all nibble QD (dict_node wl b s).
Proof.
  intros B J. unfold dict_node, dict_sane in *. cbv zeta.
  assert (SZ : forall b' ws, dists b' -> 4 <= ws <= 24 -> QD (b', DS ws (dc_word_id s) (dc_transform s) (dc_final_size s) (DIndex 0 (round_up_mod_4 (znth DICT_BITS ws)) 0))).
  { intros b' ws B' W. split; [exact B'|]. unfold dict_sane. cbn [snd d_sub dc_word_size]. pose proof (dict_bits_range ws W).
    pose proof (round_up_spec (znth DICT_BITS ws) ltac:(lia)). split; [lia|]. split; [lia|]. split; [tauto|]. split; [lia|]. apply Z.pow_pos_nonneg; lia. }
  destruct (d_sub s) as [| | |ld lr dsf| | |] eqn:E;
  try (apply code_all; [exact B|]; intros b' v B' V); cbn [node_all oc_all].
  - split; [exact B|exact Logic.I].
  - unfold nibble in V. destruct (Z.eqb_spec v 15); cbn [oc_all]; [split; [exact B'|exact Logic.I]|apply SZ; [exact B'|lia]].
  - unfold nibble in V. destruct (Z.ltb_spec 24 (v + 19)); cbn [oc_all]; [exact Logic.I|apply SZ; [exact B'|lia]].
  - destruct J as (J1 & J2 & J3 & J4). set (n := round_up_mod_4 (znth DICT_BITS (dc_word_size s))) in *.
    assert (M : 0 <= Z.lor dsf (Z.shiftl v (lr - 4)) < 2 ^ n).
    { apply lor_range; [lia|exact J4|]. pose proof (shiftl_range v 4 (lr - 4) ltac:(lia) V ltac:(lia)) as X.
      replace (4 + (lr - 4)) with lr in X by lia. assert (2 ^ lr <= 2 ^ n) by (apply Z.pow_le_mono_r; lia). lia. }
    destruct (Z.eqb_spec (lr - 4) 0); cbn [oc_all]; (split; [exact B'|]); unfold dict_sane; cbn [snd dset d_sub dc_word_size dc_word_id]; fold n.
    + split; [exact J1|exact M].
    + split; [exact J1|]. split; [lia|]. split; [lia|exact M].
  - destruct J as (J1 & J2). split; [exact B'|]. unfold dict_sane. cbn [snd d_sub dc_word_size dc_word_id dc_transform]. split; [exact J1|]. split; [exact J2|].
    apply Z.shiftl_nonneg. unfold nibble in V. lia.
  - destruct J as (J1 & J2 & J3). destruct (Z.leb_spec 121 (Z.lor (dc_transform s) v)); cbn [oc_all]; [exact Logic.I|].
    split; [exact B'|]. unfold dict_sane. cbn [snd d_sub dc_word_size dc_word_id dc_transform dc_final_size]. split; [exact J1|]. split; [exact J2|].
    split; [split; [apply Z.lor_nonneg; unfold nibble in V; lia|assumption]|]. unfold byte. apply Z.mod_pos_bound. lia.
  - exact Logic.I.
Qed.

(** literal *)
Definition LMAX := 2 ^ 31.
Definition lit_hazard (s : lit_st) (v : Z) : bool :=
  match l_sub s with LCountMant lr dsf => (lr =? 4) && (2 ^ 31 <=? Z.lor dsf v + 15) | _ => false end.
Definition lit_nib (s : lit_st) (v : Z) : Prop := nibble v /\ lit_hazard s v = false.
Definition lit_sane (s : lit_st) : Prop :=
  match l_sub s with
  | LCountMant lr dsf => 0 < lr <= 32 /\ lr mod 4 = 0 /\ u32 dsf
  | LNibble i => bytes (l_data s) /\ i = zlen (l_data s) /\ i < l_len s < LMAX
  | LLower i h => bytes (l_data s) /\ i = zlen (l_data s) /\ i < l_len s < LMAX /\ nibble h
  | LFully => bytes (l_data s) /\ 1 <= zlen (l_data s) < LMAX
  | _ => True
  end.
Definition QL (p : bk * lbk * lit_st) : Prop := dists (fst (fst p)) /\ lit_sane (snd p).
Lemma code_nibble_all (ok : Z -> Prop) {S} (Q : S -> Prop) mix l high h k : (forall l' v, ok v -> oc_all Q (k l' v)) -> node_all ok Q (code_nibble mix l high h k).
Proof.
  intros H. unfold code_nibble. cbv zeta. destruct (mm_opts_of l high h) as [m|]; [|exact Logic.I].
  destruct (prior_index _ _ _) as [i|]; [|exact Logic.I]. destruct (negb mix).
  - cbn [node_all]. intros v V. apply H; exact V.
  - destruct (if high then _ else _) as [j|]; [|exact Logic.I]. cbn [node_all]. intros v V.
    destruct (negb (should_mix _)); [exact Logic.I|]. destruct (nth_pair _ _) as (inc, lim). apply H; exact V.
Qed.
Lemma sized_sane s n : 1 <= n < LMAX -> lit_sane (lsized s n).
Proof. intros H. unfold lit_sane, lsized. cbn [l_sub l_data l_len]. split; [apply Forall_nil|]. change (zlen (@nil Z)) with 0. lia. Qed.
Lemma lit_all mix b l s : dists b -> lit_sane s -> node_all (lit_nib s) QL (lit_node mix b l s).
Proof.
  intros B J. unfold lit_node. cbv zeta. unfold lit_sane in J.
  destruct (l_sub s) as [|f| | |lr dsf|i|i h|] eqn:E;
  try (apply code_all; [exact B|]; intros b' v B' (V & HZ)); cbn [node_all oc_all].
  - split; [exact B|exact Logic.I].
  - unfold nibble in V. destruct (Z.eqb_spec v 14); [|destruct (Z.eqb_spec v 15)]; cbn [oc_all]; (split; [exact B'|]); try exact Logic.I. apply sized_sane. unfold LMAX. lia.
  - unfold nibble in V. destruct (Z.eqb_spec v 15); [|destruct (Z.leb_spec v 1)]; cbn [oc_all]; (split; [exact B'|]); try exact Logic.I.
    + apply sized_sane. unfold LMAX. lia.
    + unfold lit_sane. cbn [snd lset l_sub]. pose proof (round_up_spec (v - 1) ltac:(lia)). pose proof (shiftl1_range (v - 1) ltac:(lia)). split; [lia|]. split; [tauto|assumption].
  - unfold nibble in V. split; [exact B'|]. unfold lit_sane. cbn [snd lset l_sub].
    pose proof (round_up_spec (v + 14) ltac:(lia)). pose proof (shiftl1_range (v + 14) ltac:(lia)). split; [lia|]. split; [tauto|assumption].
  - destruct J as (J1 & J2 & J3). pose proof (mant_range dsf v (lr - 4) J3 V ltac:(lia)) as M.
    destruct (Z.eqb_spec (lr - 4) 0); cbn [oc_all]; (split; [exact B'|]).
    + apply sized_sane. unfold lit_hazard in HZ. rewrite E in HZ. replace (lr =? 4) with true in HZ by (symmetry; apply Z.eqb_eq; lia). cbn [andb] in HZ. apply Z.leb_gt in HZ.
      replace (lr - 4) with 0 in * by lia. rewrite Z.shiftl_0_r in *. unfold LMAX. lia.
    + unfold lit_sane. cbn [snd lset l_sub]. split; [lia|]. split; [lia|exact M].
  - apply code_nibble_all. intros l' v (V & _). split; [exact B|]. unfold lit_sane. cbn [snd lset l_sub l_data l_len]. tauto.
  - destruct J as (J1 & J2 & J3 & J4). apply code_nibble_all. intros l' v (V & _). split; [exact B|]. unfold lit_sane. cbn [snd l_sub l_data l_len].
    assert (X : byte (Z.lor v (Z.shiftl h 4))) by (rewrite Z.lor_comm; apply nib_join; assumption).
    assert (Y : bytes (l_data s ++ [Z.lor v (Z.shiftl h 4)])) by (apply Forall_app; split; [exact J1|apply Forall_cons; [exact X|apply Forall_nil]]).
    pose proof (zlen_nonneg (l_data s)) as ZN.
    destruct (Z.eqb_spec (i + 1) (l_len s)); (split; [exact Y|]); rewrite zlen_app; change (zlen [Z.lor v (Z.shiftl h 4)]) with 1; lia.
  - exact Logic.I.
Qed.

(** prediction mode *)
Definition pm_nums (p : predmode) : Prop := 0 <= pm_math p < 4 /\ 0 <= pm_adv p < 4.
Definition QP (q : bk * pm_st) : Prop := dists (fst q) /\ pm_nums (fst (snd q)).
Lemma store_nums p ds i v q : pm_nums p -> pm_store p ds i v = Some q -> pm_nums q.
Proof. intros N E. unfold pm_store in E. destruct ds, (_ <? _); try discriminate; injection E as <-; exact N. Qed.
Lemma ocm_dists b ds i v q : dists b -> obs_context_map b ds i v = Some q -> dists q.
Proof. intros N E. unfold obs_context_map in E. cbv zeta in E. destruct ds; cbn [negb] in E; [destruct (_ <? _); [|discriminate]|]; injection E as <-; exact N. Qed.
Lemma pm_all D b p u : dists b -> pm_nums p -> node_all nibble QP (pm_node D b (p, u)).
Proof.
  intros B N. destruct u as [| |cb|index out cb|index ds cb|index ds cb|index ds msn cb|index cb|]; cbn [pm_node]; cbv zeta;
  try (apply code_all; [exact B|]; intros b' v B' V); cbn [node_all oc_all].
  - split; [exact B'|exact N].
  - split; [exact B'|]. unfold pm_nums. cbn [fst snd pm_set_math pm_math pm_adv]. split; [apply land3|].
    unfold nibble in V. rewrite Z.shiftr_div_pow2 by lia. change (2 ^ 2) with 4. lia.
  - split; [exact B'|exact N].
  - destruct (index + 1 =? 16); [|split; [exact B'|exact N]].
    repeat match goal with |- context[store_speed ?x] => destruct (store_speed x); [|exact Logic.I] end. split; [exact B'|exact N].
  - destruct (v =? 14); [destruct ds; (split; [exact B'|exact N])|]. destruct (v =? 15); [split; [exact B'|exact N]|].
    set (x := if v =? 13 then _ else _). destruct (obs_context_map b' ds index x) as [b2|] eqn:E1; [|exact Logic.I].
    destruct (pm_store p ds index x) as [p2|] eqn:E2; [|exact Logic.I]. split; [exact (ocm_dists _ _ _ _ _ B' E1)|exact (store_nums _ _ _ _ _ N E2)].
  - split; [exact B'|exact N].
  - set (x := Z.lor _ _). destruct (pm_store p ds index x) as [p2|] eqn:E2; [|exact Logic.I]. destruct (obs_context_map b' ds index x) as [b2|] eqn:E1; [|exact Logic.I].
    split; [exact (ocm_dists _ _ _ _ _ B' E1)|exact (store_nums _ _ _ _ _ N E2)].
  - destruct (_ <? _); [|exact Logic.I]. split; [exact B'|exact N].
  - exact Logic.I.
Qed.
Definition QB (S : Type) (p : bk * S) : Prop := dists (fst p).
Lemma btype_all i b s : dists b -> node_all nibble (QB btype_st) (btype_node i b s).
Proof.
  intros B. destruct s; cbn [btype_node]; try (apply code_all; [exact B|]; intros b' v B' V); cbn [oc_all node_all]; try exact B'; try exact Logic.I.
  repeat match goal with |- context[if ?e then _ else _] => destruct e end; exact B'.
Qed.
Lemma lbtype_all b s : dists b -> node_all nibble (QB lbtype_st) (lbtype_node b s).
Proof.
  intros B. destruct s as [|u|t|t st]; cbn [lbtype_node]; try (apply code_all; [exact B|]; intros b' v B' V); cbn [oc_all node_all]; try exact B; try exact B'; try exact Logic.I.
  assert (G : node_all nibble (QB lbtype_st) (map_node (fun p => (fst p, LbInter (snd p))) Panic (btype_node 0 b u))).
  { apply map_all with (QA := QB btype_st); [intros a X; exact X|right; exact Logic.I|apply btype_all; exact B]. }
  destruct u; try exact G. exact B.
Qed.

(** ** the command loop *)
Section Loop.
Context {R : Type} (RR : replayer R) (wl : word_len_fn) (D : dims).
Hypothesis BIG : big D.
Hypothesis SAFE : forall r c, sane_command D c -> rpop RR r c <> Panic.
Notation cinv := (inv adapted tame D).
Notation TN := (top_node RR wl D).
Definition top_sane (t : top) : Prop :=
  match t with
  | TCopy s => copy_sane s | TDict s => dict_sane s | TLit s => lit_sane s
  | TPop cmd => sane_command D cmd
  | _ => True
  end.
Definition sane (c : codec R) : Prop := cinv c /\ dists (k_bk c) /\ pm_nums (k_pm c) /\ top_sane (k_st c).
Definition half (c : codec R) : Prop := dists (k_bk c) /\ pm_nums (k_pm c) /\ top_sane (k_st c).
Definition tnode_all (ok : Z -> Prop) (n : tnode R) : Prop :=
  match n with
  | NCode _ _ k => forall v, ok v -> oc_all half (k v)
  | NSilent o => oc_all half o
  | NAdvance c _ => half c
  | NEnd => True
  end.
Lemma lift_all (ok : Z -> Prop) {A} (f : A -> codec R) d n (QA : A -> Prop) : (forall a, QA a -> half (f a)) -> n <> Done \/ oc_all half d ->
  node_all ok QA n -> tnode_all ok (lift f d n).
Proof.
  intros F Dn N. pose proof (map_all ok f QA half d n F Dn N) as M. unfold lift.
  destruct (map_node f d n) as [st c k|o|] eqn:E; cbn in *; assumption || exact Logic.I.
Qed.
Definition nib_at (c : codec R) (v : Z) : Prop := nibble v /\ hazard c v = None.
Lemma tnode_weaken (ok ok' : Z -> Prop) n : (forall v, ok' v -> ok v) -> tnode_all ok n -> tnode_all ok' n.
Proof. intros H. destruct n; cbn [tnode_all]; auto. Qed.
Lemma tn_all c : half c -> tnode_all (nib_at c) (TN c).
Proof.
  intros (B & N & T). unfold top_node. cbv zeta. destruct (k_st c) as [|s|s|s|s|s|s|u|cmd|] eqn:E; cbn [top_sane] in T; try match type of E with _ = TLit _ => fail 1 | _ => apply tnode_weaken with (ok := nibble); [intros v (V & _); exact V|] end.
  - assert (G : node_all nibble half (code (k_bk c) CcP FullSelection [Z.shiftr (last_4_states (k_bk c)) 4; 0] ROCKET (fun b v => begin_command c b v))).
    { apply code_all; [exact B|]. intros b' v B' V. unfold begin_command.
      repeat match goal with |- context[v =? ?n] => destruct (v =? n); [cbn [oc_all]; split; [exact B'|split; [exact N|]]; try exact Logic.I|] end; try exact Logic.I.
      split; [exact u32_0|split; [exact u32_0|exact Logic.I]]. }
    destruct (code _ _ _ _ _ _) as [st d k|o|]; cbn [node_all tnode_all] in *; [exact G|exact G|exact Logic.I].
  - apply tnode_weaken with (ok := lit_nib s).
    { intros v (V & HZ). split; [exact V|]. unfold hazard in HZ. rewrite E in HZ. unfold lit_hazard. destruct (l_sub s); try reflexivity. destruct (_ && _); [discriminate|reflexivity]. }
    apply lift_all with (QA := QL).
    + intros ((b', l'), s') (A1 & A4). split; [exact A1|split; [exact N|exact A4]].
    + destruct (l_sub s) eqn:ES; try (left; unfold lit_node; rewrite ES; cbv zeta; try apply code_not_done; discriminate).
      * left. unfold lit_node. rewrite ES. cbv zeta. unfold code_nibble. cbv zeta. repeat match goal with |- context[match ?e with _ => _ end] => destruct e end; discriminate.
      * left. unfold lit_node. rewrite ES. cbv zeta. unfold code_nibble. cbv zeta. repeat match goal with |- context[match ?e with _ => _ end] => destruct e end; discriminate.
      * right. unfold lit_sane in T. rewrite ES in T. split; [exact B|split; [exact N|exact T]].
    + apply lit_all; assumption.
  - apply lift_all with (QA := QD).
    + intros (b', s') (A1 & A4). split; [exact A1|split; [exact N|exact A4]].
    + destruct (d_sub s) eqn:ES; try (left; unfold dict_node; rewrite ES; cbv zeta; try apply code_not_done; discriminate).
      right. unfold dict_sane in T. rewrite ES in T. split; [exact B|split; [exact N|exact T]].
    + apply dict_all; assumption.
  - apply lift_all with (QA := QC).
    + intros (b', s') (A1 & A4). split; [exact A1|split; [exact N|exact A4]].
    + right. destruct T as (T1 & T2 & _). split; [apply obs_distance_u32; assumption|split; [exact N|split; assumption]].
    + apply copy_all; assumption.
  - assert (G : tnode_all nibble (lift (fun p => kset c (fst p) (TBsl (snd p))) Panic (lbtype_node (k_bk c) s))).
    { apply lift_all with (QA := QB lbtype_st); [intros (b', s') A1; split; [exact A1|split; [exact N|exact Logic.I]]|right; exact Logic.I|apply lbtype_all; exact B]. }
    destruct s; try exact G. split; [exact B|split; [exact N|exact Logic.I]].
  - assert (G : tnode_all nibble (lift (fun p => kset c (fst p) (TBsc (snd p))) Panic (btype_node 1 (k_bk c) s))).
    { apply lift_all with (QA := QB btype_st); [intros (b', s') A1; split; [exact A1|split; [exact N|exact Logic.I]]|right; exact Logic.I|apply btype_all; exact B]. }
    destruct s; try exact G. split; [exact B|split; [exact N|exact Logic.I]].
  - assert (G : tnode_all nibble (lift (fun p => kset c (fst p) (TBsd (snd p))) Panic (btype_node 2 (k_bk c) s))).
    { apply lift_all with (QA := QB btype_st); [intros (b', s') A1; split; [exact A1|split; [exact N|exact Logic.I]]|right; exact Logic.I|apply btype_all; exact B]. }
    destruct s; try exact G. split; [exact B|split; [exact N|exact Logic.I]].
  - assert (G : tnode_all nibble (lift (fun p => ModelTop.K (fst p) (k_lbk c) (k_mix c) (fst (snd p)) (k_rec c) (TPm (snd (snd p)))) Panic (pm_node D (k_bk c) (k_pm c, u)))).
    { apply lift_all with (QA := QP); [intros (b', (p', u')) (A1 & A2); split; [exact A1|split; [exact A2|exact Logic.I]]|right; exact Logic.I|apply pm_all; assumption]. }
    destruct u; try exact G. destruct (obs_prediction_mode (k_lbk c) (k_pm c)); cbn [tnode_all oc_all]; try exact Logic.I. split; [exact B|split; [exact N|exact Logic.I]].
  - destruct (rpop RR (k_rec c) cmd); cbn [tnode_all oc_all]; try exact Logic.I. split; [exact B|split; [exact N|exact Logic.I]].
  - exact Logic.I.
Qed.
Lemma usable_good p : usable p = true -> exists q, speed_of_f8 p = Some q /\ tame q.
Proof.
  unfold usable. destruct (speed_of_f8 p) as [(i, l)|]; [|discriminate]. intros H. eexists. split; [reflexivity|].
  apply andb_prop in H. destruct H as (H & H3). apply andb_prop in H. destruct H as (H1 & H2). split; cbn [fst snd]; [lia|lia].
Qed.
Lemma usables_good p : usable_speeds p = true -> speeds_good tame p.
Proof.
  unfold usable_speeds. intros H. apply andb_prop in H. destruct H as (H & H3). apply andb_prop in H. destruct H as (H & H2). apply andb_prop in H. destruct H as (H0 & H1).
  destruct (usable_good _ H0) as (s0 & E0 & T0), (usable_good _ H1) as (s1 & E1 & T1), (usable_good _ H2) as (s2 & E2 & T2), (usable_good _ H3) as (s3 & E3 & T3).
  exists s0, s1, s2, s3. auto 10.
Qed.
(** one round, for any nibble *)
Definition round_ok (c : codec R) (n : tnode R) : Prop :=
  match n with
  | NCode st d k => codable d /\ forall v, nib_at c v -> match k v with Next c' => sane c' | Err _ => True | Panic => False end
  | NSilent (Next c') => sane c'
  | NSilent (Err _) => True
  | NSilent Panic => False
  | NAdvance c' x => sane c' /\ sane_command D x
  | NEnd => True
  end.
Lemma combine c n : tnode_ok adapted tame D n -> tnode_all (nib_at c) n -> (forall c' x, n = NAdvance c' x -> sane_command D x) -> round_ok c n.
Proof.
  intros O A X. destruct n as [st d k|o|c' x|]; cbn [tnode_ok tnode_all round_ok] in *.
  - destruct O as (O1 & O2). split; [apply src_codable; exact O1|]. intros v V. specialize (O2 v (proj1 V)). specialize (A v V).
    destruct (k v); cbn in *; [split; assumption|exact Logic.I|exact O2].
  - destruct o; cbn in *; [split; assumption|exact Logic.I|exact O].
  - split; [split; assumption|]. eapply X. reflexivity.
  - exact Logic.I.
Qed.
Lemma lift_not_advance {A} (f : A -> codec R) d n c' x : lift f d n <> NAdvance c' x.
Proof. unfold lift. destruct (map_node f d n); discriminate. Qed.
Lemma pm_pass (c : codec R) l : obs_prediction_mode (k_lbk c) (k_pm c) = Next l -> pm_mode (k_pm c) < 4.
Proof. unfold obs_prediction_mode. destruct (Z.ltb_spec (pm_mode (k_pm c)) 4); cbn [negb]; [auto|discriminate]. Qed.
Lemma advance_sane c c' x : sane c -> wild c = false -> TN c = NAdvance c' x -> sane_command D x.
Proof.
  intros (I & B & N & T) W H. destruct I as [_ _ _ IP IT]. unfold top_node in H. cbv zeta in H. unfold wild in W.
  destruct (k_st c) as [|s|s|s|s|s|s|u|cmd|] eqn:E; cbn [top_sane inv_top] in T, IT; try (apply lift_not_advance in H; contradiction).
  - unfold code in H. destruct (prior_index _ _ _); discriminate.
  - destruct s as [|u|t|t st]; try (apply lift_not_advance in H; contradiction). injection H as _ <-. exact IT.
  - destruct s; try (apply lift_not_advance in H; contradiction). injection H as _ <-. exact IT.
  - destruct s; try (apply lift_not_advance in H; contradiction). injection H as _ <-. exact IT.
  - destruct u; try (apply lift_not_advance in H; contradiction). destruct (obs_prediction_mode (k_lbk c) (k_pm c)) as [l| |] eqn:O; try discriminate.
    injection H as _ <-. pose proof (pm_pass _ _ O) as M. destruct IP as [(L1 & L2) (D1 & D2) (M1 & M2) O1], N as (N1 & N2).
    destruct (Z.ltb_spec (pm_mode (k_pm c)) 4); [|lia]. cbn [andb] in W. apply negb_false_iff in W. unfold sane_command, sane_pm.
    do 6 (split; [assumption|]). split; [lia|]. auto.
  - destruct (rpop RR (k_rec c) cmd); try discriminate. injection H as _ <-. exact T.
  - discriminate.
Qed.
Lemma round_safe c : sane c -> wild c = false -> round_ok c (TN c).
Proof.
  intros S W. pose proof S as (I & B & N & T).
  assert (X : excl tame RR c -> round_ok c (TN c)).
  { intros X. apply combine; [apply cinv_node; assumption|apply tn_all; split; [exact B|split; [exact N|exact T]]|]. intros c' x. apply advance_sane; assumption. }
  unfold excl in X. unfold wild in W. destruct (k_st c) as [|s|s|s|s|s|s|u|cmd|] eqn:E; try exact (X Logic.I).
  - cbn [top_sane] in T. destruct (c_sub s) eqn:ES; try (apply X; discriminate). clear X.
    pose proof (ic_top _ _ _ _ I) as IT. rewrite E in IT. cbn [inv_top] in IT. pose proof I as [IB IL IM IP _].
    destruct (copy_greater18_ok adapted tame adapted_blend tame_pos (k_bk c) s IB IT ES) as (d & k & EN & PD & K).
    assert (A : tnode_all (nib_at c) (TN c)) by (apply tn_all; split; [exact B|split; [exact N|rewrite E; exact T]]).
    assert (F : TN c = NCode CMD d (fun v => map_outcome (fun p => kset c (fst p) (TCopy (snd p))) (k v))) by (unfold top_node; rewrite E; cbv zeta; rewrite EN; reflexivity).
    rewrite F in A |- *. cbn [tnode_all round_ok] in *. split; [apply src_codable; left; exact PD|]. intros v VH. specialize (A v VH). destruct VH as (V & H).
    unfold hazard in H. rewrite E, ES in H. destruct (Z.leb_spec 14 v); [discriminate|].
    destruct (K v V) as (K1 & _). destruct (K1 ltac:(lia)) as ((b', s') & KV & (Q1 & Q2)). rewrite KV in *. cbn [map_outcome oc_all fst snd] in *.
    split; [|exact A]. split; cbn [kset k_bk k_lbk k_mix k_pm k_st inv_top]; assumption.
  - destruct u; try exact (X Logic.I). destruct (usable_speeds (k_pm c)) eqn:U; [apply X, usables_good, U|]. cbn [negb] in W. rewrite andb_true_r in W.
    clear X. assert (F : TN c = NSilent (Err PredictionModeOutOfBounds)) by (unfold top_node; rewrite E; cbv zeta; unfold obs_prediction_mode; rewrite W; reflexivity).
    rewrite F. exact Logic.I.
  - apply X, SAFE. exact T.
Qed.
(** rounds that read nothing cannot follow each other for long *)
Definition rank (t : top) : nat :=
  match t with
  | TCopy s => match c_sub s with CBegin | CCountDecoded => 1 | CFully => 2 | _ => 0 end
  | TDict s => match d_sub s with DBegin => 1 | DFully => 2 | _ => 0 end
  | TLit s => match l_sub s with LBegin => 1 | LFully => 2 | _ => 0 end
  | TBsl s => match s with LbBegin | LbInter (BtFully _) | LbFully _ _ => 1 | _ => 0 end
  | TBsc s | TBsd s => match s with BtFully _ => 1 | _ => 0 end
  | TPm u => match u with PmFully => 1 | _ => 0 end
  | TPop _ => 1
  | _ => 0
  end%nat.
Lemma rank_le t : (rank t <= 2)%nat.
Proof. destruct t as [|s|s|s|s|s|s|u|cmd|]; cbn [rank]; try lia; [destruct (l_sub s)|destruct (d_sub s)|destruct (c_sub s)|destruct s as [|[]| |]|destruct s|destruct s|destruct u]; lia. Qed.
Definition quiet (t : top) (n : tnode R) : Prop :=
  match n with NSilent (Next c') | NAdvance c' _ => (rank (k_st c') < rank t)%nat | _ => True end.
Lemma quiet_code {A} t (f : A -> codec R) d b c bl ix sp k : quiet t (lift f d (code b c bl ix sp k)).
Proof. unfold lift, code. destruct (prior_index _ _ _); cbn [map_node quiet map_outcome]; exact Logic.I. Qed.
Lemma quiet_nib {A} t (f : A -> codec R) d mix l high h k : quiet t (lift f d (code_nibble mix l high h k)).
Proof.
  unfold lift, code_nibble. cbv zeta. destruct (mm_opts_of l high h); [|exact Logic.I]. destruct (prior_index _ _ _); [|exact Logic.I].
  destruct (negb mix); [exact Logic.I|]. destruct (if high then _ else _); exact Logic.I.
Qed.
Lemma quiet_bt {A} t (f : _ -> A) (g : A -> codec R) d b i s : (forall x, s <> BtFully x) -> quiet t (lift g d (map_node f Panic (btype_node i b s))).
Proof. intros H. destruct s as [| | |y]; cbn [btype_node]; [| | |exfalso; exact (H y eq_refl)]; unfold lift, code; destruct (prior_index _ _ _); exact Logic.I. Qed.
Lemma tn_quiet c : quiet (k_st c) (TN c).
Proof.
  unfold top_node. cbv zeta. destruct (k_st c) as [|s|s|s|s|s|s|u|cmd|] eqn:E.
  - unfold code. destruct (prior_index _ _ _); exact Logic.I.
  - unfold lit_node. cbv zeta. cbn [rank]. destruct (l_sub s) eqn:ES; try apply quiet_code; try apply quiet_nib; unfold lift; cbn [map_node quiet map_outcome rank kset k_st lset l_sub snd fst]; rewrite ?ES; lia.
  - unfold dict_node. cbv zeta. cbn [rank]. destruct (d_sub s) eqn:ES; try apply quiet_code; unfold lift; cbn [map_node quiet map_outcome rank kset k_st dset d_sub snd fst]; rewrite ?ES; lia.
  - unfold copy_node. cbv zeta. cbn [rank]. destruct (c_sub s) eqn:ES; try apply quiet_code; unfold lift; cbn [map_node quiet map_outcome rank kset k_st cset c_sub snd fst]; rewrite ?ES; lia.
  - destruct s as [|v|t|t st]; cbn [lbtype_node]; try apply quiet_code.
    + unfold lift; cbn. lia.
    + destruct v; try (apply quiet_bt; discriminate). unfold lift; cbn. lia.
    + cbn. lia.
  - destruct s; cbn [btype_node]; try apply quiet_code. cbn. lia.
  - destruct s; cbn [btype_node]; try apply quiet_code. cbn. lia.
  - destruct u; cbn [pm_node]; cbv zeta; try apply quiet_code. destruct (obs_prediction_mode _ _); cbn; try exact Logic.I. lia.
  - destruct (rpop RR (k_rec c) cmd); cbn; try exact Logic.I. lia.
  - exact Logic.I.
Qed.
Lemma take_some q st v q' : take q st = Some (v, q') -> any_nibbles q -> nibble v /\ any_nibbles q' /\ (nibbles_in q = S (nibbles_in q'))%nat.
Proof.
  unfold take, any_nibbles, nibbles_in. destruct q as (qc, ql). cbn [ch_cmd ch_lit]. destruct st.
  - destruct qc as [|x l]; [discriminate|]. intros E (A & B). injection E as <- <-. cbn [ch_cmd ch_lit length]. inversion A; subst. split; [assumption|]. split; [auto|lia].
  - destruct ql as [|x l]; [discriminate|]. intros E (A & B). injection E as <- <-. cbn [ch_cmd ch_lit length]. inversion B; subst. split; [assumption|]. split; [auto|lia].
Qed.
Lemma chan_nil q : chan_of [] q = q.
Proof. destruct q. reflexivity. Qed.
Lemma take_chan q st v d q' es q2 : take q st = Some (v, q') -> q' = chan_of es q2 -> q = chan_of (Ev st d v :: es) q2.
Proof.
  unfold take. destruct q as (qc, ql). cbn [ch_cmd ch_lit].
  destruct st; [destruct qc as [|x l]|destruct ql as [|x l]]; intros H E; try discriminate; injection H as <- <-; injection E as E1 E2; unfold chan_of, vals, on in *; cbn [filter e_st map e_val app ch_cmd ch_lit] in *; congruence.
Qed.
Theorem run_total : forall fuel c q, sane c -> any_nibbles q -> (3 * nibbles_in q + rank (k_st c) < fuel)%nat ->
  exists xs es w q', dec_run RR wl D true fuel c q = Some (xs, es, w, q') /\ q = chan_of es q' /\
    Forall (sane_command D) xs /\ writable es /\ w <> Panics /\ (forall st, w = Needs st -> take q' st = None).
Proof.
  induction fuel as [|fuel IH]; intros c q S A F; [lia|]. cbn [dec_run andb].
  destruct (wild c) eqn:W.
  { exists [], [], WildSpeeds, q. split; [reflexivity|]. split; [symmetry; apply chan_nil|]. split; [constructor|]. split; [constructor|]. split; discriminate. }
  pose proof (round_safe c S W) as RO. pose proof (tn_quiet c) as QU.
  destruct (TN c) as [st d k|o|c' x|]; cbn [round_ok quiet] in *.
  - destruct RO as (CD & K). destruct (take q st) as [(v, q1)|] eqn:T.
    2:{ exists [], [], (Needs st), q. split; [reflexivity|]. split; [symmetry; apply chan_nil|]. split; [constructor|]. split; [constructor|]. split; [discriminate|]. intros st' X. injection X as <-. exact T. }
    destruct (take_some _ _ _ _ T A) as (V & A1 & L).
    assert (ONE : q = chan_of [Ev st d v] q1) by (eapply take_chan; [exact T|symmetry; apply chan_nil]).
    assert (WR : writable [Ev st d v]) by (constructor; [split; assumption|constructor]).
    destruct (hazard c v) as [h|] eqn:HV.
    { exists [], [Ev st d v], h, q1. split; [reflexivity|]. split; [exact ONE|]. split; [constructor|]. split; [exact WR|].
      unfold hazard in HV. destruct (k_st c) as [|s|s|s|s|s|s|u|cmd|]; try discriminate; [destruct (l_sub s)|destruct (c_sub s)]; try discriminate;
      match type of HV with (if ?e then _ else _) = _ => destruct e end; try discriminate; injection HV as <-; split; discriminate. }
    specialize (K v (conj V HV)). destruct (k v) as [c'|e|]; [| |contradiction].
    + destruct (IH c' q1 K A1) as (xs & es & w & q' & E & EQ & X1 & X2 & X3 & X4). { pose proof (rank_le (k_st c')). lia. }
      rewrite E. cbn [bind]. exists xs, (Ev st d v :: es), w, q'. split; [reflexivity|]. split; [eapply take_chan; [exact T|exact EQ]|]. split; [exact X1|]. split; [constructor; [split; assumption|exact X2]|]. split; assumption.
    + exists [], [Ev st d v], (Fails e), q1. split; [reflexivity|]. split; [exact ONE|]. split; [constructor|]. split; [exact WR|]. split; discriminate.
  - destruct o as [c'|e|]; [| |contradiction].
    + apply IH; [exact RO|exact A|lia].
    + exists [], [], (Fails e), q. split; [reflexivity|]. split; [symmetry; apply chan_nil|]. split; [constructor|]. split; [constructor|]. split; discriminate.
  - destruct RO as (S' & SX). destruct (IH c' q S' A) as (xs & es & w & q' & E & EQ & X1 & X2 & X3 & X4). { lia. }
    rewrite E. cbn [bind]. exists (x :: xs), es, w, q'. split; [reflexivity|]. split; [exact EQ|]. split; [constructor; assumption|]. split; [exact X2|]. split; assumption.
  - exists [], [], AtEnd, q. split; [reflexivity|]. split; [symmetry; apply chan_nil|]. split; [constructor|]. split; [constructor|]. split; discriminate.
Qed.
(** without the guard nothing changes, except at a hazard *)
Theorem run_plain : forall fuel c q xs es w q', dec_run RR wl D true fuel c q = Some (xs, es, w, q') -> w <> WildSpeeds -> w <> HugeLiteral ->
  dec_run RR wl D false fuel c q = Some (xs, es, match w with HugeCopy => Panics | _ => w end, q').
Proof.
  induction fuel as [|fuel IH]; intros c q xs es w q' E W W2; cbn [dec_run andb] in *; [discriminate|].
  destruct (wild c); [injection E as <- <- <- <-; congruence|].
  destruct (TN c) as [st d k|o|c' x|] eqn:T.
  - destruct (take q st) as [(v, q1)|]; [|injection E as <- <- <- <-; reflexivity]. destruct (hazard c v) as [h|] eqn:H.
    + injection E as <- <- <- <-.
      assert (K : h = HugeCopy /\ k v = Panic); [|destruct K as (-> & ->); reflexivity]. clear IH W.
      unfold hazard in H. destruct (k_st c) as [|s|s|s|s|s|s|u|cmd|] eqn:ES; try discriminate.
      { destruct (l_sub s); try discriminate. destruct (_ && _); [|discriminate]. congruence. }
      destruct (c_sub s) eqn:EC; try discriminate. destruct (Z.leb_spec 14 v); [|discriminate]. injection H as <-. split; [reflexivity|].
      unfold top_node in T. rewrite ES in T. unfold copy_node in T. rewrite EC in T. cbv zeta in T. unfold code in T. destruct (prior_index _ _ _) as [i|]; [|discriminate].
      injection T as _ _ <-. destruct (Z.ltb_spec (v + 18) 32); [lia|]. reflexivity.
    + destruct (k v) as [c'|e|]; try (injection E as <- <- <- <-; reflexivity).
      destruct (dec_run RR wl D true fuel c' q1) as [(((xs1, es1), w1), q2)|] eqn:E1; [|discriminate]. cbn [bind] in E. injection E as <- <- <- <-.
      rewrite (IH _ _ _ _ _ _ E1 W W2). reflexivity.
  - destruct o as [c'|e|]; [exact (IH _ _ _ _ _ _ E W W2)|injection E as <- <- <- <-; reflexivity|injection E as <- <- <- <-; reflexivity].
  - destruct (dec_run RR wl D true fuel c' q) as [(((xs1, es1), w1), q2)|] eqn:E1; [|discriminate]. cbn [bind] in E. injection E as <- <- <- <-.
    rewrite (IH _ _ _ _ _ _ E1 W W2). reflexivity.
  - injection E as <- <- <- <-. reflexivity.
Qed.
Lemma sane_new r : sane (codec_new D r).
Proof.
  split; [apply inv_codec_new; [exact adapted0|exact adapted_blend|exact tame_pos|exact BIG]|]. split; [|split].
  - unfold dists, codec_new, bk_new. cbn [k_bk distance_lru]. repeat (apply Forall_cons; [unfold u32; lia|]). apply Forall_nil.
  - unfold pm_nums, codec_new, pm_new. cbn [k_pm pm_math pm_adv]. lia.
  - exact Logic.I.
Qed.
End Loop.
