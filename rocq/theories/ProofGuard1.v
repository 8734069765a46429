(** Any bytes in the decompressor: the arithmetic decoder. *)
From Verif Require Import Prelude ProofList ModelAns SpecAns ModelCdf SpecCdf ProofCdf ProofAns ProofAnsRt ProofAnsDec ThmCdf ModelMux ProofZlist ProofMux ModelCmd ModelRecode SpecLz ModelPriors ModelCodec ModelLit ModelPm ModelTop SpecCodec ModelEnc ModelDec ProofDec3 SpecHostile SpecGuard.

(** a lookup finds some symbol, and its interval *)
Lemma lookup_any c off : codable c -> exists s, nibble s /\ ref_lookup c off = (s, bnd c (s - 1) + 1, bnd c s - bnd c (s - 1) - 1).
Proof.
  intros C. pose proof C as (L & T & _). unfold ref_lookup, offset_to_sym. cbv zeta.
  set (r := i16 _). destruct (find_sym_range c r 0 ltac:(lia)) as [R|R]; [|subst c; discriminate L].
  rewrite L in R. set (s := find_sym 0 c r) in *. assert (N : nibble s) by (unfold nibble; lia). exists s. split; [exact N|].
  rewrite (interval_eq _ c s C (divides_ref c ltac:(lia)) N). reflexivity.
Qed.

(** ** States of a decoder that reads arbitrary bytes *)
Definition dsane (d : decoder) : Prop :=
  dvalid d /\ state_a d < 2 ^ 64 /\ state_b d < 2 ^ 64 /\ 0 <= sym_count d < 65536 /\ (4 < a_req d -> sym_count d = 0).
Lemma dsane_new : dsane dec_new.
Proof. unfold dsane, dvalid, dec_new. cbn [a_req b_req state_a state_b sym_count]. repeat split; try lia; try (left; reflexivity). Qed.
Lemma u64_lt x : u64 x < 2 ^ 64.
Proof. unfold u64. apply Z.mod_pos_bound. reflexivity. Qed.
Lemma lor_lt a b n : 0 <= n -> 0 <= a < 2 ^ n -> 0 <= b < 2 ^ n -> Z.lor a b < 2 ^ n.
Proof.
  intros N A B. destruct (Z.eq_dec (Z.lor a b) 0) as [->|E]; [lia|]. pose proof (lor_nonneg a b ltac:(lia) ltac:(lia)).
  apply Z.log2_lt_pow2; [lia|]. rewrite Z.log2_lor by lia.
  destruct (Z.eq_dec a 0) as [->|A0]; destruct (Z.eq_dec b 0) as [->|B0].
  - contradiction E. reflexivity.
  - change (Z.log2 0) with 0. pose proof (Z.log2_nonneg b). rewrite Z.max_r by lia. apply Z.log2_lt_pow2; lia.
  - change (Z.log2 0) with 0. pose proof (Z.log2_nonneg a). rewrite Z.max_l by lia. apply Z.log2_lt_pow2; lia.
  - apply Z.max_lub_lt; apply Z.log2_lt_pow2; lia.
Qed.
Lemma feed1_states d b : dsane d -> a_req d <> 0 -> norm d = d -> dsane (feed1 d b).
Proof.
  intros (V & SA & SB & SC & S0) N M. pose proof (dvalid_feed1 d b V N M) as V'. pose proof (norm_id_cases d V M) as R. pose proof V as (_ & VA & VB & _).
  split; [exact V'|]. unfold feed1. clear V'.
  assert (U : forall x, 0 <= u64 x < 2 ^ 64) by (intros x; split; [apply u64_nonneg|apply u64_lt]).
  destruct (Z.leb_spec (a_req d) 4); cbn [state_a state_b sym_count a_req].
  - split; [|split; [exact SB|split; [exact SC|]]].
    + apply lor_lt; [lia| |apply U]. destruct (a_req d =? 1); [apply U|lia].
    + destruct (Z.eqb_spec (a_req d + 1) 5); lia.
  - destruct (Z.shiftl (a_req d - 16) 3 <? 64); cbn [state_a state_b sym_count a_req].
    + split; [apply lor_lt; [lia|lia|apply U]|]. split; [exact SB|]. split; [exact SC|]. intros _. apply S0. lia.
    + split; [exact SA|]. split; [apply lor_lt; [lia|lia|apply U]|]. split; [exact SC|]. intros _. apply S0. lia.
Qed.
Lemma feed_states l : forall d, dsane d -> norm d = d -> (length l <= need d)%nat ->
  dsane (feed d l) /\ sym_count (feed d l) = sym_count d /\ b_req (feed d l) = b_req d.
Proof.
  induction l as [|b l IH]; intros d S M L; cbn [feed fold_left length] in *.
  - auto.
  - pose proof S as (V & _). assert (NZ : a_req d <> 0) by (intros E; apply need_zero in E; [lia|exact V]).
    pose proof (need_feed1 d b V NZ M) as E. fold (feed (feed1 d b) l).
    destruct (IH (feed1 d b)) as (A & B & C); [apply feed1_states; assumption|apply norm_feed1; assumption|lia|].
    split; [exact A|]. rewrite B, C. unfold feed1. destruct (a_req d <=? 4); cbn [sym_count b_req]; [auto|]. destruct (_ <? 64); cbn [sym_count b_req]; auto.
Qed.
Lemma norm_sane d : dsane d -> dsane (norm d) /\ sym_count (norm d) = sym_count d /\ b_req (norm d) = b_req d.
Proof.
  intros S. pose proof S as (V & SA & SB & SC & S0). split.
  - split; [apply dvalid_norm, V|]. unfold norm. destruct (_ && _) eqn:E; cbn [state_a state_b sym_count a_req]; [lia|auto].
  - unfold norm. destruct (_ && _) eqn:E; cbn [sym_count b_req]; [|auto]. rewrite S0 by lia. auto.
Qed.
Lemma push_sane d l : dsane d ->
  exists d', ModelAns.push_data d l = Some (d', Nat.min (length l) (need d)) /\ dsane d' /\ sym_count d' = sym_count d /\ b_req d' = b_req d /\ need d' = (need d - length l)%nat.
Proof.
  intros S. pose proof S as (V & _). destruct (norm_sane d S) as (SN & CN & BN). pose proof SN as (VN & _).
  assert (LL : (length (firstn (need d) l) <= need (norm d))%nat) by (rewrite need_norm by exact V; rewrite firstn_length; lia).
  destruct (feed_valid (norm d) _ VN (norm_norm d) LL) as (F1 & F2 & F3). destruct (feed_states _ (norm d) SN (norm_norm d) LL) as (G1 & G2 & G3).
  eexists. split; [apply push_feed, V|]. split; [exact G1|]. split; [congruence|]. split; [congruence|].
  rewrite F3, need_norm by exact V. rewrite firstn_length. lia.
Qed.
Lemma avail_need d : dsane d -> num_push_bytes_avail d = Z.of_nat (need d).
Proof.
  intros (V & _). unfold need. rewrite Z2Nat.id; [reflexivity|]. unfold dvalid, num_push_bytes_avail in *.
  destruct (Z.eqb_spec (a_req d) 0); [lia|]. destruct (Z.eqb_spec (a_req d) 1); [lia|]. destruct (Z.leb_spec (a_req d) 5); [lia|]. destruct (Z.leb_spec 16 (a_req d)); lia.
Qed.
Lemma need_le16 d : dsane d -> (need d <= 16)%nat.
Proof.
  intros (V & _). unfold dvalid in V.
  unfold need, num_push_bytes_avail. destruct (Z.eqb_spec (a_req d) 0); [lia|]. destruct (Z.eqb_spec (a_req d) 1); [lia|]. destruct (Z.leb_spec (a_req d) 5); [lia|]. destruct (Z.leb_spec 16 (a_req d)); lia.
Qed.
(** a fill *)
Lemma fill_sane d b : dsane d -> bok b ->
  exists d' b', fill_from d b = Some (d', b', Nat.eqb (need d') 0) /\ dsane d' /\ sym_count d' = sym_count d /\ b_req d' = b_req d /\
    bok b' /\ mem b' = mem b /\ mb_data b' = skipn (need d) (mb_data b) /\ need d' = (need d - length (mb_data b))%nat /\ (need d = 0%nat -> d' = d /\ b' = b).
Proof.
  intros S B. unfold fill_from. rewrite (avail_need d S). destruct (Z.eqb_spec (Z.of_nat (need d)) 0) as [Z0|Z0].
  - assert (N0 : need d = 0%nat) by lia. exists d, b. rewrite N0. cbn [Nat.eqb skipn Nat.sub]. auto 12.
  - destruct (push_sane d (mb_data b) S) as (d' & -> & S' & C' & B' & N'). cbn [bind].
    destruct (mb_skip b (Nat.min (length (mb_data b)) (need d)) B) as (BO & E); [lia|].
    assert (SK : skipn (Nat.min (length (mb_data b)) (need d)) (mb_data b) = skipn (need d) (mb_data b)).
    { destruct (Nat.le_gt_cases (need d) (length (mb_data b))) as [X|X]; [rewrite Nat.min_r by lia; reflexivity|]. rewrite Nat.min_l by lia. rewrite !skipn_all2 by lia. reflexivity. }
    rewrite SK in E. rewrite (avail_need d' S'). replace (Z.of_nat (need d') =? 0) with (Nat.eqb (need d') 0).
    2:{ destruct (Nat.eqb_spec (need d') 0), (Z.eqb_spec (Z.of_nat (need d')) 0); lia. }
    eexists _, _. split; [reflexivity|]. split; [exact S'|]. split; [exact C'|]. split; [exact B'|]. split; [exact BO|]. split; [reflexivity|]. split; [exact E|]. split; [exact N'|]. intros X. contradiction Z0. lia.
Qed.
(** reading a symbol *)
Definition full_chunk (d : decoder) : bool := sym_count d =? 65535.
Lemma sym_any d cdf : dsane d -> need d = 0%nat -> codable cdf -> underflows d cdf = false ->
  exists v d', get_sym d (ref_lookup cdf) = Some (v, d') /\ nibble v /\ dsane d' /\
    sym_count d' = (if full_chunk d then 0 else sym_count d + 1) /\
    need d' = (if full_chunk d then 16 else if Z.eqb (b_req d) 0 then 0 else 4)%nat /\
    (b_req d = 0 \/ b_req d = 1).
Proof.
  intros S N C U. pose proof S as (V & SA & SB & SC & S0). pose proof V as (VR & VA & VB & VQ).
  assert (A0 : a_req d = 0) by (apply need_zero; assumption).
  unfold get_sym, get_cdf_value. rewrite A0. change (0 =? 0) with true. cbn [assert bind].
  unfold underflows in U. destruct (lookup_any cdf (Z.land (state_a d) SCALE_MASK) C) as (s & NS & E). rewrite E in U |- *.
  destruct (bnd_facts cdf s C NS) as (B1 & B2 & B3). set (lo := bnd cdf (s - 1)) in *. set (hi := bnd cdf s) in *.
  unfold advance_sym. cbv zeta.
  assert (U1 : u64 (hi - lo - 1) = hi - lo - 1) by (unfold u64; apply Z.mod_small; lia).
  assert (U2 : u64 (lo + 1) = lo + 1) by (unfold u64; apply Z.mod_small; lia).
  rewrite U1, U2. apply Z.ltb_ge in U.
  assert (MK : 0 <= Z.land (state_a d) SCALE_MASK < 2 ^ 15) by (rewrite mask_mod; apply Z.mod_pos_bound; reflexivity).
  assert (SH : 0 <= Z.shiftr (state_a d) LOG2_SCALE /\ Z.shiftr (state_a d) LOG2_SCALE < 2 ^ 49).
  { unfold LOG2_SCALE. rewrite Z.shiftr_div_pow2 by lia. split; [apply Z.div_pos; lia|]. apply Z.div_lt_upper_bound; [lia|]. change (2 ^ 15 * 2 ^ 49) with (2 ^ 64). exact SA. }
  set (off := Z.land (state_a d) SCALE_MASK) in *. set (top := Z.shiftr (state_a d) LOG2_SCALE) in *. set (fr := hi - lo - 1) in *.
  assert (FR : 1 <= fr <= 2 ^ 15 - 1) by (unfold fr; lia).
  assert (P : 0 <= fr * top <= (2 ^ 15 - 1) * (2 ^ 49 - 1)) by (clear - FR SH; nia).
  change ((2 ^ 15 - 1) * (2 ^ 49 - 1)) with 18446181123756097537 in P. change (2 ^ 15) with 32768 in *.
  assert (T64 : 2 ^ 64 = 18446744073709551616) by reflexivity. rewrite T64.
  unfold assert. destruct (Z.ltb_spec (fr * top) 18446744073709551616); [|lia].
  destruct (Z.ltb_spec (fr * top + off) 18446744073709551616); [|lia].
  destruct (Z.leb_spec 0 (fr * top + off - (lo + 1))); [|lia]. cbn [bind].
  eexists _, _. split; [reflexivity|]. split; [exact NS|].
  change (NUM_SYMBOLS_BEFORE_FLUSH - 1) with 65535. fold (full_chunk d).
  assert (CC : u16 (sym_count d + 1) = if full_chunk d then 0 else sym_count d + 1).
  { unfold full_chunk, u16. destruct (Z.eqb_spec (sym_count d) 65535) as [->|X]; [reflexivity|]. apply Z.mod_small. lia. }
  unfold need, dsane, dvalid, num_push_bytes_avail. cbn [state_a state_b sym_count a_req b_req]. rewrite CC. unfold full_chunk in *.
  split; [|split; [reflexivity|split; [|exact VQ]]].
  - destruct VQ as [-> | ->]; destruct (Z.eqb_spec (sym_count d) 65535).
    + change (Z.lor 0 8) with 8. rewrite T64. repeat split; try lia. destruct (_ <? _); lia.
    + change (Z.lor 0 0) with 0. rewrite T64. repeat split; try lia. destruct (_ <? _); lia.
    + change (Z.lor 1 8) with 9. rewrite T64. repeat split; try lia. destruct (_ <? _); lia.
    + change (Z.lor 1 0) with 1. rewrite T64. repeat split; try lia. destruct (_ <? _); lia.
  - destruct VQ as [-> | ->]; destruct (sym_count d =? 65535); reflexivity.
Qed.

(** ** The room a decoder has left: [A] bytes to come *)
Definition pot (d : decoder) (A : Z) : Z := 65536 * (A - Z.of_nat (need d) + 16) + 65536 - sym_count d.
Lemma pot_pos d A : dsane d -> 0 <= A -> 1 <= pot d A.
Proof. intros DS H. pose proof (need_le16 d DS). destruct DS as (_ & _ & _ & S & _). unfold pot. lia. Qed.
Lemma pot_fill d d' A k : need d' = (need d - k)%nat -> (k <= need d)%nat -> sym_count d' = sym_count d -> pot d' (A - Z.of_nat k) = pot d A.
Proof. intros N K S. unfold pot. rewrite N, S. lia. Qed.
Lemma pot_sym d d' A : dsane d -> need d = 0%nat -> sym_count d' = (if full_chunk d then 0 else sym_count d + 1) ->
  need d' = (if full_chunk d then 16 else if Z.eqb (b_req d) 0 then 0 else 4)%nat -> pot d' A < pot d A.
Proof.
  intros (_ & _ & _ & S & _) N C N'. unfold pot. rewrite N, C, N'. unfold full_chunk. destruct (Z.eqb_spec (sym_count d) 65535); [lia|]. destruct (Z.eqb_spec (b_req d) 0); lia.
Qed.
