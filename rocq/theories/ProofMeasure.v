(** The measuring wrappers. *)
From Verif Require Import Prelude ModelAns SpecAns ModelCdf SpecCdf ProofCdf ThmCdf ProofAnsRt ProofAnsDec SpecCost ProofCost ModelMeasure SpecMeasure.

Lemma sum_app a b : sum (a ++ b) = sum a + sum b.
Proof. unfold sum. induction a as [|x a IH]; cbn [app fold_right]; lia. Qed.
Lemma price_app unit lg a b : price unit lg (a ++ b) = price unit lg a + price unit lg b.
Proof. unfold price. rewrite map_app. apply sum_app. Qed.
Lemma u16_id x : 0 <= x < 2 ^ 16 -> u16 x = x.
Proof. intros H. unfold u16. apply Z.mod_small. exact H. Qed.

Lemma tally_inv unit lg ops : Forall tally_op_ok ops -> forall kept since t,
  t_snap t = price unit lg kept -> t_cost t = price unit lg kept + price unit lg since ->
  let t' := fold_left (tally_step unit lg) ops t in let '(kept, since) := counted ops kept since in
  t_snap t' = price unit lg kept /\ t_cost t' = price unit lg kept + price unit lg since.
Proof.
  induction 1 as [|o ops OK F IH]; intros kept since t S C; cbn [fold_left counted]; [split; assumption|].
  destruct o as [c nib| |].
  - apply IH; [exact S|]. cbn [tally_step tally_nibble fst tally_freq t_cost]. rewrite price_app, C. cbn in OK. destruct OK as (CO & N).
    pose proof (C04_intervals_sound c nib CO N) as ((_ & L & _) & _). rewrite u16_id by lia.
    assert (P1 : price unit lg [ref_interval c nib] = 15 * unit - lg (snd (ref_interval c nib))) by (unfold price; cbn [map sum fold_right]; lia). lia.
  - apply IH; cbn [tally_step take_snapshot t_snap t_cost]; rewrite price_app, C; [lia|]. change (price unit lg []) with 0. lia.
  - apply IH; cbn [tally_step reset_cost_to_snapshot t_snap t_cost]; [exact S|]. change (price unit lg []) with 0. lia.
Qed.

Lemma logs_down unit lg l : 0 <= unit -> rounds_down unit lg -> Forall lsf l ->
  0 <= sum (map (fun sf => lg (snd sf)) l) /\ 2 ^ sum (map (fun sf => lg (snd sf)) l) <= weight l ^ unit.
Proof.
  intros U R. induction 1 as [|[s f] l (A & B & C) F (IN & IH)]; [unfold weight; cbn [map sum fold_right]; rewrite Z.pow_1_l, Z.pow_0_r by lia; lia|].
  cbn [fst snd] in *. destruct (R f B) as (LN & LB). cbn [map sum fold_right snd]. fold (sum (map (fun sf : Z * Z => lg (snd sf)) l)). split; [lia|].
  change (weight ((s, f) :: l)) with (f * weight l). rewrite Z.pow_add_r, Z.pow_mul_l by lia. apply mul4; try assumption; apply Z.pow_nonneg; lia.
Qed.
Lemma logs_up unit lg l : 0 <= unit -> rounds_up unit lg -> Forall lsf l ->
  0 <= sum (map (fun sf => lg (snd sf)) l) /\ weight l ^ unit <= 2 ^ sum (map (fun sf => lg (snd sf)) l).
Proof.
  intros U R. induction 1 as [|[s f] l (A & B & C) F (IN & IH)]; [unfold weight; cbn [map sum fold_right]; rewrite Z.pow_1_l, Z.pow_0_r by lia; lia|].
  cbn [fst snd] in *. destruct (R f B) as (LN & LB). cbn [map sum fold_right snd]. fold (sum (map (fun sf : Z * Z => lg (snd sf)) l)). split; [lia|].
  change (weight ((s, f) :: l)) with (f * weight l). pose proof (weight_pos l F). rewrite Z.pow_add_r, Z.pow_mul_l by lia. apply mul4; try assumption; apply Z.pow_nonneg; lia.
Qed.
Lemma price_logs unit lg l : price unit lg l = 15 * count l * unit - sum (map (fun sf => lg (snd sf)) l).
Proof.
  unfold price, count. induction l as [|x l IH]; [cbn [map sum fold_right length]; lia|]. cbn [map sum fold_right length].
  fold (sum (map (fun sf : Z * Z => 15 * unit - lg (snd sf)) l)). fold (sum (map (fun sf : Z * Z => lg (snd sf)) l)). rewrite IH. lia.
Qed.
Lemma groups_nonneg l : 0 <= groups (count l).
Proof. unfold groups, count. apply Z.div_pos; lia. Qed.
Lemma estimate_down unit lg l out : 0 < unit -> rounds_down unit lg -> Forall lsf l -> ans_encode l = Some out ->
  unit * (8 * Z.of_nat (length out)) <= price unit lg l + unit * (130 * groups (count l)).
Proof.
  intros U R F E. destruct (encode_cost l F) as (out' & E' & _ & B). assert (out' = out) by congruence. subst out'. unfold at_most_ideal_plus in B.
  destruct (logs_down unit lg l ltac:(lia) R F) as (L0 & L1). rewrite price_logs. set (s := sum _) in *. pose proof (weight_pos l F) as W.
  pose proof (groups_nonneg l) as G. assert (N : 0 <= count l) by (unfold count; lia). set (g := groups (count l)) in *. set (x := 8 * Z.of_nat (length out)) in *.
  assert (X0 : 0 <= x) by (unfold x; lia).
  assert (P : (2 ^ x * weight l) ^ unit <= (2 ^ (15 * count l + 130 * g)) ^ unit).
  { apply Z.pow_le_mono_l. split; [apply Z.mul_nonneg_nonneg; [apply Z.pow_nonneg; lia|lia]|exact B]. }
  rewrite Z.pow_mul_l, <- !Z.pow_mul_r in P by lia.
  assert (Q : 2 ^ (x * unit) * 2 ^ s <= 2 ^ (x * unit) * weight l ^ unit) by (apply Z.mul_le_mono_nonneg_l; [apply Z.pow_nonneg; lia|exact L1]).
  rewrite <- Z.pow_add_r in Q by (try lia; apply Z.mul_nonneg_nonneg; lia).
  assert (T : 2 ^ (x * unit + s) <= 2 ^ ((15 * count l + 130 * g) * unit)) by lia.
  apply Z.pow_le_mono_r_iff in T; [lia|lia|apply Z.mul_nonneg_nonneg; lia].
Qed.
Lemma estimate_up unit lg l out : 0 < unit -> rounds_up unit lg -> Forall lsf l -> ans_encode l = Some out ->
  price unit lg l + unit * (60 * groups (count l)) <= unit * (8 * Z.of_nat (length out)).
Proof.
  intros U R F E. destruct (encode_cost l F) as (out' & E' & B & _). assert (out' = out) by congruence. subst out'. unfold at_least_ideal_plus in B.
  destruct (logs_up unit lg l ltac:(lia) R F) as (L0 & L1). rewrite price_logs. set (s := sum _) in *. pose proof (weight_pos l F) as W.
  pose proof (groups_nonneg l) as G. assert (N : 0 <= count l) by (unfold count; lia). set (g := groups (count l)) in *. set (x := 8 * Z.of_nat (length out)) in *.
  assert (X0 : 0 <= x) by (unfold x; lia).
  assert (P : (2 ^ (15 * count l + 60 * g)) ^ unit <= (2 ^ x * weight l) ^ unit).
  { apply Z.pow_le_mono_l. split; [apply Z.pow_nonneg; lia|exact B]. }
  rewrite Z.pow_mul_l, <- !Z.pow_mul_r in P by lia.
  assert (Q : 2 ^ (x * unit) * weight l ^ unit <= 2 ^ (x * unit) * 2 ^ s) by (apply Z.mul_le_mono_nonneg_l; [apply Z.pow_nonneg; lia|exact L1]).
  assert (XU : 0 <= x * unit) by (apply Z.mul_nonneg_nonneg; lia). rewrite <- Z.pow_add_r in Q by lia.
  assert (T : 2 ^ ((15 * count l + 60 * g) * unit) <= 2 ^ (x * unit + s)) by lia.
  apply Z.pow_le_mono_r_iff in T; [lia|lia|lia].
Qed.
Lemma log2_down unit : 0 <= unit -> rounds_down unit (fun f => Z.log2 (f ^ unit)).
Proof. intros U f F. split; [apply Z.log2_nonneg|]. apply Z.log2_spec. apply Z.pow_pos_nonneg; lia. Qed.
Lemma log2_up_up unit : 0 <= unit -> rounds_up unit (fun f => Z.log2_up (f ^ unit)).
Proof. intros U f F. split; [apply Z.log2_up_nonneg|]. apply Z.log2_log2_up_spec. apply Z.pow_pos_nonneg; lia. Qed.

(** *** Billing *)
Lemma pdf_share c s : nibble s -> pdf c s = share c s.
Proof.
  intros N. unfold pdf, share. unfold nibble in N. destruct (Z.eqb_spec s 0) as [->|S0].
  - rewrite cdf_at_cumul by (unfold nibble; lia). rewrite (cumul_neg c (0 - 1)) by lia. lia.
  - rewrite !cdf_at_cumul by (unfold nibble; lia). reflexivity.
Qed.
Definition entry (m : list (Z * (Z * Z))) (d : Z) : Z * Z := (bits (for_designation d m), vbits (for_designation d m)).
Lemma charge_entry m d x y : NoDup (map fst m) -> forall e,
  entry (charge m d x y) e = (if d =? e then (fst (entry m e) + x, snd (entry m e) + y) else entry m e).
Proof.
  induction m as [|[d' [u v]] m IH]; intros ND e; cbn [charge].
  - unfold entry, for_designation, bits, vbits. cbn [filter fst]. destruct (d =? e); [|reflexivity]. cbn [map sum fold_right fst snd]. f_equal; lia.
  - cbn [map fst] in ND. inversion ND as [|? ? NI ND']; subst. destruct (Z.eqb_spec d' d) as [->|X].
    + unfold entry, for_designation, bits, vbits. cbn [filter fst]. destruct (d =? e); [|reflexivity]. cbn [map sum fold_right fst snd]. f_equal; lia.
    + specialize (IH ND' e). unfold entry, for_designation, bits, vbits in *. cbn [filter fst]. destruct (Z.eqb_spec d' e) as [->|Y].
      * destruct (Z.eqb_spec d e); [congruence|]. cbn [map sum fold_right fst snd]. assert (E1 := f_equal fst IH). assert (E2 := f_equal snd IH). cbn [fst snd] in E1, E2. unfold sum in *. rewrite E1, E2. reflexivity.
      * exact IH.
Qed.
Lemma charge_in m d x y e : In e (map fst (charge m d x y)) -> e = d \/ In e (map fst m).
Proof.
  induction m as [|[d' [u v]] m IH]; cbn [charge]; intros H.
  - destruct H as [H|[]]. left. symmetry. exact H.
  - destruct (d' =? d); cbn [map fst] in *; [right; exact H|]. destruct H as [H|H]; [right; left; exact H|]. destruct (IH H) as [P|P]; [left; exact P|right; right; exact P].
Qed.
Lemma charge_nodup m d x y : NoDup (map fst m) -> NoDup (map fst (charge m d x y)).
Proof.
  induction m as [|[d' [u v]] m IH]; intros ND; cbn [charge]; [cbn; constructor; [intros []|constructor]|].
  cbn [map fst] in ND. inversion ND as [|? ? NI ND']; subst. destruct (Z.eqb_spec d' d); cbn [map fst]; [exact ND|].
  constructor; [|apply IH; exact ND']. intros H. apply charge_in in H. destruct H; [congruence|contradiction].
Qed.
Lemma charge_total m d x y : bits (charge m d x y) = bits m + x /\ vbits (charge m d x y) = vbits m + y.
Proof.
  unfold bits, vbits. induction m as [|[d' [u v]] m (I1 & I2)]; cbn [charge].
  - cbn [map sum fold_right fst snd]. lia.
  - destruct (d' =? d); cbn [map sum fold_right fst snd] in *; unfold sum in *; lia.
Qed.
Lemma total_fold m : forall a, fold_left (fun a e => (fst a + fst (snd e), snd a + snd (snd e))) m a = (fst a + bits m, snd a + vbits m).
Proof.
  unfold bits, vbits. induction m as [|[d [u v]] m IH]; intros [x y]; cbn [fold_left map sum fold_right fst snd]; [f_equal; lia|].
  rewrite IH. cbn [fst snd]. unfold sum. f_equal; lia.
Qed.

Section bill.
Context {K I O R : Type}.
Variable k_nibble : K -> Z -> list Z -> option (K * Z * (Z * Z)).
Variable k_bit : K -> bool -> Z -> option (K * bool).
Variable k_has_data : K -> bool.
Variable k_drain : K -> I -> O -> option (K * I * O * R).
Variable k_close : K -> option (K * R).
Variable unit : Z.
Variable lg : Z -> Z.
Variable bob : Z -> bool -> Z.
Notation PC := (plain_calls k_nibble k_bit k_has_data k_drain k_close).
Notation BC := (billed_calls k_nibble k_bit k_has_data k_drain k_close unit lg bob).
Notation BILL := (bill unit lg bob).

Lemma billed_step b x : match plain_call k_nibble k_bit k_has_data k_drain k_close (b_coder b) x with
  | None => billed_call k_nibble k_bit k_has_data k_drain k_close unit lg bob b x = None
  | Some (k, a) => exists b', billed_call k_nibble k_bit k_has_data k_drain k_close unit lg bob b x = Some (b', a) /\ b_coder b' = k /\
      ((forall k n c k2 n2 r, k_nibble k n c = Some (k2, n2, r) -> nibble n2) ->
        b_counter b' = fold_left (fun m e => charge m (fst e) (fst (snd e)) (snd (snd e))) (item unit lg bob x a) (b_counter b))
  end.
Proof.
  destruct x as [nib c d|bit p d|nib c|bit p| |i o| |]; cbn [plain_call billed_call].
  - unfold billing_nibble. destruct (k_nibble (b_coder b) nib c) as [[[k n] r]|] eqn:E; cbn [bind]; [|reflexivity].
    eexists. split; [reflexivity|]. split; [reflexivity|]. intros H. cbn [item fold_left fst snd b_counter].
    rewrite (pdf_share c n (H _ _ _ _ _ _ E)), cdf_max_total. reflexivity.
  - unfold billing_bit. destruct (k_bit (b_coder b) bit p) as [[k n]|] eqn:E; cbn [bind]; [|reflexivity].
    eexists. split; [reflexivity|]. split; [reflexivity|]. intros _. cbn [item fold_left fst snd b_counter]. rewrite Z.mul_1_l. reflexivity.
  - unfold billing_nibble_unknown, billing_nibble. destruct (k_nibble (b_coder b) nib c) as [[[k n] r]|] eqn:E; cbn [bind]; [|reflexivity].
    eexists. split; [reflexivity|]. split; [reflexivity|]. intros H. cbn [item fold_left fst snd b_counter].
    rewrite (pdf_share c n (H _ _ _ _ _ _ E)), cdf_max_total. reflexivity.
  - unfold billing_bit_unknown, billing_bit. destruct (k_bit (b_coder b) bit p) as [[k n]|] eqn:E; cbn [bind]; [|reflexivity].
    eexists. split; [reflexivity|]. split; [reflexivity|]. intros _. cbn [item fold_left fst snd b_counter]. rewrite Z.mul_1_l. reflexivity.
  - eexists. split; [reflexivity|]. split; reflexivity.
  - unfold billing_drain. destruct (k_drain (b_coder b) i o) as [[[[k i2] o2] r]|]; cbn [bind]; [|reflexivity]. eexists. split; [reflexivity|]. split; reflexivity.
  - unfold billing_close. destruct (k_close (b_coder b)) as [[k r]|]; cbn [bind]; [|reflexivity]. eexists. split; [reflexivity|]. split; reflexivity.
  - eexists. split; [reflexivity|]. split; reflexivity.
Qed.
Lemma billed_run l : forall b,
  match PC (b_coder b) l with
  | None => BC b l = None
  | Some (k, a) => exists b', BC b l = Some (b', a) /\ b_coder b' = k /\
      ((forall k n c k2 n2 r, k_nibble k n c = Some (k2, n2, r) -> nibble n2) ->
        b_counter b' = fold_left (fun m e => charge m (fst e) (fst (snd e)) (snd (snd e))) (BILL l a) (b_counter b))
  end.
Proof.
  induction l as [|x l IH]; intros b; cbn [plain_calls billed_calls].
  - exists b. split; [reflexivity|]. split; reflexivity.
  - pose proof (billed_step b x) as S. destruct (plain_call _ _ _ _ _ (b_coder b) x) as [[k a]|]; cbn [bind]; [|rewrite S; reflexivity].
    destruct S as (b' & S & <- & C). rewrite S. cbn [bind]. specialize (IH b'). destruct (PC (b_coder b') l) as [[k2 r]|]; cbn [bind]; [|rewrite IH; reflexivity].
    destruct IH as (b2 & S2 & <- & C2). rewrite S2. cbn [bind]. exists b2. split; [reflexivity|]. split; [reflexivity|]. intros H.
    rewrite (C2 H), (C H). unfold bill. cbn [combine map concat fst snd]. rewrite fold_left_app. reflexivity.
Qed.
End bill.
Lemma charges_all es : forall m, NoDup (map fst m) ->
  let m' := fold_left (fun m e => charge m (fst e) (fst (snd e)) (snd (snd e))) es m in
  NoDup (map fst m') /\ bits m' = bits m + bits es /\ vbits m' = vbits m + vbits es /\
  forall d, bits (for_designation d m') = bits (for_designation d m) + bits (for_designation d es) /\ vbits (for_designation d m') = vbits (for_designation d m) + vbits (for_designation d es).
Proof.
  induction es as [|[d [x y]] es IH]; intros m ND; cbn [fold_left].
  - cbn zeta. split; [exact ND|]. change (bits []) with 0. change (vbits []) with 0. split; [lia|]. split; [lia|]. intros d. change (for_designation d []) with (@nil (Z * (Z * Z))). change (bits []) with 0. change (vbits []) with 0. lia.
  - cbn zeta. destruct (IH (charge m d x y) (charge_nodup m d x y ND)) as (N2 & B & V & D). cbn [fst snd] in *. cbn zeta in *.
    destruct (charge_total m d x y) as (T1 & T2). split; [exact N2|].
    assert (B1 : bits ((d, (x, y)) :: es) = x + bits es) by reflexivity. assert (V1 : vbits ((d, (x, y)) :: es) = y + vbits es) by reflexivity.
    split; [lia|]. split; [lia|]. intros e. destruct (D e) as (D1 & D2). pose proof (charge_entry m d x y ND e) as CE. unfold entry in CE.
    unfold for_designation at 3 6. cbn [filter fst]. fold (for_designation e es).
    destruct (d =? e).
    + assert (E1 := f_equal fst CE). assert (E2 := f_equal snd CE). cbn [fst snd] in E1, E2.
      change (bits ((d, (x, y)) :: for_designation e es)) with (x + bits (for_designation e es)). change (vbits ((d, (x, y)) :: for_designation e es)) with (y + vbits (for_designation e es)). lia.
    + assert (E1 := f_equal fst CE). assert (E2 := f_equal snd CE). cbn [fst snd] in E1, E2. lia.
Qed.

(** *** Speeds *)
Lemma at_speed_ok h inc lim : hist_ok h -> 0 <= inc <= 5444 -> lim <= 16384 -> hist_ok (at_speed h inc lim).
Proof. intros H I L. induction h as [|h IH sym i l]; cbn [at_speed hist_ok] in *; [exact Logic.I|]. destruct H as (A & B & _). auto. Qed.
Lemma cost_terms h sym : hist_ok h -> nibble sym -> u16 (cdf_max (run_ref h)) = total (run_ref h) /\ u16 (pdf (run_ref h) sym) = share (run_ref h) sym.
Proof.
  intros H N. pose proof (run_ref_ok h H) as B. pose proof (base_codable _ B) as C. rewrite cdf_max_total, (pdf_share _ _ N).
  pose proof C as (_ & T & _). pose proof (codable_share _ _ C N) as S. pose proof (cumul_le_total _ sym C N) as L. pose proof (cumul_prev_nonneg _ sym C N) as P.
  unfold share in *. rewrite !u16_id by lia. split; reflexivity.
Qed.
Definition speed_ok (s : Z * Z) : Prop := 0 <= fst s <= 5444 /\ snd s <= 16384.
Lemma palette_ok : Forall speed_ok ENCODER_DEFAULT_PALETTE.
Proof. unfold speed_ok, ENCODER_DEFAULT_PALETTE. repeat constructor; cbn [fst snd]; lia. Qed.
Lemma variant_loop_map lg h sym inc lim : hist_ok h -> nibble sym -> forall L j,
  Forall speed_ok L -> (forall k, (k < length L)%nat -> nth k L (0, 0) = nth (j + k) ENCODER_DEFAULT_PALETTE (0, 0)) ->
  variant_loop lg (S j) (map (fun s => run_ref (at_speed h (fst s) (snd s))) L) (map (fun s => history_cost lg (at_speed h (fst s) (snd s))) L) sym inc lim =
  (map (fun s => run_ref (at_speed (Seen h sym inc lim) (fst s) (snd s))) L, map (fun s => history_cost lg (at_speed (Seen h sym inc lim) (fst s) (snd s))) L).
Proof.
  intros H N. induction L as [|[i l] L IH]; intros j F E; [reflexivity|]. inversion F as [|? ? (S1 & S2) F']; subst. cbn [fst snd] in S1, S2.
  cbn [map variant_loop]. pose proof (E 0%nat ltac:(cbn [length]; lia)) as E0. cbn [nth] in E0. rewrite Nat.add_0_r in E0. rewrite <- E0.
  rewrite IH; [|exact F'|].
  - cbn [fst snd at_speed run_ref history_cost]. destruct (cost_terms (at_speed h i l) sym (at_speed_ok h i l H S1 S2) N) as (C1 & C2). rewrite C1, C2. reflexivity.
  - intros k K. specialize (E (S k) ltac:(cbn [length]; lia)). cbn [nth] in E. rewrite E. f_equal. lia.
Qed.
Lemma variant_run lg h : hist_ok h ->
  run_variant lg h = Variant (run_ref h :: map (fun s => run_ref (at_speed h (fst s) (snd s))) ENCODER_DEFAULT_PALETTE)
                             (history_cost lg h :: map (fun s => history_cost lg (at_speed h (fst s) (snd s))) ENCODER_DEFAULT_PALETTE).
Proof.
  induction h as [|h IH sym inc lim]; intros H; [reflexivity|]. cbn [hist_ok] in H. destruct H as (H & N & I & L). cbn [run_variant]. rewrite (IH H). clear IH.
  unfold variant_blend. cbn [v_cdf v_cost].
  assert (ST : forall P C, variant_loop lg 0 (run_ref h :: P) (history_cost lg h :: C) sym inc lim =
    (blend (run_ref h) sym inc lim :: fst (variant_loop lg 1 P C sym inc lim), (history_cost lg h + (lg (u16 (cdf_max (run_ref h))) - lg (u16 (pdf (run_ref h) sym)))) :: snd (variant_loop lg 1 P C sym inc lim))).
  { intros P C. cbn [variant_loop]. destruct (variant_loop lg 1 P C sym inc lim). reflexivity. }
  rewrite ST. rewrite (variant_loop_map lg h sym inc lim H N _ 0 palette_ok); [|intros k _; reflexivity]. cbn [fst snd].
  destruct (cost_terms h sym H N) as (C1 & C2). rewrite C1, C2. reflexivity.
Qed.
