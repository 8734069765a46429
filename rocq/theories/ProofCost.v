(** Coding cost of the entropy coder. *)
From Verif Require Import Prelude ModelAns SpecAns ProofAnsRt ProofAnsDec SpecCost.

Lemma grow N k : 0 < N -> 0 <= k <= N -> (N + 1) ^ k * (N - k) <= N ^ (k + 1).
Proof.
  intros HN [H0 HK]. revert k H0 HK.
  refine (natlike_ind (fun k => k <= N -> (N + 1) ^ k * (N - k) <= N ^ (k + 1)) _ _).
  - intros _. rewrite Z.pow_0_r. change (0 + 1) with 1. rewrite Z.pow_1_r. lia.
  - intros k H IH HK. unfold Z.succ in *. specialize (IH ltac:(lia)).
    rewrite (Z.pow_add_r (N + 1)) by lia. rewrite (Z.pow_add_r N (k + 1)) by lia. rewrite !Z.pow_1_r.
    pose proof (Z.pow_nonneg (N + 1) k ltac:(lia)) as P.
    set (X := (N + 1) ^ k) in *. set (Y := N ^ (k + 1)) in *. clearbody X Y.
    assert ((N + 1) * (N - (k + 1)) <= N * (N - k)) by nia.
    assert (X * ((N + 1) * (N - (k + 1))) <= X * (N * (N - k))) by (apply Z.mul_le_mono_nonneg_l; lia).
    assert (N * (X * (N - k)) <= N * Y) by (apply Z.mul_le_mono_nonneg_l; lia). lia.
Qed.
Lemma shrink N k : 1 < N -> 0 <= k <= N -> N ^ k * (N - k) <= (N - 1) ^ k * N.
Proof.
  intros HN [H0 HK]. revert k H0 HK.
  refine (natlike_ind (fun k => k <= N -> N ^ k * (N - k) <= (N - 1) ^ k * N) _ _).
  - intros _. rewrite !Z.pow_0_r. lia.
  - intros k H IH HK. unfold Z.succ in *. specialize (IH ltac:(lia)).
    rewrite !(Z.pow_add_r _ k 1), !Z.pow_1_r by lia.
    pose proof (Z.pow_nonneg N k ltac:(lia)) as P.
    set (X := N ^ k) in *. set (Y := (N - 1) ^ k) in *. clearbody X Y.
    assert (N * (N - (k + 1)) <= (N - 1) * (N - k)) by nia.
    assert (X * (N * (N - (k + 1))) <= X * ((N - 1) * (N - k))) by (apply Z.mul_le_mono_nonneg_l; lia).
    assert ((N - 1) * (X * (N - k)) <= (N - 1) * (Y * N)) by (apply Z.mul_le_mono_nonneg_l; lia). lia.
Qed.
Lemma grow_half N k : 0 < N -> 0 <= k -> 2 * k <= N -> (N + 1) ^ k <= 2 * N ^ k.
Proof.
  intros HN H0 HK. pose proof (grow N k HN ltac:(lia)) as G. rewrite Z.pow_add_r, Z.pow_1_r in G by lia.
  pose proof (Z.pow_nonneg (N + 1) k ltac:(lia)) as P. set (X := (N + 1) ^ k) in *. set (Y := N ^ k) in *. clearbody X Y.
  assert (X * N <= X * (2 * (N - k))) by (apply Z.mul_le_mono_nonneg_l; lia).
  assert (N * X <= N * (2 * Y)) by lia. eapply Z.mul_le_mono_pos_l; [|eassumption]. lia.
Qed.
Lemma shrink_half N k : 1 < N -> 0 <= k -> 2 * k <= N -> N ^ k <= 2 * (N - 1) ^ k.
Proof.
  intros HN H0 HK. pose proof (shrink N k HN ltac:(lia)) as G.
  pose proof (Z.pow_nonneg N k ltac:(lia)) as P. set (Y := (N - 1) ^ k) in *. set (X := N ^ k) in *. clearbody X Y.
  assert (X * N <= X * (2 * (N - k))) by (apply Z.mul_le_mono_nonneg_l; lia).
  assert (N * X <= N * (2 * Y)) by lia. eapply Z.mul_le_mono_pos_l; [|eassumption]. lia.
Qed.
Lemma halves n N : 0 <= n -> n <= N -> Z.even N = true -> exists k1 k2, n = k1 + k2 /\ 0 <= k1 /\ 0 <= k2 /\ 2 * k1 <= N /\ 2 * k2 <= N.
Proof.
  intros H0 HN EV. exists (n / 2), (n - n / 2). apply Z.even_spec in EV. destruct EV as [h ->]. repeat split; lia.
Qed.
Lemma mul4 a b c d : 0 <= a -> 0 <= c -> a <= b -> c <= d -> a * c <= b * d.
Proof. intros. apply Z.mul_le_mono_nonneg; assumption. Qed.
Lemma grow_full n : 0 <= n <= 65536 -> (2 ^ 16 + 1) ^ n <= 4 * 2 ^ (16 * n).
Proof.
  intros H. destruct (halves n (2 ^ 16)) as (k1 & k2 & -> & A & B & C & D); try lia; [reflexivity|].
  pose proof (grow_half (2 ^ 16) k1 ltac:(lia) A C) as G1. pose proof (grow_half (2 ^ 16) k2 ltac:(lia) B D) as G2.
  rewrite (Z.pow_mul_r 2 16) by lia. rewrite !(Z.pow_add_r _ k1 k2) by lia.
  pose proof (Z.pow_nonneg (2 ^ 16 + 1) k1 ltac:(lia)). pose proof (Z.pow_nonneg (2 ^ 16 + 1) k2 ltac:(lia)).
  pose proof (mul4 _ _ _ _ H0 H1 G1 G2). lia.
Qed.
Lemma shrink_full n : 0 <= n <= 65536 -> 2 ^ (16 * n) <= 4 * (2 ^ 16 - 1) ^ n.
Proof.
  intros H. destruct (halves n (2 ^ 16)) as (k1 & k2 & -> & A & B & C & D); try lia; [reflexivity|].
  pose proof (shrink_half (2 ^ 16) k1 ltac:(lia) A C) as G1. pose proof (shrink_half (2 ^ 16) k2 ltac:(lia) B D) as G2.
  rewrite (Z.pow_mul_r 2 16) by lia. rewrite !(Z.pow_add_r _ k1 k2) by lia.
  pose proof (Z.pow_nonneg (2 ^ 16) k1 ltac:(lia)). pose proof (Z.pow_nonneg (2 ^ 16) k2 ltac:(lia)).
  pose proof (mul4 _ _ _ _ H0 H1 G1 G2). lia.
Qed.

Lemma weight_pos l : Forall lsf l -> 0 < weight l.
Proof.
  induction 1 as [|[s f] l (A & B & C) F IH]; [unfold weight; cbn; lia|].
  unfold weight in *. cbn [map fold_right fst snd] in *. apply Z.mul_pos_pos; lia.
Qed.
Lemma weight_app l m : weight (l ++ m) = weight l * weight m.
Proof.
  unfold weight. rewrite map_app. induction (map snd l) as [|x r IH]; cbn [app fold_right]; [lia|]. rewrite IH. lia.
Qed.

Lemma encx_up y s f : legal s f -> 2 ^ 16 * f <= y -> encx y s f * f * 2 ^ 16 <= 2 ^ 15 * (2 ^ 16 + 1) * y.
Proof.
  intros (Hs & Hf & Hsf) Hy. unfold encx. pose proof (Z.mod_pos_bound y f ltac:(lia)) as M. pose proof (Z.div_mod y f ltac:(lia)) as D.
  set (q := y / f) in *. set (r := y mod f) in *. clearbody q r. assert (q * f <= y) by lia.
  assert ((r + s) * f <= 2 ^ 15 * f) by (apply Z.mul_le_mono_nonneg_r; lia). lia.
Qed.
Lemma encx_low y s f : legal s f -> 2 ^ 16 * f <= y -> 2 ^ 15 * (2 ^ 16 - 1) * y <= encx y s f * f * 2 ^ 16.
Proof.
  intros (Hs & Hf & Hsf) Hy. unfold encx. pose proof (Z.mod_pos_bound y f ltac:(lia)) as M. pose proof (Z.div_mod y f ltac:(lia)) as D.
  set (q := y / f) in *. set (r := y mod f) in *. clearbody q r. assert (y - f <= q * f) by lia.
  assert (0 <= (r + s) * f) by (apply Z.mul_nonneg_nonneg; lia). lia.
Qed.

(** one symbol: [bits] emitted, the old state [a], the new one [x] *)
Lemma step_both a s f : inrange a -> legal s f -> forall x e q,
  (if 2 ^ 48 * f <=? a then (encx (a / 2 ^ 32) s f, 4) else (encx a s f, 0)) = (x, e) ->
  (if 2 ^ 48 * f <=? a then le 4 a ++ q else q) = (if 2 ^ 48 * f <=? a then le 4 a else []) ++ q /\
  0 <= e /\ Z.of_nat (length (if 2 ^ 48 * f <=? a then le 4 a else [])) = e /\
  2 ^ (8 * e) * (x * f * 2 ^ 16) <= 2 ^ 15 * (2 ^ 16 + 1) * a /\
  2 ^ 15 * ((2 ^ 16 - 1) * (2 ^ 16 - 1)) * a <= 2 ^ (8 * e) * (x * f * 2 ^ 16) * 2 ^ 16.
Proof.
  intros I L x e q E. destruct (renorm_range a f I ltac:(apply L)) as (R & _).
  destruct (Z.leb_spec (2 ^ 48 * f) a) as [H|H].
  - assert (x = encx (a / 2 ^ 32) s f) by congruence. assert (e = 4) by congruence. subst.
    split; [reflexivity|]. rewrite le_length. split; [lia|]. split; [reflexivity|].
    pose proof (encx_up (a / 2 ^ 32) s f L ltac:(apply R)) as U. pose proof (encx_low (a / 2 ^ 32) s f L ltac:(apply R)) as W.
    set (X := encx (a / 2 ^ 32) s f * f) in *. clearbody X. destruct L as (_ & Hf & _). change (2 ^ (8 * 4)) with (2 ^ 32).
    clear - U W Hf H. lia.
  - assert (x = encx a s f) by congruence. assert (e = 0) by congruence. subst.
    split; [reflexivity|]. split; [lia|]. split; [reflexivity|].
    pose proof (encx_up a s f L ltac:(apply R)) as U. pose proof (encx_low a s f L ltac:(apply R)) as W.
    set (X := encx a s f * f) in *. clearbody X. change (2 ^ (8 * 0)) with 1. unfold inrange in I.
    clear - U W I. lia.
Qed.

Lemma chain_up K Q A B C : 0 <= K -> 0 <= B -> Q <= B * A -> K * A <= C -> K * Q <= B * C.
Proof.
  intros HK HB H1 H2. assert (K * Q <= K * (B * A)) by (apply Z.mul_le_mono_nonneg_l; lia).
  assert (B * (K * A) <= B * C) by (apply Z.mul_le_mono_nonneg_l; lia). lia.
Qed.
Lemma chain_low K Q A B C : 0 <= K -> 0 <= B -> B * A <= Q -> C <= K * A -> B * C <= K * Q.
Proof.
  intros HK HB H1 H2. assert (K * (B * A) <= K * Q) by (apply Z.mul_le_mono_nonneg_l; lia).
  assert (B * C <= B * (K * A)) by (apply Z.mul_le_mono_nonneg_l; lia). lia.
Qed.

Lemma epure_cost l : Forall lsf l ->
  let '(a, b, q) := epure l in
  2 ^ (8 * Z.of_nat (length q)) * (a * b) * weight l * 2 ^ (16 * count l) <= 2 ^ 62 * 2 ^ (15 * count l) * (2 ^ 16 + 1) ^ count l /\
  2 ^ 62 * 2 ^ (15 * count l) * ((2 ^ 16 - 1) ^ count l * (2 ^ 16 - 1) ^ count l) <=
    2 ^ (8 * Z.of_nat (length q)) * (a * b) * weight l * (2 ^ (16 * count l) * 2 ^ (16 * count l)).
Proof.
  induction 1 as [|[s f] r Hl Hr IH]; cbn [epure].
  - unfold weight, count. cbn [length map fold_right]. change (Z.of_nat 0) with 0. rewrite !Z.mul_0_r, !Z.pow_0_r. lia.
  - pose proof (epure_range r Hr) as R. destruct (epure r) as [[a b] q]. destruct R as (Ha & Hb & Hq). destruct IH as (IU & IL).
    cbn [fst snd] in Hl. unfold estep.
    destruct (if 2 ^ 48 * f <=? a then (encx (a / 2 ^ 32) s f, 4) else (encx a s f, 0)) as [x e] eqn:E.
    destruct (step_both a s f Ha Hl x e q E) as (Q & E0 & EL & U & L).
    assert (SH : (if 2 ^ 48 * f <=? a then (b, encx (a / 2 ^ 32) s f, le 4 a ++ q) else (b, encx a s f, q)) =
      (b, x, (if 2 ^ 48 * f <=? a then le 4 a else []) ++ q)).
    { destruct (2 ^ 48 * f <=? a); cbn [app]; congruence. }
    rewrite SH. rewrite app_length, Nat2Z.inj_add, EL.
    assert (EC : count ((s, f) :: r) = count r + 1) by (unfold count; cbn [length]; lia). rewrite EC.
    assert (EW : weight ((s, f) :: r) = f * weight r) by reflexivity. rewrite EW.
    assert (C0 : 0 <= count r) by (unfold count; lia). pose proof (weight_pos r Hr) as W0.
    rewrite !(Z.mul_add_distr_l _ (count r) 1), !Z.mul_1_r, (Z.mul_add_distr_l 8 e).
    rewrite !(Z.pow_add_r 2 (_ * count r)), (Z.pow_add_r 2 (8 * e)) by lia. rewrite !(Z.pow_add_r _ (count r) 1), !Z.pow_1_r by lia.
    set (F := 2 ^ (8 * e)) in *. set (n := count r) in *. pose proof (Z.pow_nonneg 2 (8 * Z.of_nat (length q)) ltac:(lia)) as PG.
    set (G := 2 ^ (8 * Z.of_nat (length q))) in *. pose proof (Z.pow_nonneg 2 (16 * n) ltac:(lia)) as P6. set (S := 2 ^ (16 * n)) in *.
    set (V := 2 ^ (15 * n)) in *. set (u := (2 ^ 16 + 1) ^ n) in *. set (v := (2 ^ 16 - 1) ^ n) in *. set (w := weight r) in *.
    unfold inrange in Ha, Hb. clearbody F G S V u v w.
    assert (HGB : 0 <= G * b * w * S) by (repeat apply Z.mul_nonneg_nonneg; lia).
    assert (HGC : 0 <= G * b * w * (S * S)) by (repeat apply Z.mul_nonneg_nonneg; lia).
    split.
    + pose proof (chain_up (G * b * w * S) (F * (x * f * 2 ^ 16)) a (2 ^ 15 * (2 ^ 16 + 1)) (2 ^ 62 * V * u) HGB ltac:(lia) U ltac:(clear - IU; lia)) as X.
      clear - X. lia.
    + pose proof (chain_low (G * b * w * (S * S)) (F * (x * f * 2 ^ 16) * 2 ^ 16) a (2 ^ 15 * ((2 ^ 16 - 1) * (2 ^ 16 - 1))) (2 ^ 62 * V * (v * v)) HGC ltac:(lia) L ltac:(clear - IL; lia)) as X.
      clear - X. lia.
Qed.

Lemma chunk_cost l : Forall lsf l -> count l <= 65536 ->
  at_least_ideal_plus (Z.of_nat (length (chunk_bytes l))) l 60 /\ at_most_ideal_plus (Z.of_nat (length (chunk_bytes l))) l 130.
Proof.
  intros F HN. pose proof (epure_cost l F) as C. pose proof (epure_range l F) as R. unfold chunk_bytes. destruct (epure l) as [[a b] q].
  destruct C as (CU & CL). destruct R as (Ha & Hb & _). unfold inrange in *.
  unfold at_least_ideal_plus, at_most_ideal_plus. rewrite !app_length, !le_length.
  assert (C0 : 0 <= count l) by (unfold count; lia). pose proof (weight_pos l F) as W0.
  pose proof (grow_full (count l) ltac:(lia)) as GF. pose proof (shrink_full (count l) ltac:(lia)) as SF.
  replace (8 * Z.of_nat (8 + (8 + length q))) with (128 + 8 * Z.of_nat (length q)) by lia.
  rewrite (Z.pow_add_r 2 128), (Z.pow_add_r 2 _ 130), (Z.pow_add_r 2 _ 60) by lia.
  pose proof (Z.pow_pos_nonneg 2 (8 * Z.of_nat (length q)) ltac:(lia) ltac:(lia)) as PG. pose proof (Z.pow_pos_nonneg 2 (16 * count l) ltac:(lia) ltac:(lia)) as PS.
  pose proof (Z.pow_pos_nonneg 2 (15 * count l) ltac:(lia) ltac:(lia)) as PV.
  pose proof (Z.pow_pos_nonneg (2 ^ 16 - 1) (count l) ltac:(lia) ltac:(lia)) as Pv.
  set (G := 2 ^ (8 * Z.of_nat (length q))) in *. set (S := 2 ^ (16 * count l)) in *. set (V := 2 ^ (15 * count l)) in *.
  set (u := (2 ^ 16 + 1) ^ count l) in *. set (v := (2 ^ 16 - 1) ^ count l) in *. set (w := weight l) in *. clearbody G S V u v w. clear HN F C0 l.
  assert (HGw : 0 <= G * w * S) by (repeat apply Z.mul_nonneg_nonneg; lia).
  split.
  - (* lower *)
    assert (AB : a * b <= 2 ^ 126) by (change (2 ^ 126) with (2 ^ 63 * 2 ^ 63); apply mul4; lia).
    assert (VV : S * S <= 16 * (v * v)) by (pose proof (mul4 S (4 * v) S (4 * v) ltac:(lia) ltac:(lia) SF SF); lia).
    assert (X1 : 2 ^ 62 * V * (S * S) <= 16 * (2 ^ 62 * V * (v * v))).
    { replace (16 * (2 ^ 62 * V * (v * v))) with (2 ^ 62 * V * (16 * (v * v))) by lia. apply Z.mul_le_mono_nonneg_l; lia. }
    assert (X2 : G * (a * b) * w * (S * S) <= G * 2 ^ 126 * w * (S * S)).
    { assert (0 <= G * w * (S * S)) by (repeat apply Z.mul_nonneg_nonneg; lia).
      replace (G * (a * b) * w * (S * S)) with (G * w * (S * S) * (a * b)) by lia. replace (G * 2 ^ 126 * w * (S * S)) with (G * w * (S * S) * 2 ^ 126) by lia.
      apply Z.mul_le_mono_nonneg_l; assumption. }
    assert (SS : 0 < S * S) by (apply Z.mul_pos_pos; lia).
    assert (X3 : (S * S) * (2 ^ 62 * V) <= (S * S) * (2 ^ 130 * (G * w))) by lia.
    apply Z.mul_le_mono_pos_l in X3; [|assumption]. assert (X4 : 2 ^ 62 * V <= 2 ^ 130 * (G * w)) by exact X3. lia.
  - assert (AB : 2 ^ 62 <= a * b) by (change (2 ^ 62) with (2 ^ 31 * 2 ^ 31); apply mul4; lia).
    assert (X1 : G * w * S * 2 ^ 62 <= G * w * S * (a * b)) by (apply Z.mul_le_mono_nonneg_l; assumption).
    assert (X2 : 2 ^ 62 * V * u <= 2 ^ 62 * V * (4 * S)) by (apply Z.mul_le_mono_nonneg_l; lia).
    assert (X3 : S * (G * w) <= S * (4 * V)) by lia.
    apply Z.mul_le_mono_pos_l in X3; [|assumption]. lia.
Qed.

Lemma cost_join k1 l1 c1 k2 l2 c2 : 0 <= k1 -> 0 <= k2 -> 0 <= c1 -> 0 <= c2 -> Forall lsf l1 -> Forall lsf l2 ->
  (at_least_ideal_plus k1 l1 c1 -> at_least_ideal_plus k2 l2 c2 -> at_least_ideal_plus (k1 + k2) (l1 ++ l2) (c1 + c2)) /\
  (at_most_ideal_plus k1 l1 c1 -> at_most_ideal_plus k2 l2 c2 -> at_most_ideal_plus (k1 + k2) (l1 ++ l2) (c1 + c2)).
Proof.
  intros K1 K2 C1 C2 F1 F2. unfold at_least_ideal_plus, at_most_ideal_plus.
  assert (N1 : 0 <= count l1) by (unfold count; lia). assert (N2 : 0 <= count l2) by (unfold count; lia).
  assert (EC : count (l1 ++ l2) = count l1 + count l2) by (unfold count; rewrite app_length; lia). rewrite EC, weight_app.
  replace (15 * (count l1 + count l2) + (c1 + c2)) with ((15 * count l1 + c1) + (15 * count l2 + c2)) by lia.
  rewrite Z.mul_add_distr_l, !(Z.pow_add_r 2 (8 * k1)), !(Z.pow_add_r 2 (15 * count l1 + c1)) by lia.
  pose proof (weight_pos l1 F1). pose proof (weight_pos l2 F2).
  pose proof (Z.pow_nonneg 2 (15 * count l1 + c1) ltac:(lia)). pose proof (Z.pow_nonneg 2 (15 * count l2 + c2) ltac:(lia)).
  pose proof (Z.pow_nonneg 2 (8 * k1) ltac:(lia)). pose proof (Z.pow_nonneg 2 (8 * k2) ltac:(lia)).
  replace (2 ^ (8 * k1) * 2 ^ (8 * k2) * (weight l1 * weight l2)) with ((2 ^ (8 * k1) * weight l1) * (2 ^ (8 * k2) * weight l2)) by lia.
  split; intros A B; apply mul4; try assumption; apply Z.mul_nonneg_nonneg; lia.
Qed.
Lemma cost_nil : at_least_ideal_plus 0 [] 0 /\ at_most_ideal_plus 0 [] 0.
Proof. unfold at_least_ideal_plus, at_most_ideal_plus. split; vm_compute; discriminate. Qed.

Lemma encode_cost sfs : Forall lsf sfs ->
  exists out, ans_encode sfs = Some out /\
    at_least_ideal_plus (Z.of_nat (length out)) sfs (60 * groups (count sfs)) /\
    at_most_ideal_plus (Z.of_nat (length out)) sfs (130 * groups (count sfs)).
Proof.
  intros F. eexists. split; [now apply ans_encode_ok|].
  assert (G : forall sfs pend, count pend < 65536 -> Forall lsf pend -> Forall lsf sfs ->
    let k := Z.of_nat (length (concat (map chunk_bytes (chunks_from pend sfs)))) in
    at_least_ideal_plus k (pend ++ sfs) (60 * groups (count (pend ++ sfs))) /\
    at_most_ideal_plus k (pend ++ sfs) (130 * groups (count (pend ++ sfs)))).
  { clear sfs F. induction sfs as [|sf sfs IH]; intros pend Hp Fp Fs; cbn zeta; cbn [chunks_from].
    - rewrite app_nil_r. destruct pend as [|p pend]; [exact cost_nil|].
      cbn [map concat]. rewrite app_nil_r. pose proof (chunk_cost _ Fp ltac:(lia)) as C.
      replace (groups (count (p :: pend))) with 1; [exact C|]. unfold groups, count in *. cbn [length] in *. lia.
    - inversion Fs as [|? ? F1 F2]; subst.
      assert (Fp' : Forall lsf (pend ++ [sf])) by (apply Forall_app; auto).
      replace (pend ++ sf :: sfs) with ((pend ++ [sf]) ++ sfs) by (rewrite <- app_assoc; reflexivity).
      assert (C1 : count (pend ++ [sf]) = count pend + 1) by (unfold count; rewrite app_length; cbn [length]; lia).
      destruct (Z.eqb_spec (Z.of_nat (length pend)) 65535) as [E|E]; fold (count pend) in E.
      + cbn [map concat]. rewrite app_length, Nat2Z.inj_add. destruct (chunk_cost _ Fp' ltac:(lia)) as (A & B).
        destruct (IH [] ltac:(unfold count; cbn [length]; lia) ltac:(constructor) F2) as (A2 & B2). cbn [app] in A2, B2.
        assert (EG : groups (count ((pend ++ [sf]) ++ sfs)) = 1 + groups (count sfs)).
        { unfold groups, count in *. rewrite app_length, Nat2Z.inj_add, C1, E.
          replace (65535 + 1 + Z.of_nat (length sfs) + 65535) with (1 * 65536 + (Z.of_nat (length sfs) + 65535)) by lia. rewrite Z.div_add_l by lia. reflexivity. }
        assert (G0 : 0 <= groups (count sfs)) by (unfold groups, count; apply Z.div_pos; lia).
        rewrite EG, !Z.mul_add_distr_l. split.
        * apply (cost_join _ _ 60 _ _ (60 * groups (count sfs))); try assumption; lia.
        * apply (cost_join _ _ 130 _ _ (130 * groups (count sfs))); try assumption; lia.
      + apply IH; try assumption. lia. }
  specialize (G sfs [] ltac:(unfold count; cbn [length]; lia) ltac:(constructor) F). exact G.
Qed.
