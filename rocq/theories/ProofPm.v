(** The encoder's run on a prediction mode command. *)
From Verif Require Import Prelude ModelAns ModelCdf SpecCdf ProofCdf ModelMux ProofZlist ModelCmd ModelPriors ModelContextLut ModelCodec ModelLit ModelPm ModelTop SpecCodec ThmPriors ProofCodecInv ProofCodecInv2 ProofRun ProofCopy ProofLit.

(** ** speeds *)
Lemma speed_code7 v : 0 <= v < 12288 \/ v = 16384 -> 0 <= speed_to_u8 v < 128.
Proof.
  intros H. destruct (Z.eq_dec v 0) as [->|Ev]; [vm_compute; intuition discriminate|].
  pose proof (Z.log2_spec v ltac:(lia)) as V. pose proof (Z.log2_nonneg v) as K0. set (k := Z.log2 v) in *. unfold Z.succ in V.
  assert (KK : 0 <= k < 15).
  { split; [exact K0|]. assert (~ 15 <= k); [|lia]. intros X. assert (2 ^ 15 <= 2 ^ k) by (apply Z.pow_le_mono_r; lia). lia. }
  destruct (speed_to_u8_eq k v KK V ltac:(lia)) as (c & C & Ec & E).
  pose proof speed_code_ok as S. rewrite forallb_forall in S. specialize (S (k, c)). rewrite in_prod_iff in S.
  specialize (S (conj (in_zrange 15 k KK) (in_zrange 8 c C))). unfold speed_code_check in S. cbn [fst snd] in S.
  apply andb_prop in S. destruct S as (S1 & _). apply Z.eqb_eq in S1. rewrite E, S1. lia.
Qed.
Definition fine (v : Z) : Prop := 0 <= v < 12288 \/ v = 16384.
Lemma fine_trip v : fine v -> exists w, u8_to_speed (speed_to_u8 v) = Some w /\ fine w /\ w <= v /\ 0 <= w.
Proof.
  intros [H| ->].
  - destruct (speed_roundtrip_approx v (or_introl H)) as (w & E & W1 & W2). exists w. unfold fine. split; [exact E|]. lia.
  - exists 16384. unfold fine. split; [vm_compute; reflexivity|]. lia.
Qed.
Lemma land127_id v : 0 <= v < 128 -> Z.land v 127 = v.
Proof. intros H. change 127 with (2 ^ 7 - 1). rewrite land_mask by lia. apply Z.mod_small. change (2 ^ 7) with 128. lia. Qed.
Lemma f8_good s : sane_speed s -> exists q, speed_of_f8 (f8_of s) = Some q /\ tame q.
Proof.
  intros (H1 & H2). destruct s as (a, b). cbn [fst snd] in *. assert (F1 : fine a) by (unfold fine; lia). assert (F2 : fine b) by exact H2.
  unfold f8_of, speed_of_f8. cbn [fst snd]. rewrite !land127_id by (apply speed_code7; assumption).
  destruct (fine_trip a F1) as (a1 & E1 & G1 & L1 & P1). destruct (fine_trip b F2) as (b1 & E2 & G2 & L2 & P2). rewrite E1, E2.
  destruct (fine_trip a1 G1) as (a2 & E3 & G3 & L3 & P3). destruct (fine_trip b1 G2) as (b2 & E4 & G4 & L4 & P4). rewrite E3, E4.
  eexists. split; [reflexivity|]. split; cbn [fst snd]; [lia|]. unfold fine in G4. lia.
Qed.
Lemma store_f8 s : sane_speed s -> store_speed (speed_to_u8 (fst s), speed_to_u8 (snd s)) = Some (f8_of s).
Proof.
  intros (H1 & H2). destruct s as (a, b). cbn [fst snd] in *. assert (F1 : fine a) by (unfold fine; lia). assert (F2 : fine b) by exact H2.
  unfold f8_of, store_speed. cbn [fst snd]. rewrite !land127_id by (apply speed_code7; assumption).
  destruct (fine_trip a F1) as (a1 & E1 & _). destruct (fine_trip b F2) as (b1 & E2 & _). rewrite E1, E2. reflexivity.
Qed.
(** the part of a code received after [k] of its two nibbles *)
Definition part (k c : Z) : Z := if k <=? 0 then 0 else if k =? 1 then 8 * (c / 8) else c.
Definition out_at (c d : Z -> Z) (i : Z) : list (Z * Z) :=
  map (fun j => (part (i - 4 * j) (c j), part (i - 4 * j - 2) (d j))) [0; 1; 2; 3].
Lemma part_hi c : 0 <= c < 128 -> nibble (Z.shiftr c 3) /\ Z.shiftl (Z.shiftr c 3) 3 mod 256 = 8 * (c / 8).
Proof. intros H. unfold nibble. rewrite Z.shiftl_mul_pow2, Z.shiftr_div_pow2 by lia. change (2 ^ 3) with 8. lia. Qed.
Lemma part_lo c : 0 <= c < 128 -> nibble (Z.land c 7) /\ Z.lor (8 * (c / 8)) (Z.land c 7) = c.
Proof.
  intros H. pose proof (land7 c). split; [unfold nibble; lia|]. change 7 with (2 ^ 3 - 1). rewrite land_mask by lia. change (2 ^ 3) with 8.
  rewrite Z.lor_comm. replace (8 * (c / 8)) with (Z.shiftl (c / 8) 3) by (rewrite Z.shiftl_mul_pow2 by lia; change (2 ^ 3) with 8; lia).
  rewrite lor_shift_add by (try change (2 ^ 3) with 8; lia). change (2 ^ 3) with 8. lia.
Qed.
Definition adapt_nib (c d : Z -> Z) (i : Z) : Z :=
  let j := Z.shiftr i 2 in let q := Z.land i 3 in
  if q =? 0 then Z.shiftr (c j) 3 else if q =? 1 then Z.land (c j) 7 else if q =? 2 then Z.shiftr (d j) 3 else Z.land (d j) 7.
Lemma adapt_nib_ok c d i : (forall j, 0 <= c j < 128 /\ 0 <= d j < 128) -> nibble (adapt_nib c d i).
Proof.
  intros H. unfold adapt_nib. cbv zeta. destruct (H (Z.shiftr i 2)) as (H1 & H2).
  destruct (_ =? 0); [apply part_hi, H1|]. destruct (_ =? 1); [apply part_lo, H1|]. destruct (_ =? 2); [apply part_hi, H2|apply part_lo, H2].
Qed.
Ltac const t := let x := eval compute in t in change t with x in *.
Lemma adapt_step c d i : (forall j, 0 <= c j < 128 /\ 0 <= d j < 128) -> 0 <= i < 16 ->
  adapt_store (out_at c d i) i (adapt_nib c d i) = out_at c d (i + 1).
Proof.
  intros H I. destruct (part_hi _ (proj1 (H (Z.shiftr i 2)))) as (_ & A1). destruct (part_lo _ (proj1 (H (Z.shiftr i 2)))) as (_ & A2).
  destruct (part_hi _ (proj2 (H (Z.shiftr i 2)))) as (_ & B1). destruct (part_lo _ (proj2 (H (Z.shiftr i 2)))) as (_ & B2).
  assert (C : i = 0 \/ i = 1 \/ i = 2 \/ i = 3 \/ i = 4 \/ i = 5 \/ i = 6 \/ i = 7 \/ i = 8 \/ i = 9 \/ i = 10 \/ i = 11 \/ i = 12 \/ i = 13 \/ i = 14 \/ i = 15) by lia.
  unfold adapt_store, adapt_nib. cbv zeta.
  repeat (destruct C as [C|C]; [subst i|]); [.. |subst i];
  match goal with |- context[Z.shiftr ?i 2] => const (Z.shiftr i 2); const (Z.land i 3) end;
  unfold out_at; cbn [map];
  repeat match goal with |- context[part ?k ?x] =>
    let k' := eval compute in (if k <=? 0 then 0 else if k =? 1 then 1 else 2) in
    match k' with 0 => change (part k x) with 0 | 1 => change (part k x) with (8 * (x / 8)) | _ => change (part k x) with x end end;
  repeat match goal with |- context[?a =? ?b] => const (a =? b) end; cbv iota;
  unfold nth_pair, upd; repeat match goal with |- context[Z.to_nat ?a] => const (Z.to_nat a) end; cbn [nth firstn skipn app];
  rewrite ?A1, ?A2, ?B1, ?B2, ?Z.lor_0_l; reflexivity.
Qed.

(** ** maps *)
Lemma nth_repeat_lt {A} (x d : A) : forall n i, (i < n)%nat -> nth i (repeat x n) d = x.
Proof. induction n as [|n IH]; intros i H; [lia|]. destruct i as [|i]; [reflexivity|]. cbn [repeat nth]. apply IH. lia. Qed.
Lemma nth_firstn_lt {A} (d : A) : forall n l i, (i < n)%nat -> nth i (firstn n l) d = nth i l d.
Proof. induction n as [|n IH]; intros l i H; [lia|]. destruct l as [|x l]; [destruct i; reflexivity|]. destruct i as [|i]; [reflexivity|]. cbn [firstn nth]. apply IH. lia. Qed.
Lemma Forall_firstn {A} (P : A -> Prop) n l : Forall P l -> Forall P (firstn n l).
Proof. intros H. revert n. induction H; intros [|n]; cbn [firstn]; constructor; auto. Qed.
Lemma overlay_0 M (old : list Z) : overlay (zfirst 0 M) old = old.
Proof. unfold overlay, zfirst, zskip. reflexivity. Qed.
Lemma overlay_step M old i : 0 <= i < zlen M -> zlen M <= zlen old ->
  upd i (znth M i) (overlay (zfirst i M) old) = overlay (zfirst (i + 1) M) old.
Proof.
  intros I L. rewrite <- zfirst_snoc by exact I. unfold overlay. rewrite zlen_app. rewrite zlen_first by lia. replace (Z.min i (zlen M)) with i by lia.
  change (zlen [znth M i]) with 1. unfold upd.
  assert (LF : length (zfirst i M) = Z.to_nat i) by (assert (H := zlen_first i M ltac:(lia)); unfold zlen in *; lia).
  rewrite firstn_app, LF, Nat.sub_diag, firstn_all2 by lia. cbn [firstn]. rewrite app_nil_r, <- !app_assoc. f_equal. cbn [app]. f_equal.
  rewrite skipn_app, LF, skipn_all2 by lia. cbn [app]. replace (S (Z.to_nat i) - Z.to_nat i)%nat with 1%nat by lia.
  unfold zskip. replace (Z.to_nat (i + 1)) with (Z.to_nat i + 1)%nat by lia. generalize (Z.to_nat i). clear. intros n. revert old.
  induction n as [|n IH]; intros old; [reflexivity|]. destruct old as [|x old]; [reflexivity|]. cbn [skipn Nat.add]. apply IH.
Qed.
Lemma overlay_full M old : zlen M = zlen old -> overlay M old = M.
Proof. intros H. unfold overlay. rewrite zskip_all by lia. apply app_nil_r. Qed.
Lemma zlen_overlay M old : zlen M <= zlen old -> zlen (overlay M old) = zlen old.
Proof. intros H. unfold overlay. rewrite zlen_app, zlen_skip by apply zlen_nonneg. lia. Qed.
Lemma last_index_spec v : forall l i res, let m := last_index v i res l in m = res \/ (i <= m < i + zlen l /\ znth l (m - i) = v).
Proof.
  induction l as [|x l IH]; intros i res; cbn [last_index]; [left; reflexivity|].
  specialize (IH (i + 1) (if x =? v then i else res)). cbv zeta in *. unfold zlen in *. cbn [length].
  destruct IH as [E|(E1 & E2)].
  - rewrite E. destruct (Z.eqb_spec x v); [right|left; reflexivity]. subst x. split; [lia|]. unfold znth. rewrite Z.sub_diag. reflexivity.
  - right. split; [lia|]. unfold znth in *. replace (Z.to_nat (last_index v (i + 1) (if x =? v then i else res) l - i)) with (S (Z.to_nat (last_index v (i + 1) (if x =? v then i else res) l - (i + 1)))) by lia. exact E2.
Qed.
Lemma cmap_mnemonic_spec lru v : zlen lru = 13 -> let m := cmap_mnemonic lru v in
  (m = 13 /\ v = lru_next lru) \/ (0 <= m < 13 /\ znth lru m = v) \/ m = 15.
Proof.
  intros L. unfold cmap_mnemonic. cbv zeta. destruct (Z.eqb_spec v (lru_next lru)); [left; tauto|right].
  destruct (last_index_spec v lru 0 15) as [E|(E1 & E2)]; [right; exact E|left]. rewrite Z.sub_0_r in E2. split; [lia|exact E2].
Qed.

Section PmRun.
Variables (D : dims) (g : cfg) (src : predmode).
Hypothesis DM : 0 < n_mix D.
Hypothesis HG : cfg_ok g.
Hypothesis HE : pm_encodable D g src.
Definition pnd (q : bk * pm_st) := pm_node D (fst q) (snd q).
Definition pwt (q : bk * pm_st) := pm_want g src (fst q) (snd q).
Notation reach := (reaches pnd pwt).
Notation QP := (Qpm adapted D).
Lemma pnd_ok q : QP q -> nok QP (pnd q).
Proof. destruct q as (b, (p, u)). intros (I & J & U). apply (pm_node_ok adapted tame); auto using adapted_blend, tame_pos, adapted0. Qed.
Definition SPD : list (Z * Z) := match desired_speeds g src with Some s => s | None => [] end.
Lemma SPD_ok : desired_speeds g src = Some SPD /\ Forall sane_speed SPD /\ zlen SPD = 4.
Proof. destruct HE as (_ & _ & (s & E & F & L) & _). unfold SPD. rewrite E. auto. Qed.
Lemma sane0 : sane_speed (0, 0). Proof. split; cbn [fst snd]; lia. Qed.
Lemma SPD_sane i : sane_speed (nth_pair SPD i).
Proof. apply Forall_nth_pair; [apply SPD_ok|exact sane0]. Qed.
Definition cc (j : Z) := speed_to_u8 (fst (nth_pair SPD j)).
Definition dd (j : Z) := speed_to_u8 (snd (nth_pair SPD j)).
Lemma cc_dd j : 0 <= cc j < 128 /\ 0 <= dd j < 128.
Proof. destruct (SPD_sane j) as (H1 & H2). split; apply speed_code7; [lia|exact H2]. Qed.
Definition pm_done (old : predmode) (q : bk * pm_st) : Prop := QP q /\ snd q = (pm_coded D g old src, PmFully).
Ltac go Q := eapply reaches_by_code; [unfold pnd, pm_node; cbn [fst snd]; cbv zeta; reflexivity|apply pnd_ok; exact Q|
  unfold pwt, pm_want; cbn [fst snd]; rewrite (proj1 SPD_ok); reflexivity| |].

(** mixing values *)
Definition WM : list Z := if sends_mixing g src then zfirst (n_mix D) (mixing src) else repeat (if want_cmap g then 0 else 4) (Z.to_nat (n_mix D)).
Definition combine : bool := negb (mixing_nibble g src =? 0).
Lemma WM_ok : Forall nibble WM /\ zlen WM = n_mix D.
Proof.
  unfold WM. destruct HE as (_ & _ & _ & _ & HM). destruct (sends_mixing g src).
  - destruct (HM eq_refl) as (F & L). split; [|rewrite zlen_first by lia; lia]. unfold zfirst. apply Forall_firstn. exact F.
  - split; [|unfold zlen; rewrite repeat_length; lia]. apply Forall_forall. intros x X. apply repeat_spec in X. subst x. unfold nibble. destruct (want_cmap g); lia.
Qed.
Lemma WM_want b p i : 0 <= i < n_mix D -> pwt (b, (p, PmMixing i combine)) = Put (znth WM i).
Proof.
  intros I. unfold pwt, pm_want. cbn [fst snd]. rewrite (proj1 SPD_ok). unfold WM, sends_mixing. fold combine.
  assert (R : forall x, znth (repeat x (Z.to_nat (n_mix D))) i = x) by (intros x; unfold znth; apply nth_repeat_lt; lia).
  destruct (want_cmap g) eqn:W; cbn [negb andb]; [|rewrite R; reflexivity].
  destruct combine eqn:CB; cbn [negb andb]; [|rewrite R; reflexivity].
  destruct (has_speeds src) eqn:HS; [|rewrite R; reflexivity].
  destruct HE as (_ & _ & _ & _ & HM). unfold sends_mixing in HM. fold combine in HM. rewrite W, CB, HS in HM. destruct (HM eq_refl) as (F & L).
  rewrite zget_some by lia. f_equal. unfold znth, zfirst. symmetry. apply nth_firstn_lt. lia.
Qed.
Definition pmx (lm dm mx : list Z) (old : predmode) : predmode :=
  PM lm dm mx (pm_mode src) (Z.land (mixing_nibble g src) 3) (Z.shiftr (mixing_nibble g src) 2)
     [f8_of (nth_pair SPD 0); f8_of (nth_pair SPD 1)] [f8_of (nth_pair SPD 2); f8_of (nth_pair SPD 3)] (comb_f8 old) (has_speeds old).
Definition LM : list Z := if want_cmap g then lit_map src else [].
Definition DMM : list Z := if want_cmap g then src_map src true else [].
Definition CM (distance : bool) : list Z := if want_cmap g then src_map src distance else [].
Lemma overlay_nil (x : list Z) : overlay [] x = x. Proof. reflexivity. Qed.
Lemma pmx_final old : pmx (overlay LM (lit_map old)) (overlay DMM (dist_map old)) WM old = pm_coded D g old src.
Proof. unfold pmx, pm_coded, LM, DMM, WM. fold SPD. destruct (want_cmap g); reflexivity. Qed.
Lemma reach_mixing old lm dm : overlay LM (lit_map old) = lm -> overlay DMM (dist_map old) = dm ->
  forall k i b, n_mix D - i = Z.of_nat (S k) -> 0 <= i -> zlen (mixing old) = n_mix D ->
  QP (b, (pmx lm dm (overlay (zfirst i WM) (mixing old)) old, PmMixing i combine)) ->
  reach (b, (pmx lm dm (overlay (zfirst i WM) (mixing old)) old, PmMixing i combine)) (pm_done old).
Proof.
  intros EL ED. destruct WM_ok as (WN & WL).
  induction k as [|k IH]; intros i b E I LM0 Q;
  (eapply reaches_by_code; [unfold pnd, pm_node; cbn [fst snd]; cbv zeta; reflexivity|apply pnd_ok; exact Q|apply WM_want; lia|apply Forall_znth; [exact WN|exact nibble0]|]);
  intros pr; cbv beta; cbn [mixing pmx]; rewrite zlen_overlay by (clear - LM0 I E WL; rewrite zlen_first by lia; lia);
  (destruct (Z.ltb_spec i (zlen (mixing old))); [|lia]); rewrite overlay_step by lia;
  (eexists; split; [reflexivity|]); cbn [pm_set_mixing pmx lit_map dist_map mixing pm_mode pm_math pm_adv stride_f8 cm_f8 comb_f8 has_speeds].
  - destruct (Z.eqb_spec (i + 1) (n_mix D)); [|lia]. intros Q'. apply reaches_here. split; [exact Q'|]. cbn [snd]. f_equal.
    rewrite <- pmx_final, EL, ED. rewrite (zfirst_all (i + 1) WM) by lia. rewrite (overlay_full WM) by lia. reflexivity.
  - destruct (Z.eqb_spec (i + 1) (n_mix D)); [lia|]. intros Q'. apply IH; [lia|lia|exact LM0|exact Q'].
Qed.
Lemma CM_ok distance : bytes (CM distance) /\ zlen (CM distance) <= (if distance then Z.min 1024 (n_dist D) else n_lit D) \/ CM distance = [].
Proof.
  unfold CM. destruct HE as (_ & _ & _ & HC & _). destruct (want_cmap g); [left|right; reflexivity]. destruct (HC eq_refl) as (B1 & L1 & B2 & L2 & L3).
  destruct distance; [split; [exact B2|lia]|split; [exact B1|exact L1]].
Qed.
Lemma CM_nonempty distance i : 0 <= i < zlen (CM distance) -> want_cmap g = true /\ bytes (CM distance) /\ CM distance = src_map src distance /\ zlen (CM distance) <= (if distance then Z.min 1024 (n_dist D) else n_lit D).
Proof.
  intros I. destruct (CM_ok distance) as [(B & L)|E]; [|rewrite E in I; change (zlen (@nil Z)) with 0 in I; lia].
  unfold CM in *. destruct (want_cmap g); [auto|change (zlen (@nil Z)) with 0 in I; lia].
Qed.
Section Old.
Variable old : predmode.
Hypothesis OLD : inv_pm D old.
Definition pstate (distance : bool) (i : Z) : predmode :=
  if distance then pmx (overlay LM (lit_map old)) (overlay (zfirst i (CM true)) (dist_map old)) (mixing old) old
  else pmx (overlay (zfirst i (CM false)) (lit_map old)) (dist_map old) (mixing old) old.
Lemma pstate_store distance i : 0 <= i < zlen (CM distance) -> pm_store (pstate distance i) distance i (znth (CM distance) i) = Some (pstate distance (i + 1)).
Proof.
  intros I. destruct (CM_nonempty distance i I) as (_ & _ & _ & L). destruct OLD as [(_ & O1) (_ & O2) _ _].
  unfold pm_store, pstate. destruct distance; cbn [lit_map dist_map pmx].
  - rewrite zlen_overlay by (rewrite zlen_first by lia; lia). destruct (Z.ltb_spec i (zlen (dist_map old))); [|lia].
    rewrite overlay_step by lia. reflexivity.
  - rewrite zlen_overlay by (rewrite zlen_first by lia; lia). destruct (Z.ltb_spec i (zlen (lit_map old))); [|lia].
    rewrite overlay_step by lia. reflexivity.
Qed.
Lemma obs_some b distance i x : zlen (distance_context_map b) = 1024 -> 0 <= i < zlen (CM distance) -> exists b', obs_context_map b distance i x = Some b'.
Proof.
  intros B I. destruct (CM_nonempty distance i I) as (_ & _ & _ & L). unfold obs_context_map. cbv zeta. destruct distance; cbn [negb]; [|eauto].
  cbn [set_cmap_lru distance_context_map]. rewrite B. destruct (Z.ltb_spec i 1024); [|lia]. eauto.
Qed.
Lemma reach_map distance (G : bk * pm_st -> Prop) :
  (forall b, QP (b, (pstate distance (zlen (CM distance)), PmMnem (zlen (CM distance)) distance combine)) ->
     reach (b, (pstate distance (zlen (CM distance)), PmMnem (zlen (CM distance)) distance combine)) G) ->
  forall k i b, zlen (CM distance) - i = Z.of_nat k -> 0 <= i -> QP (b, (pstate distance i, PmMnem i distance combine)) ->
  reach (b, (pstate distance i, PmMnem i distance combine)) G.
Proof.
  intros FIN. induction k as [|k IH]; intros i b E I Q.
  - replace i with (zlen (CM distance)) in * by lia. apply FIN. exact Q.
  - destruct (CM_nonempty distance i ltac:(lia)) as (W & BB & EC & L).
    set (x := znth (CM distance) i). assert (X : byte x) by (apply Forall_znth; [exact BB|exact byte0]).
    pose proof Q as (QB & QJ & QU). cbn [fst snd] in *. destruct (ib_lru _ _ QB) as (_ & LL).
    pose proof (proj2 (ib_dcm _ _ QB)) as LD.
    assert (ST : pm_store (pstate distance i) distance i x = Some (pstate distance (i + 1))) by (apply pstate_store; lia).
    pose proof (cmap_mnemonic_spec (cmap_lru b) x LL) as MS. cbv zeta in MS.
    assert (WV : pwt (b, (pstate distance i, PmMnem i distance combine)) = Put (cmap_mnemonic (cmap_lru b) x)).
    { unfold pwt, pm_want. cbn [fst snd]. rewrite (proj1 SPD_ok). cbv zeta. fold (CM distance). destruct (Z.leb_spec (zlen (CM distance)) i); [lia|]. reflexivity. }
    eapply reaches_by_code; [unfold pnd, pm_node; cbn [fst snd]; cbv zeta; reflexivity|apply pnd_ok; exact Q|exact WV|unfold nibble; lia|].
    intros pr. cbv beta. destruct MS as [(M & MX)|[(M & MX)|M]].
    + rewrite M. change (13 =? 14) with false. change (13 =? 15) with false. change (13 =? 13) with true. cbv iota.
      change (cmap_lru (set_priors b pr)) with (cmap_lru b). rewrite <- MX.
      destruct (obs_some (set_priors b pr) distance i x LD ltac:(lia)) as (b' & OB).
      rewrite OB, ST. eexists. split; [reflexivity|]. intros Q'. apply IH; [lia|lia|exact Q'].
    + set (m := cmap_mnemonic (cmap_lru b) x) in *. destruct (Z.eqb_spec m 14); [lia|]. destruct (Z.eqb_spec m 15); [lia|]. destruct (Z.eqb_spec m 13); [lia|].
      change (cmap_lru (set_priors b pr)) with (cmap_lru b). rewrite MX.
      destruct (obs_some (set_priors b pr) distance i x LD ltac:(lia)) as (b' & OB).
      rewrite OB, ST. eexists. split; [reflexivity|]. intros Q'. apply IH; [lia|lia|exact Q'].
    + rewrite M. change (15 =? 14) with false. change (15 =? 15) with true. cbv iota. eexists. split; [reflexivity|]. intros Q1.
      destruct (nib_split x X) as (N1 & N2 & N3). rewrite Z.lor_comm in N3.
      assert (ES : znth (src_map src distance) i = x) by (unfold x; rewrite EC; reflexivity).
      assert (LS : zlen (src_map src distance) <=? i = false) by (rewrite <- EC; apply Z.leb_gt; lia).
      eapply reaches_by_code; [unfold pnd, pm_node; cbn [fst snd]; cbv zeta; reflexivity|apply pnd_ok; exact Q1|
        unfold pwt, pm_want; cbn [fst snd]; rewrite (proj1 SPD_ok); cbv zeta; rewrite LS, ES; reflexivity|exact N1|].
      intros pr2. eexists. split; [reflexivity|]. intros Q2.
      eapply reaches_by_code; [unfold pnd, pm_node; cbn [fst snd]; cbv zeta; reflexivity|apply pnd_ok; exact Q2|
        unfold pwt, pm_want; cbn [fst snd]; rewrite (proj1 SPD_ok); cbv zeta; rewrite LS, ES; reflexivity|exact N2|].
      intros pr3. cbv beta zeta. rewrite N3, ST.
      destruct (obs_some (set_priors (set_priors (set_priors b pr) pr2) pr3) distance i x LD ltac:(lia)) as (b' & OB).
      rewrite OB. eexists. split; [reflexivity|]. intros Q'. apply IH; [lia|lia|exact Q'].
Qed.
Lemma CM_zlen distance : 0 <= zlen (CM distance). Proof. apply zlen_nonneg. Qed.
Lemma end_want b p distance : pwt (b, (p, PmMnem (zlen (CM distance)) distance combine)) = Put 14.
Proof.
  unfold pwt, pm_want. cbn [fst snd]. rewrite (proj1 SPD_ok). cbv zeta. fold (CM distance). destruct (Z.leb_spec (zlen (CM distance)) (zlen (CM distance))); [reflexivity|lia].
Qed.
Lemma reach_maps b : QP (b, (pstate false 0, PmMnem 0 false combine)) -> reach (b, (pstate false 0, PmMnem 0 false combine)) (pm_done old).
Proof.
  intros Q. apply (reach_map false (pm_done old)) with (k := Z.to_nat (zlen (CM false))); [|pose proof (CM_zlen false); lia|lia|exact Q].
  clear b Q. intros b Q.
  eapply reaches_by_code; [unfold pnd, pm_node; cbn [fst snd]; cbv zeta; reflexivity|apply pnd_ok; exact Q|apply end_want|unfold nibble; lia|].
  intros pr. cbv beta. change (14 =? 14) with true. cbv iota. eexists. split; [reflexivity|]. intros Q1.
  assert (E1 : pstate false (zlen (CM false)) = pstate true 0).
  { unfold pstate. rewrite zfirst_all by lia. rewrite overlay_0. reflexivity. }
  rewrite E1 in *.
  apply (reach_map true (pm_done old)) with (k := Z.to_nat (zlen (CM true))); [|pose proof (CM_zlen true); lia|lia|exact Q1].
  clear b pr Q Q1. intros b Q.
  eapply reaches_by_code; [unfold pnd, pm_node; cbn [fst snd]; cbv zeta; reflexivity|apply pnd_ok; exact Q|apply end_want|unfold nibble; lia|].
  intros pr. cbv beta. change (14 =? 14) with true. cbv iota. eexists. split; [reflexivity|]. intros Q1.
  assert (E2 : pstate true (zlen (CM true)) = pmx (overlay LM (lit_map old)) (overlay DMM (dist_map old)) (overlay (zfirst 0 WM) (mixing old)) old).
  { unfold pstate. rewrite zfirst_all by lia. rewrite overlay_0. reflexivity. }
  rewrite E2 in *. apply reach_mixing with (k := Z.to_nat (n_mix D - 1)); [reflexivity|reflexivity|lia|lia|apply OLD|exact Q1].
Qed.
Definition p1 : predmode := pm_set_math (pm_set_mode old (pm_mode src)) (Z.land (mixing_nibble g src) 3) (Z.shiftr (mixing_nibble g src) 2).
Lemma reach_adapt : forall k i b, 16 - i = Z.of_nat (S k) -> 0 <= i -> QP (b, (p1, PmAdapt i (out_at cc dd i) combine)) ->
  reach (b, (p1, PmAdapt i (out_at cc dd i) combine)) (pm_done old).
Proof.
  induction k as [|k IH]; intros i b E I Q.
  all: assert (WV : pwt (b, (p1, PmAdapt i (out_at cc dd i) combine)) = Put (adapt_nib cc dd i)) by
    (unfold pwt, pm_want; cbn [fst snd]; rewrite (proj1 SPD_ok); unfold adapt_nib, cc, dd; cbv zeta;
     pose proof (cc_dd (Z.shiftr i 2)) as (C1 & C2); unfold cc, dd in C1, C2; destruct (nth_pair SPD (Z.shiftr i 2)) as (u, v); cbn [fst snd] in *;
     rewrite !land127_id by assumption; reflexivity);
    (eapply reaches_by_code; [unfold pnd, pm_node; cbn [fst snd]; cbv zeta; reflexivity|apply pnd_ok; exact Q|exact WV|apply adapt_nib_ok, cc_dd|]);
    intros pr; cbv beta zeta; rewrite adapt_step by (try apply cc_dd; lia).
  - assert (EI : i = 15) by lia. clear E. subst i. change (15 + 1) with 16. change (16 =? 16) with true. cbv iota.
    unfold out_at. cbn [map].
    change (part (16 - 4 * 0) (cc 0)) with (cc 0). change (part (16 - 4 * 0 - 2) (dd 0)) with (dd 0).
    change (part (16 - 4 * 1) (cc 1)) with (cc 1). change (part (16 - 4 * 1 - 2) (dd 1)) with (dd 1).
    change (part (16 - 4 * 2) (cc 2)) with (cc 2). change (part (16 - 4 * 2 - 2) (dd 2)) with (dd 2).
    change (part (16 - 4 * 3) (cc 3)) with (cc 3). change (part (16 - 4 * 3 - 2) (dd 3)) with (dd 3).
    unfold nth_pair at 1 2 3 4. repeat match goal with |- context[Z.to_nat ?a] => const (Z.to_nat a) end. cbn [nth]. unfold cc, dd.
    rewrite !store_f8 by apply SPD_sane. eexists. split; [reflexivity|]. intros Q'. apply reach_maps. exact Q'.
  - destruct (Z.eqb_spec (i + 1) 16); [lia|]. eexists. split; [reflexivity|]. intros Q'. apply IH; [lia|lia|exact Q'].
Qed.
Lemma mixing_nibble_ok : nibble (mixing_nibble g src) /\ Z.shiftr (pm_adv src) 1 = 0 /\ Z.shiftr (want_mixing g) 3 = 0.
Proof.
  destruct HG as (_ & _ & M & _). destruct HE as (_ & A & _). unfold mixing_nibble, nibble.
  split; [|split; [destruct A as [-> | ->]; reflexivity|rewrite Z.shiftr_div_pow2 by lia; change (2 ^ 3) with 8; lia]].
  assert (X : 0 <= Z.lor (want_mixing g) (Z.shiftl (pm_adv src) 3) < 2 ^ 4); [|change (2 ^ 4) with 16 in X; exact X].
  apply (lor_range _ _ 4); try lia; destruct A as [-> | ->]; vm_compute; intuition discriminate.
Qed.
Lemma pm_run b : binv b -> reach (b, (old, PmBegin)) (pm_done old).
Proof.
  intros I. assert (Q0 : QP (b, (old, PmBegin))) by (split; [exact I|split; [exact OLD|exact Logic.I]]).
  destruct HE as (HM & _). destruct mixing_nibble_ok as (MN & M1 & M2). pose proof HG as (WD & _).
  go Q0; [unfold nibble; lia|]. intros pr. eexists. split; [reflexivity|]. intros Q1.
  eapply reaches_by_code; [unfold pnd, pm_node; cbn [fst snd]; cbv zeta; reflexivity|apply pnd_ok; exact Q1| |exact MN|].
  { unfold pwt, pm_want. cbn [fst snd]. rewrite (proj1 SPD_ok), M1, M2. reflexivity. }
  intros pr1. cbv beta. fold combine. eexists. split; [reflexivity|]. intros Q2.
  go Q2; [exact WD|]. intros pr2. eexists. split; [reflexivity|]. intros Q3. fold p1 in *.
  change [(0, 0); (0, 0); (0, 0); (0, 0)] with (out_at cc dd 0) in *. apply (reach_adapt 15); [reflexivity|lia|exact Q3].
Qed.
End Old.
End PmRun.

(** reading a code, writing and reading again changes nothing *)
Definition code_stable (c : Z) : bool :=
  match u8_to_speed c with
  | Some w => if (0 <=? w) && (w <? 12288) || (w =? 16384) then match u8_to_speed (speed_to_u8 w) with Some w' => w' =? w | None => false end else true
  | None => false
  end.
Lemma codes_stable : forallb code_stable (zrange 128) = true.
Proof. vm_compute. reflexivity. Qed.
Lemma code_trip c w : 0 <= c < 128 -> u8_to_speed c = Some w -> fine w -> u8_to_speed (speed_to_u8 w) = Some w.
Proof.
  intros C E F. pose proof codes_stable as S. rewrite forallb_forall in S. specialize (S c (in_zrange 128 c C)). unfold code_stable in S. rewrite E in S.
  replace ((0 <=? w) && (w <? 12288) || (w =? 16384)) with true in S.
  2:{ symmetry. unfold fine in F. destruct (Z.leb_spec 0 w); destruct (Z.ltb_spec w 12288); destruct (Z.eqb_spec w 16384); cbn; lia. }
  destruct (u8_to_speed (speed_to_u8 w)) as [w'|]; [|discriminate]. apply Z.eqb_eq in S. congruence.
Qed.
Lemma f8_close s : sane_speed s -> exists a b, speed_of_f8 (f8_of s) = Some (a, b) /\
  u8_to_speed (speed_to_u8 (fst s)) = Some a /\ u8_to_speed (speed_to_u8 (snd s)) = Some b /\ a <= fst s /\ 8 * (fst s - a) <= fst s /\ b <= snd s /\ 8 * (snd s - b) <= snd s.
Proof.
  intros (H1 & H2). destruct s as (a, b). cbn [fst snd] in *. assert (F1 : fine a) by (unfold fine; lia). assert (F2 : fine b) by exact H2.
  unfold f8_of, speed_of_f8. cbn [fst snd]. rewrite !land127_id by (apply speed_code7; assumption).
  destruct (speed_roundtrip_approx a F1) as (a1 & E1 & L1 & P1). destruct (speed_roundtrip_approx b F2) as (b1 & E2 & L2 & P2). rewrite E1, E2.
  destruct (fine_trip a F1) as (a1' & E1' & G1 & _). rewrite E1 in E1'. injection E1' as <-.
  destruct (fine_trip b F2) as (b1' & E2' & G2 & _). rewrite E2 in E2'. injection E2' as <-.
  rewrite (code_trip _ _ (speed_code7 a F1) E1 G1), (code_trip _ _ (speed_code7 b F2) E2 G2). cbn [bind]. exists a1, b1. auto 10.
Qed.
