(** Replaying commands. *)
From Verif Require Import Prelude ProofList ModelMux ModelCmd ModelRecode SpecLz ProofZlist ProofRecode.

Lemma copied_z h d k : 1 <= d -> 0 <= k <= d -> d <= zlen h ->
  copied h (Z.to_nat d) (Z.to_nat k) = zfirst k (zskip (zlen h - d) h).
Proof.
  intros D K L. unfold zlen in *. rewrite copied_short by lia. unfold zfirst, zskip. f_equal. f_equal. lia.
Qed.
Lemma copied_zlen h d k : 0 <= k -> zlen (copied h d (Z.to_nat k)) = k.
Proof. intros. unfold zlen. rewrite copied_len. lia. Qed.

Definition same (r r' : rcs) : Prop := oi r' = oi r /\ len r' = len r /\ total_offset r' = total_offset r.

Lemma copy_some_spec r h d n : ok r h -> 1 <= d < len r -> 0 <= n <= d ->
  exists k r', copy_some r d n = Some (Some (k, r')) /\ 0 <= k <= n /\ k <= space_left r /\
    ok r' (h ++ copied h (Z.to_nat d) (Z.to_nat k)) /\ unf r' = unf r + k /\ sub r' = sub r /\ same r r' /\
    (0 < n -> 0 < space_left r -> 0 < k).
Proof.
  intros K D N. pose proof (unf_range r h K) as U. pose proof (space_unf r) as SU. pose proof K as (A & B & C & E).
  unfold copy_some. fold (len r). cbv zeta. unfold assert.
  assert (G : forall k data, 0 <= k <= n -> k <= space_left r -> di r + k <= len r -> data = copied h (Z.to_nat d) (Z.to_nat k) ->
     (0 < n -> 0 < space_left r -> 0 < k) ->
     exists k' r', (if di r + k <=? len r then Some (Some (k, set_pos r (put_at (ring r) (di r) data) (sub r) (if di r + k =? len r then 0 else di r + k))) else None) = Some (Some (k', r')) /\
       0 <= k' <= n /\ k' <= space_left r /\
    ok r' (h ++ copied h (Z.to_nat d) (Z.to_nat k')) /\ unf r' = unf r + k' /\ sub r' = sub r /\ same r r' /\
    (0 < n -> 0 < space_left r -> 0 < k')).
  { intros k data K1 K2 K3 KD KP. destruct (Z.leb_spec (di r + k) (len r)); [|lia].
    eexists k, _. split; [reflexivity|]. split; [lia|]. split; [lia|].
    assert (DL : zlen data = k) by (rewrite KD; apply copied_zlen; lia).
    destruct (put_ok r h data (sub r) K) as (O1 & O2 & O3); [lia|lia|]. rewrite DL in *. unfold wrap in *. rewrite <- KD.
    split; [exact O1|]. split; [exact O2|]. split; [reflexivity|]. split; [|exact KP]. split; [reflexivity|]. split; [exact O3|reflexivity]. }
  destruct (Z.leb_spec d (di r)) as [L|L].
  - destruct (Z.leb_spec (di r - d) (len r)); [|lia].
    set (tr := Z.min (Z.min (len r - di r) (len r - (di r - d))) (Z.min (space_left r) n)).
    destruct (Z.ltb_spec (di r - d) (di r)); [|lia].
    destruct (Z.leb_spec tr (di r - (di r - d))); [|unfold tr in *; lia].
    rewrite slice_ok by (unfold tr, len in *; lia). cbn [bind].
    apply G; [unfold tr; lia|unfold tr; lia|unfold tr; lia| |unfold tr; lia].
    rewrite copied_z by (unfold tr; lia). symmetry. apply hist_near; auto. unfold tr. lia.
  - destruct (Z.leb_spec d (di r + len r)); [|lia].
    destruct (Z.leb_spec (di r + len r - d) (len r)); [|lia].
    destruct (Z.ltb_spec (di r + len r - d) (di r)); [lia|].
    set (tr := Z.min (Z.min (Z.min (len r - di r) (len r - (di r + len r - d))) (Z.min (space_left r) n))
        (Z.min (di r + len r - d - di r) (len r - (di r + len r - d)))).
    rewrite slice_ok by (unfold tr, len in *; lia). cbn [bind].
    apply G; [unfold tr; lia|unfold tr; lia|unfold tr; lia| |unfold tr; lia].
    rewrite copied_z by (unfold tr; lia). symmetry. apply hist_far; auto; unfold tr; lia.
Qed.

Lemma copy_decoded_spec r h d : ok r h -> 1 <= d < len r ->
  copy_decoded r d d = Some (zskip (zlen h - d) h).
Proof.
  intros K D. pose proof K as (A & B & C & E). unfold copy_decoded. unfold assert. fold (len r).
  assert (HL : zlen (zskip (zlen h - d) h) = d) by (rewrite zlen_skip by lia; lia).
  destruct (Z.ltb_spec (di r) d) as [L|L].
  - destruct (Z.leb_spec (d - di r) (len r)); [|lia]. cbv zeta. rewrite Z.min_l by lia.
    rewrite slice_ok by (unfold len in *; lia). cbn [bind].
    replace (d - (d - di r)) with (di r) by lia. rewrite Z.sub_diag.
    pose proof (zfirst_skip (d - di r) (zskip (zlen h - d) h)) as SP.
    rewrite (hist_far r h d (d - di r) K) in SP by lia.
    rewrite zskip_zskip in SP by lia. replace (zlen h - d + (d - di r)) with (zlen h - di r) in SP by lia.
    replace (len r - (d - di r)) with (di r + len r - d) by lia.
    destruct (Z.eqb_spec (di r) 0) as [Q|Q]; cbn [negb].
    + rewrite <- SP. rewrite (zskip_all (zlen h - di r)) by lia. rewrite app_nil_r. reflexivity.
    + rewrite slice_ok by (unfold len in *; lia). cbn [bind]. rewrite <- SP. f_equal. f_equal.
      pose proof (hist_near r h (di r) (di r) K ltac:(lia) ltac:(lia)) as HN. rewrite Z.sub_diag in HN. rewrite <- HN.
      apply zfirst_all. rewrite zlen_skip by lia. lia.
  - cbn [bind]. destruct (Z.eqb_spec d 0); [lia|]. cbn [negb]. rewrite slice_ok by (unfold len in *; lia). cbn [bind app].
    f_equal. rewrite <- (hist_near r h d d K) by lia. apply zfirst_all. lia.
Qed.

(** ** the meaning of a partly replayed command *)
Section Replay.
Variable dict : dict_fn.

Definition eff (h0 : list Z) (c : command) : list Z := meaning1 dict h0 c.
Definition part (r : rcs) (h0 : list Z) (c : command) (h : list Z) : Prop :=
  ok r h /\ 0 <= sub r <= zlen (eff h0 c) /\ h = h0 ++ zfirst (sub r) (eff h0 c).

(** outcome of parsing *)
Definition parsed (r : rcs) h0 c h res r' : Prop :=
  exists x, part r' h0 c (h ++ x) /\ unf r' = unf r + zlen x /\ same r r' /\ sub r' = sub r + zlen x /\
  match res with
  | OSuccess => sub r' = zlen (eff h0 c)
  | ONeedsMoreOutput => unf r = 0 -> sub r < sub r'
  | OFailure => False
  end.

Lemma literal_step r h0 c h data : eff h0 c = data -> part r h0 c h ->
  exists res r', parse_literal r data = Some (res, r') /\ (1 < len r -> parsed r h0 c h res r').
Proof.
  intros ED (K & S & H). rewrite ED in *. unfold parse_literal. destruct (Z.ltb_spec (zlen data) (sub r)); [lia|].
  destruct (copy_to_ring_spec r h (zskip (sub r) data) K) as (k & r' & E & KK & K' & U' & S' & O' & L' & T').
  rewrite E. cbn [bind]. eexists _, _. split; [reflexivity|]. intros LR.
  assert (RL : zlen (zskip (sub r) data) = zlen data - sub r) by (rewrite zlen_skip by lia; lia).
  pose proof (unf_range r h K) as U. pose proof (space_unf r) as SU.
  assert (XL : zlen (zfirst k (zskip (sub r) data)) = k) by (apply zfirst_len_sub; lia).
  exists (zfirst k (zskip (sub r) data)). rewrite XL.
  unfold part, set_sub. cbn [sub]. rewrite ED, S'. split.
  - split; [exact K'|]. split; [lia|]. rewrite H, <- app_assoc. f_equal. symmetry. apply zfirst_plus; lia.
  - split; [exact U'|]. split; [split; [exact O'|split; [exact L'|exact T']]|]. split; [reflexivity|].
    destruct (Z.eqb_spec k (zlen (zskip (sub r) data))) as [Q|Q]; [lia|]. intros U0. lia.
Qed.

Lemma copy_eff h0 d n k a : 0 <= a -> 0 <= k -> a + k <= n ->
  let h := h0 ++ zfirst a (eff h0 (Copy d n)) in
  h ++ copied h (Z.to_nat d) (Z.to_nat k) = h0 ++ zfirst (a + k) (eff h0 (Copy d n)).
Proof.
  intros A K N. cbv zeta. unfold eff. cbn [meaning1]. unfold zfirst. rewrite !copied_first by lia.
  rewrite <- app_assoc. f_equal. replace (Z.to_nat (a + k)) with (Z.to_nat a + Z.to_nat k)%nat by lia.
  symmetry. apply copied_app.
Qed.

Lemma repeat_spec rep d : 1 <= d -> zlen rep = d -> forall n r h, ok r h -> d <= len r -> zskip (zlen h - d) h = rep ->
  Z.of_nat n * d <= space_left r ->
  exists r', repeat_loop n r rep = Some (true, r') /\
    ok r' (h ++ copied h (Z.to_nat d) (n * Z.to_nat d)) /\ unf r' = unf r + Z.of_nat n * d /\ sub r' = sub r + Z.of_nat n * d /\ same r r' /\
    zskip (zlen (h ++ copied h (Z.to_nat d) (n * Z.to_nat d)) - d) (h ++ copied h (Z.to_nat d) (n * Z.to_nat d)) = rep.
Proof.
  intros D RL. induction n as [|n IH]; intros r h K DL RP SP; cbn [repeat_loop].
  - exists r. cbn [Nat.mul copied]. rewrite app_nil_r. split; [reflexivity|]. split; [exact K|]. split; [lia|]. split; [lia|]. split; [repeat split|exact RP].
  - destruct (copy_to_ring_spec r h rep K) as (k & r1 & E & KK & K' & U' & S' & O' & L' & T'). rewrite E. cbn [bind].
    assert (KD : k = d) by (pose proof (space_unf r); lia). clear KK. subst k.
    destruct (Z.eqb_spec d (zlen rep)); [|lia]. rewrite zfirst_all in K' by lia.
    pose proof K as (_ & _ & C & _).
    assert (RC1 : copied h (Z.to_nat d) (Z.to_nat d) = rep) by (rewrite copied_z by lia; rewrite RP; apply zfirst_all; lia).
    destruct (IH (set_sub r1 (sub r1 + d)) (h ++ rep)) as (r2 & E2 & K2 & U2 & S2 & (O2 & L2 & T2) & R2).
    + exact K'.
    + change (len (set_sub r1 (sub r1 + d))) with (len r1). lia.
    + rewrite zlen_app, RL. replace (zlen h + d - d) with (zlen h) by lia. apply zskip_app_exact. reflexivity.
    + rewrite space_unf. change (unf (set_sub r1 (sub r1 + d))) with (unf r1). change (len (set_sub r1 (sub r1 + d))) with (len r1).
      pose proof (space_unf r). lia.
    + rewrite E2. exists r2. split; [reflexivity|].
      assert (HC : h ++ copied h (Z.to_nat d) (Datatypes.S n * Z.to_nat d) = (h ++ rep) ++ copied (h ++ rep) (Z.to_nat d) (n * Z.to_nat d)).
      { cbn [Nat.mul]. rewrite copied_app, RC1, app_assoc. reflexivity. }
      rewrite HC. split; [exact K2|]. split; [rewrite U2; change (unf (set_sub r1 (sub r1 + d))) with (unf r1); lia|].
      split; [rewrite S2; cbn [sub set_sub]; lia|]. split; [|exact R2].
      split; [rewrite O2; exact O'|]. split; [rewrite L2; exact L'|rewrite T2; exact T'].
Qed.

Lemma copy_step r h0 h d n : 1 <= d < len r -> 0 <= n -> part r h0 (Copy d n) h ->
  exists res r', parse_copy r d n = Some (res, r') /\ parsed r h0 (Copy d n) h res r'.
Proof.
  intros D N (K & S & H). pose proof (unf_range r h K) as U. pose proof (space_unf r) as SU. pose proof K as (_ & _ & C & _).
  assert (EL : zlen (eff h0 (Copy d n)) = n) by (unfold eff; cbn [meaning1]; apply copied_zlen; lia). rewrite EL in S.
  assert (G : forall k r', 0 <= k -> sub r + k <= n -> ok r' (h ++ copied h (Z.to_nat d) (Z.to_nat k)) -> sub r' = sub r + k ->
     part r' h0 (Copy d n) (h ++ copied h (Z.to_nat d) (Z.to_nat k))).
  { intros k r' K0 K1 OK SB. split; [exact OK|]. rewrite EL, SB. split; [lia|].
    rewrite H. apply copy_eff; lia. }
  unfold parse_copy. unfold assert. destruct (Z.leb_spec (sub r) n); [|lia]. cbv zeta.
  destruct ((d <=? REPEAT_BUFFER_MAX_SIZE) && (d <? n - sub r)) eqn:CC.
  - apply andb_prop in CC. destruct CC as (_ & CC). apply Z.ltb_lt in CC.
    rewrite (copy_decoded_spec r h d K D). cbn [bind]. destruct (Z.eqb_spec d 0); [lia|]. cbn [negb].
    set (m := Z.min (n - sub r) (space_left r)). set (it := m / d). set (rem := m - it * d).
    assert (M0 : 0 <= m) by (unfold m; lia).
    assert (I0 : 0 <= it) by (apply Z.div_pos; lia).
    assert (R0 : 0 <= rem < d) by (unfold rem, it; clearbody m; nia).
    assert (HL : zlen (zskip (zlen h - d) h) = d) by (rewrite zlen_skip by lia; lia).
    destruct (repeat_spec (zskip (zlen h - d) h) d ltac:(lia) HL (Z.to_nat it) r h K ltac:(lia) eq_refl) as (r1 & E1 & K1 & U1 & S1 & (O1 & L1 & T1) & R1).
    { rewrite Z2Nat.id by lia. unfold rem in R0. unfold m in *. lia. }
    rewrite Z2Nat.id in U1, S1 by lia.
    rewrite E1. cbn [bind negb].
    set (h1 := h ++ copied h (Z.to_nat d) (Z.to_nat it * Z.to_nat d)) in *.
    destruct (copy_to_ring_spec r1 h1 (zfirst rem (zskip (zlen h - d) h)) K1) as (k & r2 & E2 & KK & K2 & U2 & S2 & O2 & L2 & T2).
    rewrite E2. cbn [bind]. eexists _, _. split; [reflexivity|].
    assert (RL : zlen (zfirst rem (zskip (zlen h - d) h)) = rem) by (apply zfirst_len_sub; lia).
    assert (KR : k = rem).
    { pose proof (space_unf r1). rewrite RL in KK. unfold rem in *. unfold m in *. lia. }
    clear KK. subst k. rewrite zfirst_all in K2 by lia.
    assert (HE : h1 ++ zfirst rem (zskip (zlen h - d) h) = h ++ copied h (Z.to_nat d) (Z.to_nat m)).
    { pose proof K1 as (_ & _ & C1 & _).
      rewrite <- R1. rewrite <- (copied_z h1 d rem) by lia. unfold h1.
      rewrite <- app_assoc. f_equal. rewrite <- copied_app. f_equal.
      unfold rem. clearbody m it. nia. }
    rewrite HE in K2.
    exists (copied h (Z.to_nat d) (Z.to_nat m)). rewrite copied_zlen by lia.
    assert (SB : sub (set_sub r2 (sub r2 + rem)) = sub r + m).
    { cbn [sub set_sub]. rewrite S2, S1. unfold rem. lia. }
    split; [apply G; [lia|unfold m; lia|exact K2|exact SB]|].
    split; [change (unf (set_sub r2 (sub r2 + rem))) with (unf r2); rewrite U2, U1; unfold rem; lia|].
    split; [split; [change (oi r2 = oi r); congruence|split; [change (len r2 = len r); congruence|change (total_offset r2 = total_offset r); congruence]]|].
    split; [exact SB|]. rewrite Z.eqb_refl. cbn [negb orb]. rewrite SB, EL.
    destruct (Z.eqb_spec m (n - sub r)); cbn [negb]; [lia|]. intros U0. unfold m in *. lia.
  - destruct (copy_some_spec r h d (Z.min (n - sub r) d) K D ltac:(lia)) as (k & r1 & E & KN & KS & K1 & U1 & S1 & SM & P).
    rewrite E. cbn [bind]. eexists _, _. split; [reflexivity|].
    assert (SB : sub (set_sub r1 (sub r1 + k)) = sub r + k) by (cbn [sub set_sub]; lia).
    exists (copied h (Z.to_nat d) (Z.to_nat k)). rewrite copied_zlen by lia.
    split; [apply G; [lia|lia|exact K1|exact SB]|]. split; [exact U1|]. split; [exact SM|]. split; [exact SB|].
    rewrite SB, EL. destruct (Z.eqb_spec k (n - sub r)); [lia|]. intros U0.
    assert (0 < k) by (apply P; lia). lia.
Qed.

Lemma zfirst_le_all {A} n (l : list A) : n = zlen l -> zfirst n l = l.
Proof. intros ->. apply zfirst_all. lia. Qed.

Lemma dict_step r h0 h ws wid tr fs : replayable dict (len r) (Dict ws wid tr fs) ->
  part r h0 (Dict ws wid tr fs) h -> (sub r = 0 \/ sub r = zlen (eff h0 (Dict ws wid tr fs))) ->
  exists res r', parse_dictionary dict r ws wid tr fs = Some (res, r') /\ parsed r h0 (Dict ws wid tr fs) h res r' /\
    (sub r' = 0 \/ sub r' = zlen (eff h0 (Dict ws wid tr fs))).
Proof.
  intros (w & E & WL & FS) (K & S & H) SS. pose proof (unf_range r h K) as U. pose proof (space_unf r) as SU. pose proof (zlen_nonneg w) as NW.
  assert (EF : eff h0 (Dict ws wid tr fs) = w) by (unfold eff; cbn [meaning1]; rewrite E; reflexivity). rewrite EF in *.
  unfold parse_dictionary. rewrite E. cbn [bind]. cbv zeta.
  destruct (Z.ltb_spec (space_left r) (zlen w)) as [L|L].
  { eexists _, r. split; [reflexivity|]. split; [|exact SS]. exists []. rewrite app_nil_r. change (zlen (@nil Z)) with 0.
    split; [split; [exact K|split; [rewrite EF; exact S|rewrite EF; exact H]]|]. split; [lia|]. split; [repeat split|]. split; [lia|]. intros U0. lia. }
  assert (FF : negb (fs =? 0) && negb (zlen w =? fs) = false).
  { destruct FS as [->| ->]; [reflexivity|]. rewrite Z.eqb_refl. apply andb_false_r. }
  rewrite FF. unfold assert. destruct (Z.eqb_spec (sub r) 0) as [Q|Q]; cbn [negb].
  - destruct (copy_to_ring_spec r h w K) as (k & r1 & E1 & KK & K1 & U1 & S1 & O1 & L1 & T1). rewrite E1. cbn [bind].
    assert (KD : k = zlen w) by lia. clear KK. subst k. rewrite Z.eqb_refl. cbn [bind]. eexists _, _. split; [reflexivity|].
    split; [|right; reflexivity]. rewrite zfirst_all in K1 by lia. exists w.
    split; [split; [exact K1|]|].
    + cbn [sub set_sub]. rewrite EF. split; [lia|]. rewrite H, Q, zfirst_0, app_nil_r. f_equal. symmetry. apply zfirst_all. lia.
    + split; [exact U1|]. split; [split; [exact O1|split; [exact L1|exact T1]]|]. cbn [sub set_sub]. rewrite EF. split; [lia|reflexivity].
  - destruct SS as [SS|SS]; [contradiction|]. rewrite SS, Z.eqb_refl. cbn [bind]. eexists _, _. split; [reflexivity|].
    split; [|right; reflexivity]. exists []. rewrite app_nil_r. change (zlen (@nil Z)) with 0.
    split; [split; [exact K|]|].
    + cbn [sub set_sub]. rewrite EF. split; [lia|]. rewrite H, SS. reflexivity.
    + split; [change (unf (set_sub r (zlen w))) with (unf r); lia|]. split; [repeat split|]. cbn [sub set_sub]. rewrite EF. split; [lia|reflexivity].
Qed.

(** dictionary words are written in one go *)
Definition whole (r : rcs) h0 c : Prop :=
  match c with Dict _ _ _ _ => sub r = 0 \/ sub r = zlen (eff h0 c) | _ => True end.

Lemma parse_step r h0 c h : 1 < len r -> replayable dict (len r) c -> part r h0 c h -> whole r h0 c ->
  exists res r', parse_command dict r c = Some (res, r') /\ parsed r h0 c h res r' /\ whole r' h0 c.
Proof.
  intros LR V P W.
  assert (TRIV : eff h0 c = [] -> exists r', Some (OSuccess, r) = Some (OSuccess, r') /\ parsed r h0 c h OSuccess r').
  { intros EN. exists r. split; [reflexivity|]. exists []. rewrite app_nil_r. change (zlen (@nil Z)) with 0.
    split; [exact P|]. split; [lia|]. split; [repeat split|]. split; [lia|]. destruct P as (_ & S & _). rewrite EN in *. change (zlen (@nil Z)) with 0 in *. lia. }
  destruct c as [d n|ws wid tr fs|data he|pm|b|b|b st]; cbn [parse_command].
  - destruct V as (V1 & V2). destruct (copy_step r h0 h d n V1 V2 P) as (res & r' & E & Q). exists res, r'. cbn [whole]. auto.
  - apply dict_step; auto.
  - destruct (literal_step r h0 (Literal data he) h data eq_refl P) as (res & r' & E & Q). exists res, r'. cbn [whole]. auto.
  - destruct (TRIV eq_refl) as (r' & E & Q). exists OSuccess, r'. cbn [whole]. injection E as <-. auto.
  - destruct (TRIV eq_refl) as (r' & E & Q). exists OSuccess, r'. cbn [whole]. injection E as <-. auto.
  - destruct (TRIV eq_refl) as (r' & E & Q). exists OSuccess, r'. cbn [whole]. injection E as <-. auto.
  - destruct (TRIV eq_refl) as (r' & E & Q). exists OSuccess, r'. cbn [whole]. injection E as <-. auto.
Qed.

(** ** what has been emitted: [e] = history minus the unflushed end; and where the
    write position is *)
Definition posn (r : rcs) (h : list Z) : Prop := exists q, zlen h = di r + q * len r.
Lemma posn_parse r h r' h0 x : ok r h -> ok r' h0 -> posn r h -> unf r' = unf r + zlen x -> oi r' = oi r -> len r' = len r -> posn r' (h ++ x).
Proof.
  intros (A & B & _) (A' & B' & _) (q & Q) U O L. unfold unf in U. rewrite O, L in *. unfold posn. rewrite zlen_app, Q, L.
  destruct (oi r <=? di r); destruct (oi r <=? di r').
  - exists q. lia.
  - exists (q + 1). lia.
  - exists (q - 1). lia.
  - exists q. lia.
Qed.
Definition emitted (r : rcs) (h e : list Z) : Prop := e = zfirst (zlen h - unf r) h /\ posn r h.
Lemma emitted_parse r h e r' x h0 : ok r h -> ok r' h0 -> emitted r h e -> unf r' = unf r + zlen x -> oi r' = oi r -> len r' = len r -> emitted r' (h ++ x) e.
Proof.
  intros K K' (E & PO) U O L. split; [|eapply posn_parse; eauto].
  pose proof (unf_range r h K). pose proof K as (_ & _ & C & _). rewrite E, U, zlen_app.
  replace (zlen h + zlen x - (unf r + zlen x)) with (zlen h - unf r) by lia. symmetry. apply zfirst_app_less. lia.
Qed.
Lemma emitted_flush r h e room o r' : ok r h -> 0 <= room -> emitted r h e -> ring r' = ring r -> di r' = di r ->
  o = zfirst room (zskip (zlen h - unf r) h) -> zlen o = Z.min room (unf r) -> unf r' = unf r - zlen o -> emitted r' h (e ++ o).
Proof.
  intros K R (E & q & PO) RR DD O OL U. split; [|exists q; unfold len in *; rewrite RR, DD; exact PO].
  pose proof (unf_range r h K). pose proof K as (_ & _ & C & _).
  rewrite U. replace (zlen h - (unf r - zlen o)) with (zlen h - unf r + zlen o) by lia.
  rewrite zfirst_plus by lia. rewrite E. f_equal. rewrite O at 1.
  assert (PL : zlen (zskip (zlen h - unf r) h) = unf r) by (rewrite zlen_skip by lia; lia).
  rewrite OL. destruct (Z.le_ge_cases room (unf r)) as [Q|Q].
  - rewrite Z.min_l by lia. reflexivity.
  - rewrite Z.min_r by lia. rewrite !zfirst_all by lia. reflexivity.
Qed.

(** resumable state of a command: reached from history [h0], output [e] so far *)
Definition mid (r : rcs) h0 c h e : Prop := part r h0 c h /\ whole r h0 c /\ emitted r h e.

Lemma part_flush r h0 c h r' : part r h0 c h -> ok r' h -> sub r' = sub r -> part r' h0 c h.
Proof. intros (A & B & C) K S. split; [exact K|]. rewrite S. auto. Qed.
Lemma whole_sub r r' h0 c : whole r h0 c -> sub r' = sub r -> whole r' h0 c.
Proof. unfold whole. intros W S. destruct c; auto. rewrite S. exact W. Qed.

Definition rest (r : rcs) h0 c : Z := zlen (eff h0 c) - sub r.
Lemma encode_loop_spec c h0 : forall fuel r h e room, 1 < len r -> replayable dict (len r) c -> mid r h0 c h e -> 0 <= room ->
  (Z.to_nat (rest r h0 c) + (if (unf r =? 0)%Z then 1 else 2) <= fuel)%nat ->
  exists res o r' h', encode_loop fuel dict r c room = Some (res, o, r') /\ mid r' h0 c h' (e ++ o) /\ len r' = len r /\ zlen o <= room /\
    total_offset r' = total_offset r + zlen o /\
    match res with
    | None => sub r' = zlen (eff h0 c)
    | Some ONeedsMoreOutput => zlen o = room
    | _ => False
    end.
Proof.
  induction fuel as [|fuel IH]; intros r h e room LR V (P & W & EM) R F.
  { exfalso. destruct (unf r =? 0); lia. }
  cbn [encode_loop]. destruct (parse_step r h0 c h LR V P W) as (res & r1 & E & (x & P1 & U1 & (O1 & L1 & T1) & S1 & X1) & W1).
  rewrite E. cbn [bind].
  pose proof P as (K & _). pose proof P1 as (K1 & SB1 & _).
  assert (EM1 : emitted r1 (h ++ x) e) by (eapply emitted_parse; eauto).
  destruct res.
  - exists None, [], r1, (h ++ x). rewrite app_nil_r. change (zlen (@nil Z)) with 0. split; [reflexivity|]. split; [split; auto|]. split; [exact L1|]. split; [exact R|]. split; [lia|exact X1].
  - destruct (rflush_spec r1 (h ++ x) room K1 R) as (fres & o & r2 & E2 & K2 & RI & SB & DI & OO & U2 & OL & T2 & FR).
    rewrite E2. cbn [bind].
    assert (M2 : mid r2 h0 c (h ++ x) (e ++ o)).
    { split; [eapply part_flush; eauto|]. split; [eapply whole_sub; eauto|]. exact (emitted_flush r1 _ _ room o r2 K1 R EM1 RI DI OO OL U2). }
    assert (L2 : len r2 = len r) by (unfold len in *; rewrite RI; exact L1).
    destruct FR as [(-> & U0)|(-> & U0 & OR)].
    + destruct (IH r2 (h ++ x) (e ++ o) (room - zlen o)) as (res & o2 & r3 & h3 & E3 & M3 & L3 & R3 & T3 & X3).
      * rewrite L2. exact LR.
      * rewrite L2. exact V.
      * exact M2.
      * lia.
      * rewrite U0. cbn [Z.eqb]. unfold rest in *. rewrite SB.
        destruct (Z.eqb_spec (unf r) 0) as [Q|Q].
        -- specialize (X1 Q). change (0 =? 0) with true. cbv iota. lia.
        -- change (0 =? 0) with true. cbv iota. pose proof (zlen_nonneg x). lia.
      * rewrite E3. cbn [bind]. exists res, (o ++ o2), r3, h3. rewrite app_assoc, zlen_app. split; [reflexivity|]. split; [exact M3|]. split; [lia|]. split; [lia|]. split; [lia|].
        destruct res as [[]|]; try exact X3. lia.
    + exists (Some ONeedsMoreOutput), o, r2, (h ++ x). split; [reflexivity|]. split; [exact M2|]. split; [exact L2|]. split; [lia|]. split; [lia|exact OR].
  - contradiction.
Qed.

(** between commands *)
Definition idle (r : rcs) h e : Prop := ok r h /\ sub r = 0 /\ emitted r h e.
Lemma idle_mid r h e c : idle r h e -> mid r h c h e.
Proof.
  intros (K & S & E). split; [|split; [|exact E]].
  - split; [exact K|]. rewrite S, zfirst_0, app_nil_r. pose proof (zlen_nonneg (eff h c)). split; [lia|reflexivity].
  - unfold whole. destruct c; auto.
Qed.
Lemma mid_idle r h0 c h e : mid r h0 c h e -> sub r = zlen (eff h0 c) -> idle (set_sub r 0) (h0 ++ eff h0 c) e.
Proof.
  intros ((K & _ & H) & _ & E) S. rewrite S, zfirst_all in H by lia. subst h. split; [exact K|]. split; [reflexivity|exact E].
Qed.

Lemma eff_fuel h0 c : replayable dict 0 c \/ True -> (Z.to_nat (zlen (eff h0 c)) + 2 <= cmd_fuel dict c)%nat \/ (exists a b d f, c = Dict a b d f).
Proof.
  intros _. destruct c; cbn [cmd_fuel]; try (left; unfold eff, zlen; cbn [meaning1 length]; lia).
  - left. unfold eff, zlen. cbn [meaning1]. rewrite copied_len. lia.
  - right. eauto.
Qed.

(** a dictionary command needs at most one flush *)
Lemma encode_loop_dict ws wid tr fs h0 : forall r h e room, let c := Dict ws wid tr fs in
  1 < len r -> replayable dict (len r) c -> mid r h0 c h e -> 0 <= room ->
  exists res o r' h', encode_loop 3 dict r c room = Some (res, o, r') /\ mid r' h0 c h' (e ++ o) /\ len r' = len r /\ zlen o <= room /\
    total_offset r' = total_offset r + zlen o /\
    match res with
    | None => sub r' = zlen (eff h0 c)
    | Some ONeedsMoreOutput => zlen o = room
    | _ => False
    end.
Proof.
  intros r h e room c LR V (P & W & EM) R. 
  assert (EQ : encode_loop 3 dict r c room = let? '(res, r) := parse_command dict r c in
      match res with
      | OSuccess => Some (None, [], r)
      | OFailure => Some (Some OFailure, [], r)
      | ONeedsMoreOutput =>
          let? '(fres, o, r) := rflush r room in
          match fres with
          | OSuccess =>
              let? '(res, o2, r) := encode_loop 2 dict r c (room - zlen o) in Some (res, o ++ o2, r)
          | _ => Some (Some fres, o, r)
          end
      end) by reflexivity.
  rewrite EQ. clear EQ.
  destruct (parse_step r h0 c h LR V P W) as (res & r1 & E & (x & P1 & U1 & (O1 & L1 & T1) & S1 & X1) & W1).
  rewrite E. cbn [bind].
  pose proof P as (K & _). pose proof P1 as (K1 & SB1 & _).
  assert (EM1 : emitted r1 (h ++ x) e) by (eapply emitted_parse; eauto).
  destruct res.
  - exists None, [], r1, (h ++ x). rewrite app_nil_r. change (zlen (@nil Z)) with 0. split; [reflexivity|]. split; [split; auto|]. split; [exact L1|]. split; [exact R|]. split; [lia|exact X1].
  - destruct (rflush_spec r1 (h ++ x) room K1 R) as (fres & o & r2 & E2 & K2 & RI & SB & DI & OO & U2 & OL & T2 & FR).
    rewrite E2. cbn [bind].
    assert (M2 : mid r2 h0 c (h ++ x) (e ++ o)).
    { split; [eapply part_flush; eauto|]. split; [eapply whole_sub; eauto|]. exact (emitted_flush r1 _ _ room o r2 K1 R EM1 RI DI OO OL U2). }
    assert (L2 : len r2 = len r) by (unfold len in *; rewrite RI; exact L1).
    destruct FR as [(-> & U0)|(-> & U0 & OR)].
    + assert (LR2 : 1 < len r2) by lia. assert (V2 : replayable dict (len r2) c) by (rewrite L2; exact V).
      destruct (parse_step r2 h0 c (h ++ x) LR2 V2 ltac:(apply M2) ltac:(apply M2)) as (res & r3 & E3 & (x3 & P3 & U3 & (O3 & L3 & T3) & S3 & X3) & W3).
      assert (EQ : encode_loop 2 dict r2 c (room - zlen o) = let? '(res, r) := parse_command dict r2 c in
      match res with
      | OSuccess => Some (None, [], r)
      | OFailure => Some (Some OFailure, [], r)
      | ONeedsMoreOutput =>
          let? '(fres, o', r) := rflush r (room - zlen o) in
          match fres with
          | OSuccess =>
              let? '(res, o2, r) := encode_loop 1 dict r c (room - zlen o - zlen o') in Some (res, o' ++ o2, r)
          | _ => Some (Some fres, o', r)
          end
      end) by reflexivity.
      rewrite EQ, E3. clear EQ. cbn [bind].
      pose proof P3 as (K3 & SB3 & _).
      assert (EM3 : emitted r3 ((h ++ x) ++ x3) (e ++ o)) by (eapply (emitted_parse r2); eauto; apply M2).
      assert (res = OSuccess).
      { destruct res; [reflexivity| |contradiction]. exfalso. specialize (X3 U0).
        (* progress means the whole word was written: then the result is a success *)
        revert E3. unfold c. cbn [parse_command]. unfold parse_dictionary. destruct V2 as (w & EW & WL & FS). rewrite EW. cbn [bind].
        pose proof (space_unf r2). destruct (Z.ltb_spec (space_left r2) (zlen w)); [lia|].
        destruct (negb (fs =? 0) && negb (zlen w =? fs)); [discriminate|]. unfold assert.
        destruct (negb (sub r2 =? 0)); [destruct (sub r2 =? zlen w); discriminate|].
        destruct (copy_to_ring r2 w) as [[k rr]|]; [|discriminate]. cbn [bind]. destruct (k =? zlen w); discriminate. }
      subst res. cbn [bind]. rewrite app_nil_r. exists None, o, r3, ((h ++ x) ++ x3).
      split; [reflexivity|]. split; [split; auto|]. split; [lia|]. split; [lia|]. split; [lia|exact X3].
    + exists (Some ONeedsMoreOutput), o, r2, (h ++ x). split; [reflexivity|]. split; [exact M2|]. split; [exact L2|]. split; [lia|]. split; [lia|exact OR].
  - contradiction.
Qed.

Lemma encode_loop_any c h0 r h e room : 1 < len r -> replayable dict (len r) c -> mid r h0 c h e -> 0 <= room ->
  exists res o r' h', encode_loop (cmd_fuel dict c) dict r c room = Some (res, o, r') /\ mid r' h0 c h' (e ++ o) /\ len r' = len r /\ zlen o <= room /\
    total_offset r' = total_offset r + zlen o /\
    match res with
    | None => sub r' = zlen (eff h0 c)
    | Some ONeedsMoreOutput => zlen o = room
    | _ => False
    end.
Proof.
  intros LR V M R. destruct (eff_fuel h0 c (or_intror Logic.I)) as [F|(a & b & d & f & ->)].
  - apply (encode_loop_spec c h0 _ r h e room); auto. unfold rest. destruct M as ((_ & S & _) & _). destruct (unf r =? 0); lia.
  - apply (encode_loop_dict a b d f h0 r h e room); auto.
Qed.

Lemma encode_cmd_spec c h0 r h e room : 1 < len r -> replayable dict (len r) c -> mid r h0 c h e -> 0 <= room ->
  exists res o r', encode_cmd (cmd_fuel dict c) dict r c room = Some (res, o, r') /\ len r' = len r /\ zlen o <= room /\
    total_offset r' = total_offset r + zlen o /\
    match res with
    | OSuccess => idle r' (h0 ++ eff h0 c) (e ++ o)
    | ONeedsMoreOutput => (exists h', mid r' h0 c h' (e ++ o)) /\ zlen o = room
    | OFailure => False
    end.
Proof.
  intros LR V M R. destruct (encode_loop_any c h0 r h e room LR V M R) as (res & o & r1 & h1 & E & M1 & L1 & O1 & T1 & X1).
  unfold encode_cmd. rewrite E. cbn [bind]. destruct res as [[]|]; try contradiction.
  - exists ONeedsMoreOutput, o, r1. split; [reflexivity|]. split; [exact L1|]. split; [exact O1|]. split; [exact T1|]. split; [exists h1; exact M1|exact X1].
  - destruct (Z.land (Z.lxor (di r1) (oi r1)) 4294966272 =? 0).
    + exists OSuccess, o, (set_sub r1 0). split; [reflexivity|]. split; [exact L1|]. split; [exact O1|]. split; [exact T1|]. apply (mid_idle _ _ _ _ _ M1 X1).
    + pose proof M1 as ((K1 & _) & W1 & EM1).
      destruct (rflush_spec r1 h1 (room - zlen o) K1 ltac:(lia)) as (fres & o2 & r2 & E2 & K2 & RI & SB & DI & OO & U2 & OL & T2 & FR).
      rewrite E2. cbn [bind].
      assert (M2 : mid r2 h0 c h1 ((e ++ o) ++ o2)).
      { split; [eapply part_flush; eauto; apply M1|]. split; [eapply whole_sub; eauto|]. exact (emitted_flush r1 _ _ (room - zlen o) o2 r2 K1 ltac:(lia) EM1 RI DI OO OL U2). }
      assert (L2 : len r2 = len r) by (unfold len in *; rewrite RI; exact L1).
      rewrite <- app_assoc in M2.
      destruct FR as [(-> & U0)|(-> & U0 & OR)].
      * exists OSuccess, (o ++ o2), (set_sub r2 0). rewrite zlen_app. split; [reflexivity|]. split; [exact L2|]. split; [lia|]. split; [change (total_offset r2 = total_offset r + (zlen o + zlen o2)); lia|].
        apply (mid_idle _ _ _ _ _ M2). rewrite SB. exact X1.
      * exists ONeedsMoreOutput, (o ++ o2), r2. rewrite zlen_app. split; [reflexivity|]. split; [exact L2|]. split; [lia|]. split; [lia|]. split; [exists h1; exact M2|lia].
Qed.
End Replay.
