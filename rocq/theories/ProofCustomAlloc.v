(** Support for C78: the allocator of the example program. *)
From Coq Require Import Permutation.
From Verif Require Import Prelude ProofList ModelMux ProofZlist ModelExample ModelCustomAlloc SpecCustomAlloc.

(** ** Memory *)
Lemma store_out m p l a : a < p \/ p + zlen l <= a -> store m p l a = m a.
Proof. intros H. unfold store. destruct (Z.leb_spec p a); destruct (Z.ltb_spec a (p + zlen l)); try reflexivity. lia. Qed.
Lemma fetch_same m m' p n : (forall a, p <= a < p + Z.of_nat n -> m a = m' a) -> fetch m p n = fetch m' p n.
Proof. intros H. unfold fetch. apply map_ext_in. intros i I. apply in_seq in I. apply H. lia. Qed.
Lemma fetch_store m p l : fetch (store m p l) p (length l) = l.
Proof.
  unfold fetch. apply (nth_ext _ _ 0 0); [rewrite map_length, seq_length; reflexivity|]. intros n L. rewrite map_length, seq_length in L.
  rewrite (nth_indep _ 0 (store m p l (p + Z.of_nat 0))) by (rewrite map_length, seq_length; exact L). rewrite (map_nth (fun i => store m p l (p + Z.of_nat i))). rewrite seq_nth by exact L. cbn [plus]. unfold store.
  replace ((p <=? p + Z.of_nat n) && (p + Z.of_nat n <? p + zlen l)) with true by (symmetry; apply andb_true_intro; rewrite Z.leb_le, Z.ltb_lt; unfold zlen; lia). f_equal. lia.
Qed.
Lemma fetch_store_le m p n x : fetch (store m p (le n x)) p n = le n x.
Proof. rewrite <- (le_length n x) at 2. apply fetch_store. Qed.
Lemma zlen_le n x : zlen (le n x) = Z.of_nat n.
Proof. unfold zlen. rewrite le_length. reflexivity. Qed.
Lemma land31 x : Z.land x 0x1f = x mod 32.
Proof. change 0x1f with (Z.ones 5). rewrite Z.land_ones by lia. reflexivity. Qed.
Lemma align_spec x : 0 <= x -> let a := (32 - (x + 21) mod 32) mod 32 in 0 <= a <= 31 /\ (x + 21 + a) mod 32 = 0.
Proof.
  intros P a. assert (A : 0 <= a < 32) by (apply Z.mod_pos_bound; lia). split; [lia|]. unfold a. rewrite <- (Z.add_mod_idemp_l (x + 21)) by lia. pose proof (Z.mod_pos_bound (x + 21) 32 ltac:(lia)) as B. set (y := (x + 21) mod 32) in *. clearbody y. rewrite Z.add_mod_idemp_r by lia. replace (y + (32 - y)) with 32 by lia. reflexivity.
Qed.

Section Alloc.
Context (huge fake : Z) (H0 : 0 < huge) (H1 : huge + BUFFER <= 2 ^ 64).
(** a block with its region: the block, where malloc's region begins *)
Definition full : Type := (blk * Z).
Definition amt (f : full) : Z := b_size (fst f) + 52.
Definition fapart (f g : full) : Prop := apart (snd f) (amt f) (snd g) (amt g).
Definition is_real (f : full) : bool := negb (b_opaque (fst f) =? fake).
Definition rawpair (f : full) : Z * Z := (snd f, amt f).
(** the header of the block is there *)
Definition labelled (m : memory) (f : full) : Prop :=
  let raw := snd f in
  fetch m raw 4 = le 4 science /\ fetch m (raw + 4) 8 = le 8 (b_opaque (fst f)) /\ fetch m (raw + 12) 8 = le 8 (b_size (fst f)) /\
  exists a, 0 <= a <= 31 /\ m (b_ptr (fst f) - 1) = a /\ b_ptr (fst f) = raw + 21 + a.
Definition placed (off : Z) (f : full) : Prop :=
  0 < snd f /\ snd f + amt f <= 2 ^ 64 /\ 0 <= b_size (fst f) /\ b_size (fst f) + 52 < 2 ^ 64 /\ 0 <= b_opaque (fst f) < 2 ^ 64 /\ b_ptr (fst f) mod 32 = 0 /\
  (b_opaque (fst f) = fake -> huge <= snd f /\ snd f + amt f <= huge + off) /\
  (b_opaque (fst f) <> fake -> apart (snd f) (amt f) huge BUFFER).
Definition ainv (s : heap) (live : list blk) (raws : list (Z * Z)) : Prop :=
  exists F, live = map fst F /\ Permutation raws (map rawpair (filter is_real F)) /\ ForallOrdPairs fapart F /\
    Forall (labelled (h_mem s)) F /\ Forall (placed (h_off s)) F /\ 0 <= h_off s <= BUFFER.

Lemma labelled_same m m' f : labelled m f -> (forall a, snd f <= a < b_ptr (fst f) -> m a = m' a) -> labelled m' f.
Proof.
  intros (L1 & L2 & L3 & a & A & M & P) S. split; [|split; [|split]].
  - rewrite <- L1. symmetry. apply fetch_same. intros x X. apply S. lia.
  - rewrite <- L2. symmetry. apply fetch_same. intros x X. apply S. lia.
  - rewrite <- L3. symmetry. apply fetch_same. intros x X. apply S. lia.
  - exists a. split; [exact A|]. split; [|exact P]. rewrite <- M. symmetry. apply S. lia.
Qed.
(** ** malloc *)
Lemma malloc_ok s opaque size got : 0 <= size -> size + 52 < 2 ^ 64 -> 0 <= h_off s <= BUFFER -> let ret := if opaque =? fake then huge + h_off s else got in 0 < ret ->
  exists m p, custom_malloc huge fake s opaque size got = Some (HP m (if opaque =? fake then u64 (h_off s + (size + 52)) else h_off s), p, if opaque =? fake then None else Some (size + 52)) /\
    labelled m (BL p size opaque, ret) /\ p mod 32 = 0 /\ (forall a, a < ret \/ ret + 52 <= a -> m a = h_mem s a).
Proof.
  intros S0 S1 OF ret R. unfold custom_malloc. replace (u64 (size + 2 * 8 + 4 + 32)) with (size + 52) by (symmetry; unfold u64; rewrite Z.mod_small; lia).
  set (a := (32 - (ret + 21) mod 32) mod 32). destruct (align_spec ret ltac:(lia)) as (A & P). fold a in A, P.
  set (m1 := store (h_mem s) ret (repeat 0x34 (2 * 8 + 4 + 32))). set (m2 := store m1 ret (le 4 science)). set (m3 := store m2 (ret + 4) (le 8 opaque)). set (m4 := store m3 (ret + 4 + 8) (le 8 size)). set (m5 := store m4 (ret + 8 + 8 + 4 + a) [a]).
  exists m5, (ret + 8 + 8 + 4 + 1 + a). split.
  { replace (if opaque =? fake then (huge + h_off s, u64 (h_off s + (size + 52)), None) else (got, h_off s, Some (size + 52))) with (ret, if opaque =? fake then u64 (h_off s + (size + 52)) else h_off s, if opaque =? fake then None else Some (size + 52)) by (unfold ret; destruct (opaque =? fake); reflexivity).
    destruct (Z.eqb_spec ret 0); [lia|]. cbv zeta. rewrite !land31. replace (ret + 4 + 8 + 8 + 1) with (ret + 21) by lia. fold a. replace ((ret + 8 + 8 + 4 + 1 + a) mod 32) with 0 by (replace (ret + 8 + 8 + 4 + 1 + a) with (ret + 21 + a) by lia; symmetry; exact P). reflexivity. }
  split; [|split; [replace (ret + 8 + 8 + 4 + 1 + a) with (ret + 21 + a) by lia; exact P|]].
  - unfold labelled. cbn [fst snd b_opaque b_size b_ptr]. split; [|split; [|split]].
    + rewrite <- (fetch_store_le m1 ret 4 science). fold m2. apply fetch_same. intros x X. unfold m5. rewrite store_out by lia. unfold m4. rewrite store_out by lia. unfold m3. apply store_out. lia.
    + rewrite <- (fetch_store_le m2 (ret + 4) 8 opaque). fold m3. apply fetch_same. intros x X. unfold m5. rewrite store_out by lia. unfold m4. apply store_out. lia.
    + replace (ret + 12) with (ret + 4 + 8) by lia. rewrite <- (fetch_store_le m3 (ret + 4 + 8) 8 size). fold m4. apply fetch_same. intros x X. unfold m5. apply store_out. lia.
    + exists a. split; [exact A|]. split; [|lia]. unfold m5, store. replace (ret + 8 + 8 + 4 + 1 + a - 1) with (ret + 8 + 8 + 4 + a) by lia. rewrite Z.leb_refl. change (zlen [a]) with 1. destruct (Z.ltb_spec (ret + 8 + 8 + 4 + a) (ret + 8 + 8 + 4 + a + 1)); [|lia]. cbn [andb]. rewrite Z.sub_diag. reflexivity.
  - intros x X. assert (Z52 : zlen (repeat 0x34 (2 * 8 + 4 + 32)) = 52) by reflexivity. unfold m5. rewrite store_out by (change (zlen [a]) with 1; lia). unfold m4. rewrite store_out by (rewrite zlen_le; lia). unfold m3. rewrite store_out by (rewrite zlen_le; lia). unfold m2. rewrite store_out by (rewrite zlen_le; lia). unfold m1. rewrite store_out by lia. reflexivity.
Qed.
(** ** free *)
Lemma free_ok s f : labelled (h_mem s) f -> placed (h_off s) f ->
  custom_free huge fake s (b_opaque (fst f)) (b_ptr (fst f)) =
    Some (if b_opaque (fst f) =? fake then (if huge + h_off s - b_size (fst f) =? b_ptr (fst f) then HP (h_mem s) (u64 (h_off s - (20 + b_size (fst f)))) else s) else s,
          if b_opaque (fst f) =? fake then None else Some (snd f)).
Proof.
  intros (L1 & L2 & L3 & a & A & M & P) (P0 & P1 & S0 & S1 & OP & _). unfold custom_free. destruct (Z.eqb_spec (b_ptr (fst f)) 0); [lia|]. cbv zeta. rewrite M. unfold schar. destruct (Z.ltb_spec a 128); [|lia].
  replace (b_ptr (fst f) - 1 - a - 4 - 8 - 8) with (snd f) by lia. rewrite L1, L2. replace (snd f + 4 + 8) with (snd f + 12) by lia. rewrite L3.
  assert (U1 : unle (le 4 science) = science) by reflexivity. assert (U2 : unle (le 8 (b_opaque (fst f))) = b_opaque (fst f)) by (apply unle_le; change (256 ^ Z.of_nat 8) with (2 ^ 64); lia). assert (U3 : unle (le 8 (b_size (fst f))) = b_size (fst f)) by (apply unle_le; change (256 ^ Z.of_nat 8) with (2 ^ 64); lia). rewrite U1, U2, U3. clear U1 U2 U3.
  rewrite !Z.eqb_refl. unfold assert. replace (4 + 8 + 8 + b_size (fst f)) with (20 + b_size (fst f)) by lia. destruct (b_opaque (fst f) =? fake); [|reflexivity]. destruct (_ =? b_ptr (fst f)); reflexivity.
Qed.
(** ** the invariant *)
Lemma ainv_new m : ainv (HP m 0) [] [].
Proof. exists []. split; [reflexivity|]. split; [constructor|]. split; [constructor|]. split; [constructor|]. split; [constructor|]. cbn [h_off]. unfold BUFFER. lia. Qed.
Lemma placed_in_fake off f : placed off f -> off <= BUFFER -> b_opaque (fst f) = fake -> huge <= snd f /\ snd f + amt f <= huge + BUFFER.
Proof. intros (_ & _ & _ & _ & _ & _ & P & _) L E. specialize (P E). lia. Qed.
(** a new region lies apart from the old ones *)
Lemma new_apart s live raws F opaque size got : ainv s live raws -> Permutation raws (map rawpair (filter is_real F)) -> Forall (placed (h_off s)) F -> 0 <= h_off s <= BUFFER -> request huge fake s size opaque ->
  (opaque <> fake -> fresh huge got raws (size + 52)) ->
  Forall (fun g => apart (if opaque =? fake then huge + h_off s else got) (size + 52) (snd g) (amt g)) F.
Proof.
  intros _ PE PL OF (S0 & S1 & OP & RQ) FR. apply Forall_forall. intros g I. pose proof (proj1 (Forall_forall _ _) PL g I) as PG. pose proof PG as (G0 & G1 & G2 & G3 & G4 & _ & GF & GR).
  destruct (Z.eqb_spec opaque fake) as [E|E].
  - specialize (RQ E). destruct (Z.eq_dec (b_opaque (fst g)) fake) as [Q|Q]; [specialize (GF Q); right; lia|]. specialize (GR Q). unfold apart in *. lia.
  - destruct (FR E) as (_ & _ & AH & AR). destruct (Z.eq_dec (b_opaque (fst g)) fake) as [Q|Q].
    + destruct (placed_in_fake _ _ PG (proj2 OF) Q). unfold apart in *. lia.
    + rewrite Forall_forall in AR. apply (AR (rawpair g)). apply (Permutation_in _ (Permutation_sym PE)). apply in_map. apply filter_In. split; [exact I|]. unfold is_real. destruct (Z.eqb_spec (b_opaque (fst g)) fake); [contradiction|reflexivity].
Qed.
(** bytes of the other blocks, header and contents, are as before *)
Lemma malloc_step s live raws opaque size got : ainv s live raws -> request huge fake s size opaque -> (opaque <> fake -> fresh huge got raws (size + 52)) ->
  exists s' p, custom_malloc huge fake s opaque size got = Some (s', p, if opaque =? fake then None else Some (size + 52)) /\
    ainv s' (BL p size opaque :: live) (if opaque =? fake then raws else (got, size + 52) :: raws) /\
    (forall b a, In b live -> inside b a -> h_mem s' a = h_mem s a).
Proof.
  intros I RQ FR. pose proof I as (F & -> & PE & AP & LB & PL & OF). pose proof (new_apart s _ raws F opaque size got I PE PL OF RQ FR) as NA. pose proof RQ as (S0 & S1 & OP & RM).
  assert (RP : 0 < if opaque =? fake then huge + h_off s else got) by (destruct (Z.eqb_spec opaque fake) as [E|E]; [lia|destruct (FR E); assumption]).
  destruct (malloc_ok s opaque size got S0 S1 OF RP) as (m & p & EQ & LN & PA & ME). set (ret := if opaque =? fake then huge + h_off s else got) in *.
  exists (HP m (if opaque =? fake then u64 (h_off s + (size + 52)) else h_off s)), p. split; [exact EQ|].
  assert (OFF : (if opaque =? fake then u64 (h_off s + (size + 52)) else h_off s) = if opaque =? fake then h_off s + (size + 52) else h_off s).
  { destruct (Z.eqb_spec opaque fake) as [E|E]; [|reflexivity]. specialize (RM E). unfold u64. apply Z.mod_small. unfold BUFFER in *. lia. }
  assert (KEEP : forall g a, In g F -> snd g <= a < snd g + amt g -> m a = h_mem s a).
  { intros g a IG R. apply ME. pose proof (proj1 (Forall_forall _ _) NA g IG) as Q. unfold apart in Q. lia. }
  assert (PTR : forall g, In g F -> snd g + 21 <= b_ptr (fst g) /\ b_ptr (fst g) + b_size (fst g) <= snd g + amt g).
  { intros g IG. pose proof (proj1 (Forall_forall _ _) LB g IG) as (_ & _ & _ & a & A & _ & P). unfold amt. lia. }
  split.
  - exists ((BL p size opaque, ret) :: F). rewrite OFF. split; [reflexivity|]. split; [|split; [|split; [|split]]].
    + cbn [filter]. unfold is_real at 1. cbn [fst b_opaque]. destruct (Z.eqb_spec opaque fake) as [E|E]; cbn [negb]; [exact PE|]. cbn [map]. unfold rawpair at 1, amt at 1. cbn [fst snd b_size]. unfold ret. constructor. exact PE.
    + constructor; [|exact AP]. exact NA.
    + cbn [h_mem]. constructor; [exact LN|]. apply Forall_forall. intros g IG. apply (labelled_same (h_mem s)); [exact (proj1 (Forall_forall _ _) LB g IG)|]. intros a R. symmetry. apply (KEEP g a IG). destruct (PTR g IG). pose proof (proj1 (Forall_forall _ _) PL g IG) as (_ & _ & GS & _). lia.
    + cbn [h_off]. constructor.
      * unfold placed, amt. cbn [fst snd b_size b_opaque b_ptr]. split; [exact RP|]. split; [unfold ret; destruct (Z.eqb_spec opaque fake) as [E|E]; [specialize (RM E); lia|destruct (FR E) as (_ & Q & _); lia]|]. split; [exact S0|]. split; [exact S1|]. split; [exact OP|]. split; [exact PA|]. split.
        -- intros ->. unfold ret. rewrite Z.eqb_refl. lia.
        -- intros E. unfold ret. destruct (Z.eqb_spec opaque fake); [contradiction|]. destruct (FR E) as (_ & _ & Q & _). exact Q.
      * eapply Forall_impl; [|exact PL]. intros g (G0 & G1 & G2 & G3 & G4 & G5 & GF & GR). repeat (split; [assumption|]). split; [|exact GR]. intros Q. specialize (GF Q). destruct (opaque =? fake); lia.
    + cbn [h_off]. destruct (Z.eqb_spec opaque fake) as [E|E]; [specialize (RM E)|]; lia.
  - intros b a IB R. apply in_map_iff in IB. destruct IB as (g & <- & IG). cbn [h_mem]. apply (KEEP g a IG). unfold inside in R. destruct (PTR g IG). lia.
Qed.
Lemma write_step s live raws b a x : ainv s live raws -> In b live -> inside b a -> ainv (HP (store (h_mem s) a [x]) (h_off s)) live raws.
Proof.
  intros (F & -> & PE & AP & LB & PL & OF) IB R. exists F. split; [reflexivity|]. split; [exact PE|]. split; [exact AP|]. split; [|split; [exact PL|exact OF]]. cbn [h_mem]. apply in_map_iff in IB. destruct IB as (g & <- & IG). unfold inside in R.
  apply Forall_forall. intros f IF. pose proof (proj1 (Forall_forall _ _) LB f IF) as LF. apply (labelled_same (h_mem s)); [exact LF|]. intros y Y. symmetry. apply store_out. change (zlen [x]) with 1.
  pose proof (proj1 (Forall_forall _ _) LB g IG) as (_ & _ & _ & ga & GA & _ & GP). destruct LF as (_ & _ & _ & fa & FA & _ & FP). pose proof (proj1 (Forall_forall _ _) PL f IF) as (_ & _ & FS & _).
  destruct (ForallOrdPairs_In AP f g IF IG) as [->|[Q|Q]]; [lia| |]; unfold fapart, apart, amt in Q; lia.
Qed.
Lemma split_map {A B} (f : A -> B) : forall F l1 b l2, map f F = l1 ++ b :: l2 -> exists F1 g F2, F = F1 ++ g :: F2 /\ map f F1 = l1 /\ f g = b /\ map f F2 = l2.
Proof.
  induction F as [|x F IH]; intros l1 b l2 E; [destruct l1; discriminate E|]. destruct l1 as [|y l1]; cbn [map app] in E.
  - exists [], x, F. split; [reflexivity|]. split; [reflexivity|]. split; congruence.
  - assert (E2 : map f F = l1 ++ b :: l2) by congruence. destruct (IH l1 b l2 E2) as (F1 & g & F2 & -> & E1 & EG & EF). exists (x :: F1), g, F2. split; [reflexivity|]. split; [cbn [map]; congruence|]. split; assumption.
Qed.
Lemma fop_remove {A} (R : A -> A -> Prop) : forall l1 x l2, ForallOrdPairs R (l1 ++ x :: l2) -> ForallOrdPairs R (l1 ++ l2) /\ (forall y, In y (l1 ++ l2) -> R x y \/ R y x).
Proof.
  induction l1 as [|y l1 IH]; intros x l2 H; cbn [app] in *; inversion H as [|? ? H2 H3]; subst.
  - split; [exact H3|]. intros y I. left. exact (proj1 (Forall_forall _ _) H2 y I).
  - destruct (IH x l2 H3) as (I1 & I2). apply Forall_app in H2. destruct H2 as (H2 & H4). apply Forall_cons_iff in H4. destruct H4 as (H4 & H5). split; [constructor; [apply Forall_app; split; assumption|exact I1]|]. intros z [->|I]; [right; exact H4|exact (I2 z I)].
Qed.
(** the free of a block held *)
Lemma free_step s l1 b l2 raws : ainv s (l1 ++ b :: l2) raws ->
  exists s' freed, custom_free huge fake s (b_opaque b) (b_ptr b) = Some (s', freed) /\ (freed = None <-> b_opaque b = fake) /\ h_mem s' = h_mem s /\ h_off s' <= h_off s /\
    (exists raws', give_back freed raws raws') /\ (forall raws', give_back freed raws raws' -> ainv s' (l1 ++ l2) raws').
Proof.
  intros (F & EL & PE & AP & LB & PL & OF). destruct (split_map fst F l1 b l2 (eq_sym EL)) as (F1 & g & F2 & -> & <- & <- & <-). clear EL.
  pose proof (fop_remove _ _ _ _ AP) as (AP' & APG). assert (IG : In g (F1 ++ g :: F2)) by (apply in_or_app; right; left; reflexivity).
  pose proof (proj1 (Forall_forall _ _) LB g IG) as LG. pose proof (proj1 (Forall_forall _ _) PL g IG) as PG. pose proof (free_ok s g LG PG) as EQ.
  apply Forall_app in LB. destruct LB as (LB1 & LB2). apply Forall_cons_iff in LB2. destruct LB2 as (_ & LB2). apply Forall_app in PL. destruct PL as (PL1 & PL2). apply Forall_cons_iff in PL2. destruct PL2 as (_ & PL2).
  assert (LB' : Forall (labelled (h_mem s)) (F1 ++ F2)) by (apply Forall_app; split; assumption). assert (PL' : Forall (placed (h_off s)) (F1 ++ F2)) by (apply Forall_app; split; assumption).
  destruct LG as (_ & _ & _ & a & A & _ & PTR). pose proof PG as (G0 & G1 & G2 & G3 & G4 & G5 & GF & GR). rewrite EQ. eexists _, _. split; [reflexivity|].
  destruct (Z.eqb_spec (b_opaque (fst g)) fake) as [E|E].
  - specialize (GF E). split; [split; auto|].
    assert (PE' : Permutation raws (map rawpair (filter is_real (F1 ++ F2)))).
    { rewrite filter_app in *. cbn [filter] in PE. unfold is_real at 2 in PE. rewrite E, Z.eqb_refl in PE. exact PE. }
    destruct (Z.eqb_spec (huge + h_off s - b_size (fst g)) (b_ptr (fst g))) as [T|T].
    + (* the topmost block *)
      unfold amt in GF. assert (a = 31) by lia. subst a. assert (RAW : snd g + amt g = huge + h_off s) by (unfold amt; lia).
      assert (UO : u64 (h_off s - (20 + b_size (fst g))) = snd g + 32 - huge) by (unfold u64; rewrite Z.mod_small; [unfold amt in RAW; lia|unfold amt in RAW; unfold BUFFER in *; lia]).
      cbn [h_mem h_off]. rewrite UO. split; [reflexivity|]. split; [unfold amt in RAW; lia|]. split; [eexists; constructor|]. intros raws' GB. inversion GB; subst.
      exists (F1 ++ F2). rewrite map_app. split; [reflexivity|]. split; [exact PE'|]. split; [exact AP'|]. split; [exact LB'|]. cbn [h_off]. split; [|unfold amt in RAW; lia].
      apply Forall_forall. intros f IF. pose proof (proj1 (Forall_forall _ _) PL' f IF) as (P0 & P1 & P2 & P3 & P4 & P5 & PF & PR). repeat (split; [assumption|]). split; [|exact PR]. intros Q. specialize (PF Q). split; [lia|]. destruct (APG f IF) as [W|W]; unfold fapart, apart in W; unfold amt in *; lia.
    + split; [reflexivity|]. split; [lia|]. split; [eexists; constructor|]. intros raws' GB. inversion GB; subst. exists (F1 ++ F2). rewrite map_app. split; [reflexivity|]. split; [exact PE'|]. split; [exact AP'|]. split; [exact LB'|]. split; [exact PL'|exact OF].
  - split; [split; [discriminate|contradiction]|]. split; [reflexivity|]. split; [lia|].
    assert (RG : is_real g = true) by (unfold is_real; destruct (Z.eqb_spec (b_opaque (fst g)) fake); [contradiction|reflexivity]).
    assert (PE2 : Permutation raws (rawpair g :: map rawpair (filter is_real (F1 ++ F2)))).
    { rewrite filter_app in PE |- *. cbn [filter] in PE. rewrite RG in PE. rewrite PE, !map_app. cbn [map]. symmetry. apply Permutation_middle. }
    split.
    + assert (IN : In (rawpair g) raws) by (apply (Permutation_in _ (Permutation_sym PE2)); left; reflexivity). apply in_split in IN. destruct IN as (r1 & r2 & ->). exists (r1 ++ r2). constructor.
    + intros raws' GB. inversion GB as [|a' n r1 r2 Q1 Q2 Q3]; subst. exists (F1 ++ F2). rewrite map_app. split; [reflexivity|]. split; [|split; [exact AP'|]; split; [exact LB'|]; split; [exact PL'|exact OF]].
      (* the region given back is that of the block *)
      assert (NE : (snd g, n) = rawpair g).
      { assert (IN : In (snd g, n) (rawpair g :: map rawpair (filter is_real (F1 ++ F2)))) by (apply (Permutation_in _ PE2); apply in_or_app; right; left; reflexivity).
        destruct IN as [IN|IN]; [symmetry; exact IN|exfalso]. apply in_map_iff in IN. destruct IN as (f & EF & IF). apply filter_In in IF. destruct IF as (IF & _). unfold rawpair in EF. assert (snd f = snd g) as SF by congruence.
        pose proof (proj1 (Forall_forall _ _) PL' f IF) as (_ & _ & P2 & _). destruct (APG f IF) as [W|W]; unfold fapart, apart, amt in W; lia. }
      rewrite NE in PE2. apply (Permutation_cons_inv (a := rawpair g)). rewrite <- PE2. apply Permutation_middle.
Qed.
Lemma asked_is s opaque size got s' p asked : 0 <= size -> size + 52 < 2 ^ 64 -> custom_malloc huge fake s opaque size got = Some (s', p, asked) -> asked = if opaque =? fake then None else Some (size + 52).
Proof.
  intros S0 S1 EQ. unfold custom_malloc in EQ. replace (u64 (size + 2 * 8 + 4 + 32)) with (size + 52) in EQ by (symmetry; unfold u64; rewrite Z.mod_small; lia). destruct (opaque =? fake); cbv zeta in EQ; unfold assert in EQ; destruct (_ =? 0) in EQ; try discriminate EQ; destruct (Z.land _ _ =? 0) in EQ; congruence.
Qed.
Lemma history_inv s live raws k : history huge fake s live raws k -> ainv s live raws.
Proof.
  induction 1 as [m|s live raws k opaque size got s' p asked HI IH RQ EQ FR|s l1 b l2 raws k s' freed raws' HI IH EQ GB|s live raws k b a x HI IH IB R X].
  - apply ainv_new.
  - pose proof RQ as (S0 & S1 & _). pose proof (asked_is _ _ _ _ _ _ _ S0 S1 EQ) as AS.
    destruct (malloc_step s live raws opaque size got IH RQ) as (s2 & p2 & E2 & I2 & _).
    + intros NE. apply FR. rewrite AS. destruct (Z.eqb_spec opaque fake); [contradiction|reflexivity].
    + assert (s2 = s' /\ p2 = p) as (-> & ->) by (split; congruence). rewrite AS. destruct (opaque =? fake); exact I2.
  - destruct (free_step s l1 b l2 raws IH) as (s2 & fr2 & E2 & _ & _ & _ & _ & I2). assert (s2 = s' /\ fr2 = freed) as (-> & ->) by (split; congruence). exact (I2 raws' GB).
  - exact (write_step s live raws b a x IH IB R).
Qed.
(** ** the buffer never gets back the first 32 bytes of a block *)
Lemma free_off s l1 b l2 raws s' freed : ainv s (l1 ++ b :: l2) raws -> custom_free huge fake s (b_opaque b) (b_ptr b) = Some (s', freed) ->
  h_off s' = if (b_opaque b =? fake) && (huge + h_off s =? b_ptr b + b_size b) then h_off s - (20 + b_size b) else h_off s.
Proof.
  intros (F & EL & PE & AP & LB & PL & OF) EQ. destruct (split_map fst F l1 b l2 (eq_sym EL)) as (F1 & g & F2 & -> & <- & <- & <-). assert (IG : In g (F1 ++ g :: F2)) by (apply in_or_app; right; left; reflexivity).
  pose proof (proj1 (Forall_forall _ _) LB g IG) as LG. pose proof (proj1 (Forall_forall _ _) PL g IG) as PG. rewrite (free_ok s g LG PG) in EQ. destruct LG as (_ & _ & _ & a & A & _ & P). destruct PG as (G0 & G1 & G2 & G3 & G4 & G5 & GF & GR).
  destruct (Z.eqb_spec (b_opaque (fst g)) fake) as [E|E]; cbn [andb]; [|congruence]. specialize (GF E). unfold amt in GF.
  destruct (Z.eqb_spec (huge + h_off s - b_size (fst g)) (b_ptr (fst g))); destruct (Z.eqb_spec (huge + h_off s) (b_ptr (fst g) + b_size (fst g))); try lia; [|congruence]. assert (s' = HP (h_mem s) (u64 (h_off s - (20 + b_size (fst g))))) as -> by congruence. cbn [h_off]. unfold u64. apply Z.mod_small. unfold BUFFER in *. lia.
Qed.
(** with each block where its region begins and its number *)
Record num := NUM { n_blk : blk; n_raw : Z; n_at : Z }.
Definition n_end (x : num) : Z := n_raw x + b_size (n_blk x) + 52.
Definition numbered (off k : Z) (x : num) : Prop := b_opaque (n_blk x) = fake ->
  0 <= n_at x < k /\ b_ptr (n_blk x) <= n_raw x + 52 /\ huge + 32 * n_at x <= n_raw x /\ n_end x + 32 * (k - 1 - n_at x) <= huge + off.
Definition later (y x : num) : Prop := b_opaque (n_blk y) = fake -> b_opaque (n_blk x) = fake -> n_at x < n_at y /\ n_end x + 32 * (n_at y - n_at x - 1) <= n_raw y.
Definition kinv (s : heap) (live : list blk) (k : Z) : Prop :=
  exists K, live = map n_blk K /\ 0 <= k /\ 32 * k <= h_off s /\ Forall (numbered (h_off s) k) K /\ ForallOrdPairs later K.
Lemma history_count s live raws k : history huge fake s live raws k -> kinv s live k.
Proof.
  induction 1 as [m|s live raws k opaque size got s' p asked HI IH RQ EQ FR|s l1 b l2 raws k s' freed raws' HI IH EQ GB|s live raws k b a x HI IH IB R X].
  - exists []. cbn [h_off]. split; [reflexivity|]. split; [lia|]. split; [lia|]. split; constructor.
  - destruct IH as (K & -> & K0 & KO & KF & KP). pose proof RQ as (S0 & S1 & OP & RM). pose proof (history_inv _ _ _ _ HI) as (_ & _ & _ & _ & _ & _ & OF).
    pose proof (asked_is _ _ _ _ _ _ _ S0 S1 EQ) as AS. destruct (Z.eqb_spec opaque fake) as [E|E].
    + specialize (RM E). destruct (malloc_ok s opaque size got S0 S1 OF) as (m & p2 & E2 & (_ & _ & _ & a & A & _ & P) & _); [rewrite E, Z.eqb_refl; lia|]. rewrite E, Z.eqb_refl in E2, P. rewrite E in EQ. rewrite EQ in E2. assert (p2 = p) as -> by congruence. cbn [fst snd b_ptr] in P.
      assert (OO : h_off s' = h_off s + (size + 52)). { assert (s' = HP m (u64 (h_off s + (size + 52)))) as -> by congruence. cbn [h_off]. unfold u64. apply Z.mod_small. unfold BUFFER in *. lia. }
      exists (NUM (BL p size opaque) (huge + h_off s) k :: K). cbn [map n_blk]. split; [reflexivity|]. split; [lia|]. split; [lia|]. rewrite OO. split; constructor.
      * intros _. unfold n_end. cbn [n_blk n_raw n_at b_ptr b_size]. lia.
      * eapply Forall_impl; [|exact KF]. intros x N Q. specialize (N Q). lia.
      * eapply Forall_impl; [|exact KF]. intros x N _ Q. specialize (N Q). unfold n_end in *. cbn [n_blk n_raw n_at]. lia.
      * exact KP.
    + assert (OO : h_off s' = h_off s). { unfold custom_malloc in EQ. destruct (Z.eqb_spec opaque fake); [contradiction|]. cbv zeta in EQ. unfold assert in EQ. destruct (got =? 0); [discriminate EQ|]. destruct (Z.land _ _ =? 0) in EQ; [|discriminate EQ]. match type of EQ with Some (?h, _, _) = _ => assert (s' = h) as -> by congruence end. reflexivity. }
      exists (NUM (BL p size opaque) 0 0 :: K). rewrite OO. split; [reflexivity|]. split; [lia|]. split; [lia|]. split; constructor.
      * intros Q. contradiction.
      * exact KF.
      * apply Forall_forall. intros x _ Q. contradiction.
      * exact KP.
  - destruct IH as (K & EL & K0 & KO & KF & KP). destruct (split_map n_blk K l1 b l2 (eq_sym EL)) as (F1 & g & F2 & -> & <- & <- & <-). pose proof (free_off _ _ _ _ _ _ _ (history_inv _ _ _ _ HI) EQ) as OO.
    destruct (fop_remove _ _ _ _ KP) as (KP' & KPG). assert (IG : In g (F1 ++ g :: F2)) by (apply in_or_app; right; left; reflexivity). pose proof (proj1 (Forall_forall _ _) KF g IG) as NG. apply Forall_app in KF. destruct KF as (KF1 & KF2). apply Forall_cons_iff in KF2. destruct KF2 as (_ & KF2). assert (KF' : Forall (numbered (h_off s) k) (F1 ++ F2)) by (apply Forall_app; split; assumption).
    exists (F1 ++ F2). rewrite map_app. split; [reflexivity|]. split; [exact K0|]. rewrite OO.
    destruct (Z.eqb_spec (b_opaque (n_blk g)) fake) as [E|E]; cbn [andb]; [|split; [exact KO|]; split; assumption]. specialize (NG E). unfold n_end in NG.
    destruct (Z.eqb_spec (huge + h_off s) (b_ptr (n_blk g) + b_size (n_blk g))) as [T|T]; [|split; [exact KO|]; split; assumption].
    assert (n_at g = k - 1) by lia. assert (b_ptr (n_blk g) = n_raw g + 52) by lia. split; [lia|]. split; [|exact KP'].
    apply Forall_forall. intros x IX Q. pose proof (proj1 (Forall_forall _ _) KF' x IX Q) as NX. destruct (KPG x IX) as [W|W].
    + specialize (W E Q). unfold n_end in *. lia.
    + specialize (W Q E). lia.
  - destruct IH as (K & E & K0 & KO & KF & KP). exists K. cbn [h_off]. auto.
Qed.
End Alloc.
