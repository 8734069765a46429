(** C78: the allocator of the example program. *)
From Coq Require Import Permutation.
From Verif Require Import Prelude ProofList ModelMux ProofZlist ModelExample ModelCustomAlloc SpecCustomAlloc ProofCustomAlloc.

(** C78, the blocks.  After any history: every block held is aligned to 32 bytes, lies
    wholly inside a region malloc gave for it and has not taken back, or inside the
    static buffer, and shares no byte with another. *)
Theorem C78_blocks : forall huge fake s live raws k, 0 < huge -> huge + BUFFER <= 2 ^ 64 -> history huge fake s live raws k ->
  Forall (fun b => 0 < b_ptr b /\ b_ptr b mod 32 = 0 /\
    (b_opaque b = fake -> huge <= b_ptr b /\ b_ptr b + b_size b <= huge + BUFFER) /\
    (b_opaque b <> fake -> exists r, In r raws /\ fst r <= b_ptr b /\ b_ptr b + b_size b <= fst r + snd r)) live /\
  ForallOrdPairs (fun b c => apart (b_ptr b) (b_size b) (b_ptr c) (b_size c)) live /\
  length raws = length (filter (fun b => negb (b_opaque b =? fake)) live).
Proof.
  intros huge fake s live raws k H0 H1 HI. destruct (history_inv huge fake H0 H1 _ _ _ _ HI) as (F & -> & PE & AP & LB & PL & OF).
  assert (PTR : forall g, In g F -> snd g + 21 <= b_ptr (fst g) /\ b_ptr (fst g) + b_size (fst g) <= snd g + amt g) by (intros g IG; pose proof (proj1 (Forall_forall _ _) LB g IG) as (_ & _ & _ & a & A & _ & P); unfold amt; lia).
  split; [|split].
  - apply Forall_forall. intros b IB. apply in_map_iff in IB. destruct IB as (g & <- & IG). pose proof (proj1 (Forall_forall _ _) PL g IG) as (G0 & G1 & G2 & G3 & G4 & G5 & GF & GR). destruct (PTR g IG) as (P1 & P2).
    split; [lia|]. split; [exact G5|]. split; [intros E; specialize (GF E); lia|]. intros E. exists (rawpair g). split; [|unfold rawpair; cbn [fst snd]; lia]. apply (Permutation_in _ (Permutation_sym PE)). apply in_map, filter_In. split; [exact IG|]. unfold is_real. destruct (Z.eqb_spec (b_opaque (fst g)) fake); [contradiction|reflexivity].
  - clear - AP PTR. induction AP as [|f F H AP IH]; cbn [map]; constructor.
    + apply Forall_forall. intros b IB. apply in_map_iff in IB. destruct IB as (g & <- & IG). pose proof (proj1 (Forall_forall _ _) H g IG) as Q. destruct (PTR f (or_introl eq_refl)). destruct (PTR g (or_intror IG)). unfold fapart, apart in *. lia.
    + apply IH. intros g IG. apply PTR. right. exact IG.
  - rewrite (Permutation_length PE), map_length. clear. induction F as [|f F IH]; [reflexivity|]. cbn [filter map]. unfold is_real at 1. destruct (b_opaque (fst f) =? fake); cbn [negb length]; [exact IH|f_equal; exact IH].
Qed.
Print Assumptions C78_blocks.

(** C78, the calls.  After any history: a request is always served if malloc answers it, and
    asks malloc once or not at all; the free of any block held passes both assertions
    and gives to free exactly one region that malloc gave, or nothing for the static
    buffer; and neither changes a byte of any block held.  The free of NULL does nothing. *)
Theorem C78_calls : forall huge fake s live raws k, 0 < huge -> huge + BUFFER <= 2 ^ 64 -> history huge fake s live raws k ->
  (forall opaque size got, request huge fake s size opaque -> (opaque <> fake -> fresh huge got raws (size + 52)) ->
    exists s' p asked, custom_malloc huge fake s opaque size got = Some (s', p, asked) /\ (asked = None <-> opaque = fake) /\ (forall n, asked = Some n -> n = size + 52) /\
      forall b a, In b live -> inside b a -> h_mem s' a = h_mem s a) /\
  (forall l1 b l2, live = l1 ++ b :: l2 ->
    exists s' freed, custom_free huge fake s (b_opaque b) (b_ptr b) = Some (s', freed) /\ (freed = None <-> b_opaque b = fake) /\ h_mem s' = h_mem s /\
      exists raws', give_back freed raws raws' /\ (freed = None \/ length raws = S (length raws'))) /\
  (forall opaque, custom_free huge fake s opaque 0 = Some (s, None)).
Proof.
  intros huge fake s live raws k H0 H1 HI. pose proof (history_inv huge fake H0 H1 _ _ _ _ HI) as I. split; [|split].
  - intros opaque size got RQ FR. destruct (malloc_step huge fake H0 H1 s live raws opaque size got I RQ FR) as (s' & p & E & _ & K). eexists s', p, _. split; [exact E|]. destruct (Z.eqb_spec opaque fake) as [Q|Q]; (split; [split; [try discriminate; auto|try contradiction; auto]|split; [|exact K]]); intros n N; congruence.
  - intros l1 b l2 ->. destruct (free_step huge fake s l1 b l2 raws I) as (s' & freed & E & A & M & _ & (raws' & G) & _). exists s', freed. split; [exact E|]. split; [exact A|]. split; [exact M|]. exists raws'. split; [exact G|]. destruct G as [|a n r1 r2]; [left; reflexivity|right]. rewrite !app_length. cbn [length]. lia.
  - intros opaque. reflexivity.
Qed.
Print Assumptions C78_calls.

(** C78, giving back.  When the program holds nothing any more, malloc has everything back. *)
Theorem C78_all_returned : forall huge fake s raws k, 0 < huge -> huge + BUFFER <= 2 ^ 64 -> history huge fake s [] raws k -> raws = [].
Proof.
  intros huge fake s raws k H0 H1 HI. destruct (C78_blocks _ _ _ _ _ _ H0 H1 HI) as (_ & _ & L). destruct raws; [reflexivity|discriminate L].
Qed.
Print Assumptions C78_all_returned.

(** C78, the static buffer does not come back.  Whatever is freed, in whatever order: after
    [k] blocks at least 32 [k] bytes of the buffer are gone, so that no program, however
    little it holds at a time, can take more than 8355840 blocks from it. *)
Theorem C78_buffer_runs_out : forall huge fake s live raws k, 0 < huge -> huge + BUFFER <= 2 ^ 64 -> history huge fake s live raws k ->
  32 * k <= h_off s <= BUFFER /\ k <= 8355840.
Proof.
  intros huge fake s live raws k H0 H1 HI. destruct (history_inv huge fake H0 H1 _ _ _ _ HI) as (_ & _ & _ & _ & _ & _ & OF). destruct (history_count huge fake H0 H1 _ _ _ _ HI) as (_ & _ & _ & KO & _). split; [lia|]. unfold BUFFER in OF. lia.
Qed.
Print Assumptions C78_buffer_runs_out.
(** A block freed at once: the mark goes back only if the block began at 12 modulo 32, and
    then not all the way. *)
Theorem C78_freed_at_once : forall huge fake s live raws k size got, 0 < huge -> huge + BUFFER <= 2 ^ 64 -> history huge fake s live raws k -> request huge fake s size fake ->
  exists s1 p s2, custom_malloc huge fake s fake size got = Some (s1, p, None) /\ custom_free huge fake s1 fake p = Some (s2, None) /\
    h_off s2 = h_off s + if (huge + h_off s) mod 32 =? 12 then 32 else size + 52.
Proof.
  intros huge fake s live raws k size got H0 H1 HI RQ. pose proof RQ as (S0 & S1 & OP & RM). specialize (RM eq_refl). pose proof (history_inv huge fake H0 H1 _ _ _ _ HI) as I. pose proof I as (_ & _ & _ & _ & _ & _ & OF).
  destruct (malloc_ok huge fake s fake size got S0 S1 OF) as (m & p & E & (L1 & L2 & L3 & a & A & M & P) & PM & _); [rewrite Z.eqb_refl; lia|]. rewrite Z.eqb_refl in *. cbn [fst snd b_ptr b_size b_opaque] in *.
  assert (UO : u64 (h_off s + (size + 52)) = h_off s + (size + 52)) by (unfold u64; apply Z.mod_small; unfold BUFFER in *; lia). rewrite UO in E.
  pose proof (free_ok huge fake (HP m (h_off s + (size + 52))) (BL p size fake, huge + h_off s)) as FO. cbn [fst snd b_ptr b_size b_opaque h_mem h_off] in FO. rewrite Z.eqb_refl in FO.
  eexists _, p, _. split; [exact E|]. split.
  { apply FO.
    - split; [exact L1|]. split; [exact L2|]. split; [exact L3|]. exists a. split; [exact A|]. split; [exact M|exact P].
    - unfold placed, amt. cbn [fst snd b_ptr b_size b_opaque]. split; [lia|]. split; [unfold BUFFER in *; lia|]. split; [exact S0|]. split; [exact S1|]. split; [exact OP|]. split; [exact PM|]. split; [intros _; lia|contradiction]. }
  (* p is a multiple of 32 *)
  pose proof (Z.div_mod p 32 ltac:(lia)) as DP. rewrite PM in DP.
  destruct (Z.eqb_spec (huge + (h_off s + (size + 52)) - size) p) as [T|T]; cbn [h_off].
  - replace ((huge + h_off s) mod 32) with 12. 2:{ replace (huge + h_off s) with (12 + (p / 32 - 2) * 32) by lia. rewrite Z.mod_add by lia. reflexivity. } rewrite Z.eqb_refl. unfold u64. rewrite Z.mod_small by (unfold BUFFER in *; lia). lia.
  - destruct (Z.eqb_spec ((huge + h_off s) mod 32) 12) as [Q|Q]; [exfalso|lia]. pose proof (Z.div_mod (huge + h_off s) 32 ltac:(lia)) as DR. lia.
Qed.
Print Assumptions C78_freed_at_once.

(** The limits are the program's own business.  A request beyond the end of the static
    buffer is served from the memory after it; the size of a very large request wraps,
    so that malloc is asked for nothing; if malloc fails the header is stored at NULL. *)
Theorem C78_past_the_end_refuted : forall huge fake m got, 0 < huge -> exists s p, custom_malloc huge fake (HP m 0) fake BUFFER got = Some (s, p, None) /\ huge + BUFFER < p + BUFFER.
Proof.
  intros huge fake m got H0. destruct (malloc_ok huge fake (HP m 0) fake BUFFER got) as (m' & p & E & (_ & _ & _ & a & A & _ & P) & _).
  - vm_compute. discriminate. - vm_compute. reflexivity. - cbn [h_off]. split; [lia|vm_compute; discriminate]. - rewrite Z.eqb_refl. cbn [h_off]. lia.
  - rewrite Z.eqb_refl in *. cbn [fst snd b_ptr h_off] in *. eexists _, p. split; [exact E|]. lia.
Qed.
Theorem C78_wraps_refuted : forall huge fake s got, 0 < got -> fake <> 0 -> exists s' p, custom_malloc huge fake s 0 (2 ^ 64 - 52) got = Some (s', p, Some 0).
Proof.
  intros huge fake s got G NF. unfold custom_malloc. change (u64 (2 ^ 64 - 52 + 2 * 8 + 4 + 32)) with 0. destruct (Z.eqb_spec 0 fake); [congruence|]. destruct (Z.eqb_spec got 0); [lia|]. cbv zeta. rewrite !land31. replace (got + 4 + 8 + 8 + 1) with (got + 21) by lia.
  destruct (align_spec got ltac:(lia)) as (A & P). set (a := (32 - (got + 21) mod 32) mod 32) in *. replace (got + 8 + 8 + 4 + 1 + a) with (got + 21 + a) by lia. rewrite P. eexists _, _. reflexivity.
Qed.
Theorem C78_null_refuted : forall huge fake s opaque size, opaque <> fake -> custom_malloc huge fake s opaque size 0 = None.
Proof. intros huge fake s opaque size NE. unfold custom_malloc. destruct (Z.eqb_spec opaque fake); [contradiction|reflexivity]. Qed.

(** Case: a block of 127 bytes from the static buffer at address 4096, as main begins, one
    from malloc, written to, and the first one freed. *)
Example C78_case : exists s b c, history 4096 7 s [c] [(268435556, 152)] 1 /\ b_ptr c mod 32 = 0 /\ b_size c = 100 /\ h_mem s (b_ptr c + 99) = 126 /\ h_off s = 179 /\ b_ptr b = 4128.
Proof.
  assert (H0 : 0 < 4096) by lia. assert (H1 : 4096 + BUFFER <= 2 ^ 64) by (vm_compute; discriminate).
  pose proof (hi_new 4096 7 (fun _ => 0)) as HA. set (s0 := HP (fun _ => 0) 0) in HA.
  assert (R1 : request 4096 7 s0 127 7) by (unfold request, BUFFER; cbn [h_off s0]; lia).
  destruct (custom_malloc 4096 7 s0 7 127 0) as [[[s1 p1] a1]|] eqn:E1; [|vm_compute in E1; discriminate E1].
  assert (P1 : p1 = 4128 /\ a1 = None /\ h_off s1 = 179). { clear - E1. unfold custom_malloc in E1. assert (Some (h_off s1, p1, a1) = Some (179, 4128, @None Z)). { transitivity (option_map (fun x => (h_off (fst (fst x)), snd (fst x), snd x)) (Some (s1, p1, a1))); [reflexivity|]. rewrite <- E1. vm_compute. reflexivity. } repeat split; congruence. } destruct P1 as (-> & -> & O1).
  pose proof (hi_malloc 4096 7 s0 [] [] 0 7 127 0 s1 4128 None HA R1 E1 ltac:(discriminate)) as HB. cbn iota in HB. change (if 7 =? 7 then 0 + 1 else 0) with 1 in HB.
  assert (R2 : request 4096 7 s1 100 5) by (unfold request; lia).
  assert (FR2 : fresh 4096 268435556 [] 152) by (unfold fresh, apart, BUFFER; split; [lia|]; split; [lia|]; split; [lia|constructor]).
  destruct (proj1 (C78_calls _ _ _ _ _ _ H0 H1 HB) 5 100 268435556 R2 (fun _ => FR2)) as (s2 & p2 & a2 & E2 & AN & AS & _).
  assert (a2 = Some 152) as ->. { destruct a2 as [n|]; [rewrite (AS n eq_refl); reflexivity|]. destruct AN as (AN & _). discriminate (AN eq_refl). }
  pose proof (hi_malloc 4096 7 s1 _ _ 1 5 100 268435556 s2 p2 (Some 152) HB R2 E2 ltac:(intros n N; assert (n = 152) as -> by congruence; exact FR2)) as HC. cbn iota in HC. change (if 5 =? 7 then 1 + 1 else 1) with 1 in HC.
  set (c := BL p2 100 5) in *. set (b := BL 4128 127 7) in *.
  assert (IN : inside c (p2 + 99)) by (unfold inside; cbn [b_ptr b_size c]; lia).
  pose proof (hi_write 4096 7 s2 _ _ 1 c (p2 + 99) 126 HC (or_introl eq_refl) IN ltac:(lia)) as HD. set (s3 := HP (store (h_mem s2) (p2 + 99) [126]) (h_off s2)) in HD.
  destruct (proj1 (proj2 (C78_calls _ _ _ _ _ _ H0 H1 HD)) [c] b [] eq_refl) as (s4 & fr & E4 & (_ & FN) & M4 & raws' & GB & _). specialize (FN eq_refl). subst fr. inversion GB; subst raws'.
  pose proof (free_off 4096 7 s3 [c] b [] _ s4 None (history_inv 4096 7 H0 H1 _ _ _ _ HD) E4) as O4.
  assert (O2 : h_off s2 = 179). { rewrite <- O1. clear - E2. unfold custom_malloc in E2. change (5 =? 7) with false in E2. cbv zeta in E2. unfold assert in E2. destruct (268435556 =? 0); [discriminate E2|]. destruct (Z.land _ _ =? 0) in E2; [|discriminate E2]. match type of E2 with Some (?h, _, _) = _ => assert (s2 = h) as -> by congruence end. reflexivity. }
  exists s4, b, c. split; [apply (hi_free 4096 7 s3 [c] b [] _ 1 s4 None _ HD E4 GB)|]. destruct (C78_blocks _ _ _ _ _ _ H0 H1 HC) as (FB & _). apply Forall_inv in FB. split; [exact (proj1 (proj2 FB))|]. split; [reflexivity|]. split; [|split; [|reflexivity]].
  - rewrite M4. cbn [s3 h_mem c b_ptr]. unfold store. change (zlen [126]) with 1. replace ((p2 + 99 <=? p2 + 99) && (p2 + 99 <? p2 + 99 + 1)) with true by (symmetry; apply andb_true_intro; rewrite Z.leb_le, Z.ltb_lt; lia). rewrite Z.sub_diag. reflexivity.
  - rewrite O4. cbn [s3 h_off b b_opaque b_ptr b_size]. rewrite O2. reflexivity.
Qed.
