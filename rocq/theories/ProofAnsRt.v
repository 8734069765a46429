(** Round trip of the ANS coder model. *)
From Verif Require Import Prelude ModelAns SpecAns ProofAns.

(** ** Round trip *)
Lemma or_at_unle l : forall st sh, bytes l -> 0 <= sh -> 0 <= st < 2 ^ sh ->
  sh + 8 * Z.of_nat (length l) <= 64 -> or_at st sh l = st + 2 ^ sh * unle l.
Proof.
  induction l as [|b l IH]; intros st sh Hb Hs Hst Hl; cbn [or_at unle].
  - lia.
  - inversion Hb as [|? ? B1 B2]; subst. unfold byte in B1. cbn [length] in Hl.
    assert (P : 2 ^ (sh + 8) = 2 ^ sh * 256) by (rewrite Z.pow_add_r by lia; reflexivity).
    assert (P64 : 2 ^ (sh + 8) <= 2 ^ 64) by (apply Z.pow_le_mono_r; lia).
    assert (E : u64 (Z.shiftl b sh) = Z.shiftl b sh).
    { unfold u64. rewrite Z.shiftl_mul_pow2 by lia. apply Z.mod_small. nia. }
    rewrite E, lor_shift_add by lia.
    rewrite IH; auto; try lia; try nia.
Qed.

Lemma or_at_le8 x : 0 <= x < 2 ^ 64 -> or_at 0 0 (le 8 x) = x.
Proof.
  intros. rewrite or_at_unle; auto using le_bytes; try lia.
  - rewrite unle_le; [|exact H]. lia.
  - rewrite le_length. lia.
Qed.

Lemma some_pair_fst {A B} (x y : A) (n m : B) : Some (x, n) = Some (y, m) -> x = y.
Proof. congruence. Qed.

Lemma feed_16 sa sb c r rb a b : r = 8 -> 
  0 <= sa -> 0 <= sb -> (rb = 0 \/ rb = 1) ->
  0 <= a < 2 ^ 64 -> 0 <= b < 2 ^ 64 ->
  feed (norm (Dec sa sb c r rb)) (le 8 b ++ le 8 a) = Dec b a 0 0 rb.
Proof.
  intros -> Hsa Hsb Hrb Ha Hb.
  assert (V : dvalid (Dec sa sb c 8 rb)) by (unfold dvalid; cbn; lia).
  pose proof (push_feed _ (le 8 b ++ le 8 a) V) as P.
  assert (Hn : need (Dec sa sb c 8 rb) = 16%nat) by reflexivity.
  rewrite Hn in P. rewrite (firstn_all2 (n := 16)) in P by (rewrite app_length, !le_length; lia).
  assert (Q : push_data (Dec sa sb c 8 rb) (le 8 b ++ le 8 a) =
    Some (Dec (or_at 0 0 (le 8 b)) (or_at 0 0 (le 8 a)) 0 0 rb, 16%nat)) by reflexivity.
  rewrite Q in P. clear Q. rewrite !or_at_le8 in P by assumption.
  apply some_pair_fst in P. now symmetry.
Qed.

Lemma feed_4 sb c rb x : 0 <= sb -> (rb = 0 \/ rb = 1) -> 0 <= x < 2 ^ 64 ->
  feed (norm (Dec (x / 2 ^ 32) sb c 1 rb)) (le 4 x) = Dec x sb c 0 rb.
Proof.
  intros Hsb Hrb Hx.
  assert (V : dvalid (Dec (x / 2 ^ 32) sb c 1 rb)).
  { unfold dvalid; cbn [a_req state_a state_b b_req]. repeat split; try lia. }
  pose proof (push_feed _ (le 4 x) V) as P.
  assert (Hn : need (Dec (x / 2 ^ 32) sb c 1 rb) = 4%nat) by reflexivity.
  rewrite Hn in P. rewrite (firstn_all2 (n := 4)) in P by (rewrite le_length; lia).
  set (old := u64 (Z.shiftl (x / 2 ^ 32) 32)) in *.
  assert (O : or_at 0 0 (le 4 x) = x mod 2 ^ 32).
  { rewrite or_at_unle; auto using le_bytes; try lia.
    - rewrite unle_le_mod. change (256 ^ Z.of_nat 4) with (2 ^ 32). lia.
    - rewrite le_length. lia. }
  assert (E : old = x / 2 ^ 32 * 2 ^ 32).
  { unfold old, u64. rewrite Z.shiftl_mul_pow2 by lia. apply Z.mod_small. lia. }
  assert (Q : push_data (Dec (x / 2 ^ 32) sb c 1 rb) (le 4 x) =
    assert (old <=? Z.lor old (or_at 0 0 (le 4 x)))
     (Some (Dec (Z.lor old (or_at 0 0 (le 4 x))) sb c 0 rb, 4%nat))) by reflexivity.
  assert (L : Z.lor old (or_at 0 0 (le 4 x)) = x).
  { rewrite O. rewrite Z.lor_comm. unfold old, u64.
    replace (Z.shiftl (x / 2 ^ 32) 32 mod 2 ^ 64) with (Z.shiftl (x / 2 ^ 32) 32).
    - rewrite lor_shift_add by lia. lia.
    - symmetry. apply Z.mod_small. rewrite Z.shiftl_mul_pow2 by lia. lia. }
  rewrite Q, L in P. unfold assert in P. rewrite E in P.
  destruct (x / 2 ^ 32 * 2 ^ 32 <=? x) eqn:X; try lia.
  apply some_pair_fst in P. now symmetry.
Qed.


Definition encx (st s f : Z) : Z := st / f * 2 ^ 15 + st mod f + s.
Definition estep (st : Z * Z * list Z) (sf : Z * Z) : Z * Z * list Z :=
  let '(a, b, q) := st in
  let '(s, f) := sf in
  if 2 ^ 48 * f <=? a then (b, encx (a / 2 ^ 32) s f, le 4 a ++ q)
  else (b, encx a s f, q).
Fixpoint epure (sfs : list (Z * Z)) : Z * Z * list Z :=
  match sfs with
  | [] => (2 ^ 31, 2 ^ 31, [])
  | sf :: r => estep (epure r) sf
  end.
Definition chunk_bytes (sfs : list (Z * Z)) : list Z :=
  let '(a, b, q) := epure sfs in le 8 b ++ le 8 a ++ q.

Definition inrange (x : Z) : Prop := 2 ^ 31 <= x < 2 ^ 63.

Lemma encx_decode st s f : legal s f -> 2 ^ 16 * f <= st < 2 ^ 48 * f ->
  let x := encx st s f in
  inrange x /\ s <= x mod 2 ^ 15 < s + f /\ f * (x / 2 ^ 15) + x mod 2 ^ 15 - s = st.
Proof.
  intros (Hs & Hf & Hsf) Hst. cbn zeta. unfold encx, inrange.
  pose proof (Z.mod_pos_bound st f ltac:(lia)) as M.
  pose proof (Z.div_mod st f ltac:(lia)) as D.
  set (q := st / f) in *. set (r := st mod f) in *.
  assert (Hq : 2 ^ 16 <= q < 2 ^ 48) by nia.
  assert (Hm : (q * 2 ^ 15 + r + s) mod 2 ^ 15 = r + s) by lia.
  assert (Hd : (q * 2 ^ 15 + r + s) / 2 ^ 15 = q) by lia.
  rewrite Hm, Hd. repeat split; lia.
Qed.

Lemma renorm_range a f : inrange a -> 0 < f < 2 ^ 15 ->
  let st := if 2 ^ 48 * f <=? a then a / 2 ^ 32 else a in
  2 ^ 16 * f <= st < 2 ^ 48 * f /\ (2 ^ 48 * f <= a <-> st < 2 ^ 31).
Proof.
  unfold inrange. intros Ha Hf. cbn zeta.
  destruct (Z.leb_spec (2 ^ 48 * f) a).
  - split; lia.
  - split; lia.
Qed.

Lemma epure_range sfs : Forall (fun p => legal (fst p) (snd p)) sfs ->
  let '(a, b, q) := epure sfs in inrange a /\ inrange b /\ bytes q.
Proof.
  induction 1 as [|[s f] r Hl Hr IH]; cbn [epure].
  - unfold inrange. repeat split; try lia. constructor.
  - destruct (epure r) as [[a b] q]. destruct IH as (Ha & Hb & Hq).
    cbn [fst snd] in Hl. unfold estep.
    destruct (renorm_range a f Ha) as (R & _); [apply Hl|].
    destruct (2 ^ 48 * f <=? a); repeat split; auto; try apply Hb;
      try (apply encx_decode; auto).
    apply Forall_app; split; auto. apply le_bytes.
Qed.

(** credit argument for the buffer bound *)
Definition credit (x : Z) : Z := if 2 ^ 47 <=? x then 2 else 0.
Lemma epure_len sfs : Forall (fun p => legal (fst p) (snd p)) sfs ->
  let '(a, b, q) := epure sfs in
  Z.of_nat (length q) + credit a + credit b <= 2 * Z.of_nat (length sfs).
Proof.
  induction 1 as [|[s f] r Hl Hr IH]; cbn [epure].
  - cbn. unfold credit. change (2 ^ 47 <=? 2 ^ 31) with false. cbn iota. lia.
  - pose proof (epure_range r Hr) as R.
    destruct (epure r) as [[a b] q]. destruct R as (Ha & Hb & Hq).
    cbn [fst snd] in Hl. destruct Hl as (Hs & Hf & Hsf). unfold estep.
    cbn [length]. unfold inrange in *.
    destruct (Z.leb_spec (2 ^ 48 * f) a).
    + rewrite app_length, le_length. unfold credit in *.
      assert (X : encx (a / 2 ^ 32) s f < 2 ^ 47).
      { unfold encx. 
        assert (0 <= a / 2 ^ 32 < 2 ^ 31) by lia.
        pose proof (Z.mod_pos_bound (a / 2 ^ 32) f ltac:(lia)).
        assert (a / 2 ^ 32 / f <= a / 2 ^ 32) by (apply Z.div_le_upper_bound; nia).
        lia. }
      destruct (Z.leb_spec (2 ^ 47) a); try lia.
      destruct (Z.leb_spec (2 ^ 47) (encx (a / 2 ^ 32) s f)); lia.
    + unfold credit in *. destruct (Z.leb_spec (2 ^ 47) (encx a s f)); 
        destruct (Z.leb_spec (2 ^ 47) a); lia.
Qed.

(** *** The encoder computes [chunk_bytes]. *)

Lemma reverse_put_sym_ok qs a b s f :
  bs_wf qs -> 4 <= nbytes qs -> inrange a -> legal s f ->
  let '(a', b', o) := estep (a, b, content qs) (s, f) in
  reverse_put_sym qs a b s f =
   Some (BS o (MAX_BUFFER_SIZE - Z.of_nat (length o)), a', b').
Proof.
  intros (W1 & W2) H4 Ha Hl. pose proof Hl as (Hs & Hf & Hsf).
  destruct (renorm_range a f Ha Hf) as (R & _).
  unfold estep, reverse_put_sym, assert.
  destruct (0 <=? s) eqn:?; try lia. destruct (0 <? f) eqn:?; try lia.
  change (Z.shiftl (Z.shiftr NORMALIZATION_INTERVAL LOG2_SCALE) 32) with (2 ^ 48).
  destruct (2 ^ 48 * f <? 2 ^ 64) eqn:?; try lia.
  assert (X : forall st, 2 ^ 16 * f <= st < 2 ^ 48 * f ->
    u64 (Z.shiftl (st / f) LOG2_SCALE) + st mod f + s = encx st s f /\ encx st s f < 2 ^ 64).
  { intros st Hst. pose proof (encx_decode st s f Hl Hst) as (E & _). cbn zeta in E.
    unfold inrange in E. split; [|lia].
    unfold encx in *. unfold u64. rewrite Z.shiftl_mul_pow2 by (unfold LOG2_SCALE; lia).
    unfold LOG2_SCALE in *. 
    rewrite Z.mod_small; [reflexivity|].
    pose proof (Z.mod_pos_bound st f ltac:(lia)).
    assert (0 <= st / f) by (apply Z.div_pos; lia). lia. }
  rewrite low4_le. unfold inrange in Ha.
  destruct (Z.leb_spec (2 ^ 48 * f) a).
  - rewrite stack_data_ok by (rewrite le_length; lia).
    cbn [bind]. rewrite shiftr_div by lia.
    destruct (a / 2 ^ 32 <? 2 ^ 48 * f) eqn:?; try lia.
    cbn [bind]. destruct (X (a / 2 ^ 32) R) as (X1 & X2). rewrite X1.
    destruct (encx (a / 2 ^ 32) s f <? 2 ^ 64) eqn:?; try lia.
    rewrite app_length, !le_length. do 4 f_equal. lia.
  - cbn [bind]. destruct (X a R) as (X1 & X2). rewrite X1.
    destruct (encx a s f <? 2 ^ 64) eqn:?; try lia.
    do 3 f_equal. destruct qs as [cc nn]; cbn [content nbytes] in *. f_equal. lia.
Qed.

Lemma i16_small x : 0 <= x < 2 ^ 15 -> i16 x = x.
Proof. unfold i16. intros. rewrite Z.mod_small; lia. Qed.

Lemma le2_read x : 0 <= x < 2 ^ 15 ->
  i16 (Z.lor (x mod 256) (i16 (Z.shiftl (x / 256 mod 256) 8))) = x.
Proof.
  intros H. rewrite (i16_small (Z.shiftl _ 8)).
  - rewrite lor_shift_add by lia. rewrite i16_small; lia.
  - rewrite Z.shiftl_mul_pow2 by lia. lia.
Qed.

(** the stacked start/freq list has the most recent symbol first; processing
    it front to back is [epure] of the symbols in coding order *)
Fixpoint eloop (l : list (Z * Z)) (st : Z * Z * list Z) : Z * Z * list Z :=
  match l with [] => st | sf :: l => eloop l (estep st sf) end.
Lemma eloop_app l1 l2 st : eloop (l1 ++ l2) st = eloop l2 (eloop l1 st).
Proof. revert st; induction l1; cbn; auto. Qed.
Lemma eloop_rev l : eloop (rev l) (2 ^ 31, 2 ^ 31, []) = epure l.
Proof.
  induction l as [|sf l IH]; auto. cbn [rev epure]. rewrite eloop_app, IH. reflexivity.
Qed.

Lemma flush_loop_ok l : forall r,
  Forall (fun p => legal (fst p) (snd p)) l -> Forall (fun p => legal (fst p) (snd p)) r ->
  Z.of_nat (length l + length r) <= 65536 ->
  let '(a, b, q) := epure r in
  let '(a', b', q') := eloop l (a, b, q) in
  flush_loop (sf_bytes l) (BS q (MAX_BUFFER_SIZE - Z.of_nat (length q))) a b =
  Some (BS q' (MAX_BUFFER_SIZE - Z.of_nat (length q')), a', b').
Proof.
  induction l as [|[s f] l IH]; intros r Hl Hr Hlen.
  - destruct (epure r) as [[a b] q]. reflexivity.
  - inversion Hl as [|? ? Hsf Hl']; subst. cbn [fst snd] in Hsf.
    specialize (IH ((s, f) :: r) Hl' ltac:(constructor; auto)).
    cbn [length] in *. specialize (IH ltac:(lia)).
    pose proof (epure_range r Hr) as R. pose proof (epure_len r Hr) as L.
    cbn [epure] in IH. destruct (epure r) as [[a b] q]. destruct R as (Ha & Hb & Hq).
    assert (Hc : 0 <= credit a /\ 0 <= credit b).
    { unfold credit. destruct (2 ^ 47 <=? a), (2 ^ 47 <=? b); lia. }
    pose proof (reverse_put_sym_ok (BS q (MAX_BUFFER_SIZE - Z.of_nat (length q))) a b s f) as P.
    cbn [content nbytes] in P.
    assert (W : bs_wf (BS q (MAX_BUFFER_SIZE - Z.of_nat (length q)))).
    { split; cbn [content nbytes]; unfold MAX_BUFFER_SIZE; lia. }
    specialize (P W ltac:(unfold MAX_BUFFER_SIZE; lia) Ha Hsf).
    cbn [eloop].
    destruct (estep (a, b, q) (s, f)) as [[a1 b1] q1].
    unfold sf_bytes. cbn [map concat fst snd]. fold (sf_bytes l).
    destruct Hsf as (S1 & S2 & S3).
    cbn [le app]. cbn [flush_loop]. rewrite !le2_read by lia.
    rewrite P. cbn [bind]. exact IH.
Qed.

Lemma sf_bytes_len l : length (sf_bytes l) = (4 * length l)%nat.
Proof.
  unfold sf_bytes. induction l; cbn [map concat length]; auto.
  rewrite app_length, IHl. rewrite app_length, !le_length. lia.
Qed.

Definition empty_q : bstack := BS [] MAX_BUFFER_SIZE.
(** encoder holding [l] pending symbols (oldest first) *)
Definition enc_with (l : list (Z * Z)) : encoder :=
  Enc empty_q (BS (sf_bytes (rev l)) (MAX_BUFFER_SIZE - 4 * Z.of_nat (length l))).
Definition enc_flushed (l : list (Z * Z)) : encoder :=
  Enc (BS (chunk_bytes l) (MAX_BUFFER_SIZE - Z.of_nat (length (chunk_bytes l)))) empty_q.

Lemma flush_chunk_ok l : l <> [] -> Forall (fun p => legal (fst p) (snd p)) l ->
  Z.of_nat (length l) <= 65536 ->
  flush_chunk (enc_with l) = Some (enc_flushed l).
Proof.
  intros Hne Hl Hlen.
  pose proof (flush_loop_ok (rev l) []) as F. cbn [epure] in F.
  pose proof (eloop_rev l) as E. pose proof (epure_len l Hl) as L.
  rewrite E in F. unfold chunk_bytes, enc_flushed, flush_chunk, enc_with, assert.
  unfold chunk_bytes.
  destruct (epure l) as [[a b] q0].
  assert (Hpos : 0 < Z.of_nat (length l)) by (destruct l; cbn [length]; try congruence; lia).
  cbn [start_freq q]. unfold bs_len; cbn [nbytes content].
  replace (MAX_BUFFER_SIZE - (MAX_BUFFER_SIZE - 4 * Z.of_nat (length l)))
    with (4 * Z.of_nat (length l)) by lia.
  destruct (4 * Z.of_nat (length l) =? 0) eqn:?; try lia.
  change 3 with (2 ^ 2 - 1) at 1. rewrite land_mask by lia.
  replace (4 * Z.of_nat (length l) mod 2 ^ 2) with 0 by lia. change (0 =? 0) with true. cbn iota.
  rewrite shiftr_div by lia. change (2 ^ 2) with 4.
  replace (4 * Z.of_nat (length l) / 4) with (Z.of_nat (length l)) by lia.
  unfold NUM_SYMBOLS_BEFORE_FLUSH.
  destruct (Z.of_nat (length l) <=? 65536) eqn:?; try lia.
  cbn [length] in F. rewrite Z.sub_0_r in F.
  change ENC_START_STATE with (2 ^ 31). unfold empty_q at 1.
  rewrite F.
  - cbn [bind]. rewrite !state_bytes_le.
    assert (Hc : 0 <= credit a /\ 0 <= credit b).
    { unfold credit. destruct (2 ^ 47 <=? a), (2 ^ 47 <=? b); lia. }
    rewrite stack_data_ok.
    + cbn [bind content nbytes]. rewrite <- app_assoc, !app_length, !le_length.
      unfold bs_reset, empty_q. do 3 f_equal. lia.
    + cbn [nbytes]. rewrite app_length, !le_length. unfold MAX_BUFFER_SIZE. lia.
  - apply Forall_rev. exact Hl.
  - constructor.
  - rewrite rev_length. lia.
Qed.

Lemma stack_u16_ok qs x : 2 <= nbytes qs -> 0 <= x < 2 ^ 16 ->
  stack_u16 qs x = Some (BS (le 2 x ++ content qs) (nbytes qs - 2)).
Proof.
  intros H Hx. unfold stack_u16, stack_byte, assert.
  destruct (Z.ltb_spec 0 (nbytes qs)); try lia. cbn [bind nbytes content].
  destruct (Z.ltb_spec 0 (nbytes qs - 1)); try lia. cbn [le app].
  rewrite !land255, shiftr_div by lia. change (2 ^ 8) with 256.
  do 2 f_equal. lia.
Qed.

Lemma put_start_freq_ok l s f : Forall (fun p => legal (fst p) (snd p)) l -> legal s f ->
  Z.of_nat (length l) < 65536 ->
  put_start_freq (enc_with l) s f =
  Some (if Z.of_nat (length l) =? 65535 then enc_flushed (l ++ [(s, f)])
        else enc_with (l ++ [(s, f)])).
Proof.
  intros Hl (Hs & Hf & Hsf) Hlen.
  unfold put_start_freq, assert.
  destruct (Z.eqb_spec f 0); try lia. cbn [negb].
  change (bs_is_empty (q (enc_with l))) with true. cbn iota.
  assert (U : forall x, 0 <= x < 2 ^ 16 -> u16 x = x) by (intros; unfold u16; apply Z.mod_small; lia).
  rewrite !U by lia.
  rewrite stack_u16_ok; [|cbn [enc_with start_freq nbytes]; unfold MAX_BUFFER_SIZE; lia|lia].
  cbn [bind]. rewrite stack_u16_ok; [|cbn [enc_with start_freq nbytes]; unfold MAX_BUFFER_SIZE; lia|lia].
  cbn [bind content nbytes enc_with start_freq q].
  assert (E : Enc empty_q (BS (le 2 s ++ le 2 f ++ sf_bytes (rev l))
                (MAX_BUFFER_SIZE - 4 * Z.of_nat (length l) - 2 - 2)) = enc_with (l ++ [(s, f)])).
  { unfold enc_with. rewrite rev_app_distr. cbn [rev app].
    unfold sf_bytes at 2. cbn [map concat fst snd]. fold (sf_bytes (rev l)).
    rewrite <- app_assoc, app_length. cbn [length]. do 2 f_equal. lia. }
  rewrite E. unfold bs_len; cbn [nbytes].
  replace (MAX_BUFFER_SIZE - (MAX_BUFFER_SIZE - 4 * Z.of_nat (length l) - 2 - 2))
    with (4 * (Z.of_nat (length l) + 1)) by lia.
  change (Z.shiftl NUM_SYMBOLS_BEFORE_FLUSH 2) with (4 * 65536).
  destruct (Z.eqb_spec (Z.of_nat (length l)) 65535) as [El|El].
  - replace (4 * (Z.of_nat (length l) + 1) =? 4 * 65536) with true by lia.
    apply flush_chunk_ok.
    + destruct l; discriminate.
    + apply Forall_app; split; auto. constructor; auto. cbn [fst snd]. unfold legal. auto.
    + rewrite app_length. cbn [length]. lia.
  - replace (4 * (Z.of_nat (length l) + 1) =? 4 * 65536) with false by lia. reflexivity.
Qed.

Lemma drain_with l : drain (enc_with l) = ([], enc_with l).
Proof.
  unfold drain, enc_with, pop_data; cbn [q content nbytes empty_q start_freq].
  unfold bs_len, empty_q; cbn [nbytes]. 
  replace (MAX_BUFFER_SIZE - MAX_BUFFER_SIZE) with 0 by lia. reflexivity.
Qed.

Lemma drain_flushed l : drain (enc_flushed l) = (chunk_bytes l, enc_with []).
Proof.
  unfold drain, enc_flushed, pop_data; cbn [q content nbytes empty_q start_freq].
  unfold bs_len; cbn [nbytes].
  replace (Z.to_nat (MAX_BUFFER_SIZE - (MAX_BUFFER_SIZE - Z.of_nat (length (chunk_bytes l)))))
    with (length (chunk_bytes l)) by lia.
  rewrite Nat.min_id, firstn_all, skipn_all.
  unfold enc_with, empty_q. cbn [rev sf_bytes map concat length].
  do 3 f_equal; lia.
Qed.

(** Symbols grouped in chunks of 65536: [pend] is the pending prefix. *)
Fixpoint chunks_from (pend : list (Z * Z)) (sfs : list (Z * Z)) : list (list (Z * Z)) :=
  match sfs with
  | [] => match pend with [] => [] | _ => [pend] end
  | sf :: sfs =>
      if Z.of_nat (length pend) =? 65535 then (pend ++ [sf]) :: chunks_from [] sfs
      else chunks_from (pend ++ [sf]) sfs
  end.

Lemma put_all_ok sfs : forall pend,
  Forall (fun p => legal (fst p) (snd p)) pend -> Forall (fun p => legal (fst p) (snd p)) sfs ->
  Z.of_nat (length pend) < 65536 ->
  exists o1 e, ans_put_all (enc_with pend) sfs = Some (o1, e) /\
   exists e' o2, enc_flush e = Some e' /\ fst (drain e') = o2 /\
     o1 ++ o2 = concat (map chunk_bytes (chunks_from pend sfs)).
Proof.
  induction sfs as [|[s f] sfs IH]; intros pend Hp Hs Hlen.
  - exists [], (enc_with pend). split; auto.
    destruct pend as [|p pend].
    + exists (enc_with []), []. repeat split; auto.
    + exists (enc_flushed (p :: pend)), (chunk_bytes (p :: pend)).
      split; [apply flush_chunk_ok; auto; try discriminate; lia|].
      rewrite drain_flushed. split; auto. cbn [chunks_from map concat].
      now rewrite app_nil_r.
  - inversion Hs as [|? ? H1 H2]; subst. cbn [fst snd] in H1.
    cbn [ans_put_all chunks_from]. rewrite put_start_freq_ok by auto. cbn [bind].
    assert (Hp' : Forall (fun p => legal (fst p) (snd p)) (pend ++ [(s, f)]))
      by (apply Forall_app; split; auto).
    destruct (Z.eqb_spec (Z.of_nat (length pend)) 65535) as [El|El].
    + rewrite drain_flushed.
      destruct (IH [] ltac:(constructor) H2 ltac:(cbn; lia)) as (o1 & e & E1 & e' & o2 & E2 & E3 & E4).
      rewrite E1. cbn [bind].
      exists (chunk_bytes (pend ++ [(s, f)]) ++ o1), e. split; auto.
      exists e', o2. repeat split; auto. cbn [map concat]. rewrite <- app_assoc, E4. reflexivity.
    + rewrite drain_with.
      destruct (IH (pend ++ [(s, f)]) Hp' H2) as (o1 & e & E1 & e' & o2 & E2 & E3 & E4).
      { rewrite app_length. cbn [length]. lia. }
      rewrite E1. cbn [bind app].
      exists o1, e. split; auto. exists e', o2. auto.
Qed.

Lemma ans_encode_ok sfs : Forall (fun p => legal (fst p) (snd p)) sfs ->
  ans_encode sfs = Some (concat (map chunk_bytes (chunks_from [] sfs))).
Proof.
  intros H. destruct (put_all_ok sfs [] ltac:(constructor) H ltac:(cbn; lia))
    as (o1 & e & E1 & e' & o2 & E2 & E3 & E4).
  unfold ans_encode. change enc_new with (enc_with []). rewrite E1. cbn [bind].
  rewrite E2. cbn [bind]. destruct (drain e') as [o2' e'']. cbn [fst] in E3. subst.
  now rewrite E4.
Qed.
