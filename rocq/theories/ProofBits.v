(** Proofs for C42 and C43. *)
From Verif Require Import Prelude ModelAns ModelCdf SpecAns SpecCdf ProofCdf ProofAnsRt ProofAnsDec ModelBits SpecBits.

(** ** the register queue *)
Lemma rq_or_unle l : forall data, bytes l -> bytes data -> (length l + length data <= 8)%nat ->
  rq_or (unle l) (8 * Z.of_nat (length l)) data = unle (l ++ data).
Proof.
  intros data; revert l; induction data as [|b data IH]; intros l L D N.
  - cbn [rq_or]. now rewrite app_nil_r.
  - cbn [rq_or]. inversion D as [|? ? Hb Hd]; subst. cbn [length] in N.
    replace (l ++ b :: data) with ((l ++ [b]) ++ data) by (now rewrite <- app_assoc).
    rewrite <- IH; [|apply Forall_app; split; [exact L|constructor; [exact Hb|constructor]]|exact Hd|rewrite app_length; cbn; lia].
    rewrite app_length; cbn [length]. f_equal; [|lia].
    rewrite unle_app. cbn [unle]. rewrite Z.mul_0_r, Z.add_0_r.
    pose proof (unle_bound l L) as B.
    assert (P : 256 ^ Z.of_nat (length l) = 2 ^ (8 * Z.of_nat (length l))) by (rewrite Z.pow_mul_r by lia; reflexivity).
    rewrite P in *.
    assert (Q : 2 ^ (8 * Z.of_nat (length l)) * 256 <= 2 ^ 64).
    { change 256 with (2 ^ 8). rewrite <- Z.pow_add_r by lia. apply Z.pow_le_mono_r; lia. }
    unfold byte in Hb. rewrite Z.mod_small; [|rewrite Z.shiftl_mul_pow2 by lia; nia].
    rewrite lor_shift_add by lia. ring.
Qed.
Lemma shiftr_unle n : forall l, bytes l -> Z.shiftr (unle l) (8 * Z.of_nat n) = unle (skipn n l).
Proof.
  induction n as [|n IH]; intros l L.
  - change (8 * Z.of_nat 0) with 0. now rewrite Z.shiftr_0_r.
  - destruct l as [|b l]; cbn [skipn unle]; [now rewrite Z.shiftr_0_l|].
    inversion L as [|? ? Hb Hl]; subst. unfold byte in Hb.
    replace (8 * Z.of_nat (S n)) with (8 + 8 * Z.of_nat n) by lia.
    rewrite <- Z.shiftr_shiftr by lia. rewrite (Z.shiftr_div_pow2 _ 8) by lia. change (2 ^ 8) with 256.
    replace ((b + 256 * unle l) / 256) with (unle l) by lia. apply IH, Hl.
Qed.
Lemma firstn_le n : forall m l, bytes l -> (n <= length l)%nat -> (n <= m)%nat -> firstn n (le m (unle l)) = firstn n l.
Proof.
  induction n as [|n IH]; intros m l L N M; [reflexivity|].
  destruct l as [|b l]; cbn [length] in N; [lia|]. destruct m as [|m]; [lia|].
  inversion L as [|? ? Hb Hl]; subst. unfold byte in Hb. cbn [le unle firstn].
  replace ((b + 256 * unle l) mod 256) with b by lia.
  replace ((b + 256 * unle l) / 256) with (unle l) by lia. f_equal. apply IH; [exact Hl|lia|lia].
Qed.
Lemma rq_local_le q : rq_local q = le 8 (rq_data q).
Proof.
  unfold rq_local. cbn [map le].
  assert (H : forall x i, 0 <= i -> Z.land (Z.shiftr x (8 * i)) 255 = (x / 256 ^ i) mod 256).
  { intros x i I. change 255 with (2 ^ 8 - 1). rewrite land_mask by lia. rewrite Z.shiftr_div_pow2 by lia.
    rewrite Z.pow_mul_r by lia. reflexivity. }
  rewrite !H by lia.
  repeat rewrite Z.div_div by lia. change (256 ^ 0) with 1. rewrite Z.div_1_r. reflexivity.
Qed.

Definition holds (q : regq) (l : list Z) : Prop :=
  bytes l /\ (length l <= 8)%nat /\ rq_data q = unle l /\ rq_count q = Z.of_nat (length l).

Lemma rq1_fifo debug q l o : holds q l -> op_ok o ->
  match o with QPop cap => length (firstn (Z.to_nat cap) l) <> 8%nat | QPush _ => True end ->
  exists q', rq1 debug q o = Some (fst (fifo1 l o), q') /\ holds q' (snd (fifo1 l o)).
Proof.
  intros (L & N & HD & C) O F. destruct o as [data|cap]; cbn [rq1 fifo1 fst snd].
  - cbn [op_ok] in O. unfold rq_push. cbv zeta. unfold rq_space. rewrite C, HD.
    set (n := (8 - length l)%nat).
    assert (E : Z.to_nat (Z.min (8 - Z.of_nat (length l)) (Z.of_nat (length data))) = length (firstn n data)) by (rewrite firstn_length; unfold n; lia).
    assert (E2 : Z.min (8 - Z.of_nat (length l)) (Z.of_nat (length data)) = Z.of_nat (length (firstn n data))) by lia.
    assert (E3 : firstn (length (firstn n data)) data = firstn n data).
    { rewrite firstn_length. destruct (Nat.min_spec n (length data)) as [(H1 & ->)|(H1 & ->)]; [reflexivity|]. rewrite firstn_all. now rewrite firstn_all2. }
    rewrite E, E2, E3. eexists; split; [reflexivity|].
    assert (Bf : bytes (firstn n data)) by (apply Forall_forall; intros x Hx; rewrite <- (firstn_skipn n data) in O; apply Forall_app in O; destruct O as (O1 & _); now apply (proj1 (Forall_forall _ _) O1)).
    assert (Nf : (length l + length (firstn n data) <= 8)%nat) by (rewrite firstn_length; unfold n; lia).
    unfold holds. cbn [rq_data rq_count]. rewrite app_length. split; [apply Forall_app; now split|]. split; [lia|]. split; [apply rq_or_unle; assumption|lia].
  - cbn [op_ok] in O. unfold rq_pop. cbv zeta. unfold rq_avail. rewrite C.
    rewrite firstn_length in F.
    set (n := Z.min (Z.of_nat (length l)) cap) in *.
    assert (Hn : n < 8) by (unfold n; lia).
    replace (64 <=? 8 * n) with false by lia. rewrite andb_false_r. cbn [bind].
    assert (E : Z.to_nat n = Nat.min (Z.to_nat cap) (length l)) by (unfold n; lia).
    assert (E1 : firstn (Z.to_nat n) (rq_local q) = firstn (Z.to_nat cap) l).
    { rewrite rq_local_le, HD. rewrite firstn_le by (try assumption; lia). rewrite E.
      destruct (Nat.min_spec (Z.to_nat cap) (length l)) as [(H1 & ->)|(H1 & ->)]; [reflexivity|]. rewrite firstn_all. now rewrite firstn_all2. }
    rewrite E1. eexists; split; [reflexivity|].
    assert (E2 : skipn (Z.to_nat n) l = skipn (Z.to_nat cap) l).
    { rewrite E. destruct (Nat.min_spec (Z.to_nat cap) (length l)) as [(H1 & ->)|(H1 & ->)]; [reflexivity|]. rewrite skipn_all. now rewrite skipn_all2. }
    unfold holds. cbn [rq_data rq_count]. rewrite <- E2.
    split. { apply Forall_forall; intros x Hx. rewrite <- (firstn_skipn (Z.to_nat n) l) in L. apply Forall_app in L. destruct L as (_ & L2). now apply (proj1 (Forall_forall _ _) L2). }
    rewrite skipn_length. split; [lia|]. split; [|lia].
    rewrite Z.mod_small by lia. rewrite HD. replace n with (Z.of_nat (Z.to_nat n)) at 1 by lia. now apply shiftr_unle.
Qed.
Lemma rq_run_fifo debug ops : forall q l, holds q l -> Forall op_ok ops -> no_full_pop l ops ->
  rq_run debug q ops = Some (fifo l ops).
Proof.
  induction ops as [|o ops IH]; intros q l H O F; [reflexivity|].
  cbn [no_full_pop] in F. destruct F as (F & F'). inversion O as [|? ? O1 O2]; subst.
  destruct (rq1_fifo debug q l o H O1 F) as (q' & E & H').
  cbn [rq_run fifo]. rewrite E. cbn [bind]. rewrite (IH q' _ H' O2 F'). cbn [bind].
  destruct (fifo1 l o) as (r, l'). reflexivity.
Qed.
Lemma register_queue_fifo debug ops : Forall op_ok ops -> no_full_pop [] ops ->
  rq_run debug rq_new ops = Some (fifo [] ops).
Proof. intros. apply rq_run_fifo; [|assumption|assumption]. split; [constructor|]. split; [cbn; lia|]. split; reflexivity. Qed.

(** ** nibbles and bytes from bits *)
Lemma put_bits_log {E} (put : E -> bool -> Z -> E) bits : forall probs e, length bits = length probs ->
  put_bits put e bits probs = put_log put e (combine bits probs).
Proof.
  induction bits as [|b bits IH]; intros [|p probs] e L; try discriminate; [reflexivity|].
  cbn [put_bits combine]. unfold put_log. cbn [fold_left fst snd]. apply IH. now inversion L.
Qed.
Lemma get_bits_log {D} (get : D -> Z -> bool * D) bits : forall probs d d', length bits = length probs ->
  answers get d (combine bits probs) d' -> get_bits get d probs = (bits, d').
Proof.
  induction bits as [|b bits IH]; intros [|p probs] d d' L A; try discriminate.
  - cbn in A. now subst.
  - cbn [combine answers] in A. destruct A as (d1 & G & A). cbn [get_bits]. rewrite G.
    rewrite (IH probs d1 d'); [reflexivity|now inversion L|exact A].
Qed.

Lemma cumul_mono c : codable c -> forall s t, -1 <= s -> s < t -> t < 16 -> cumul c s < cumul c t.
Proof.
  intros (L & T & Sh) s t Hs Hst Ht.
  assert (Step : forall k, 0 <= k < 16 -> cumul c (k - 1) < cumul c k).
  { intros k Hk. specialize (Sh k Hk). unfold share in Sh. lia. }
  assert (G : forall n k, k = s + 1 + Z.of_nat n -> k < 16 -> cumul c s < cumul c k).
  { induction n as [|n IH]; intros k -> H.
    - specialize (Step (s + 1 + 0) ltac:(lia)). replace (s + 1 + 0 - 1) with s in Step by lia. exact Step.
    - specialize (IH (s + 1 + Z.of_nat n) eq_refl ltac:(lia)).
      specialize (Step (s + 1 + Z.of_nat (S n)) ltac:(lia)). replace (s + 1 + Z.of_nat (S n) - 1) with (s + 1 + Z.of_nat n) in Step by lia. lia. }
  apply (G (Z.to_nat (t - s - 1))); lia.
Qed.
Lemma div_checked_prob a b m : m < b -> a < b -> m <= a -> exists q, div_checked (Z.shiftl (a - m) 8) (b - m) = Some q /\ 0 <= q < 256.
Proof.
  intros. unfold div_checked. replace (b - m =? 0) with false by lia. eexists; split; [reflexivity|].
  rewrite Z.shiftl_mul_pow2 by lia. rewrite Z.quot_div_nonneg by lia.
  split; [apply Z.div_pos; lia|]. apply Z.div_lt_upper_bound; lia.
Qed.
Lemma nibble_cases (P : Z -> Prop) : P 0 -> P 1 -> P 2 -> P 3 -> P 4 -> P 5 -> P 6 -> P 7 -> P 8 -> P 9 -> P 10 -> P 11 -> P 12 -> P 13 -> P 14 -> P 15 ->
  forall n, nibble n -> P n.
Proof.
  intros. assert (n = 0 \/ n = 1 \/ n = 2 \/ n = 3 \/ n = 4 \/ n = 5 \/ n = 6 \/ n = 7 \/ n = 8 \/ n = 9 \/ n = 10 \/ n = 11 \/ n = 12 \/ n = 13 \/ n = 14 \/ n = 15) by (unfold nibble in *; lia).
  intuition (subst; assumption).
Qed.
Lemma div_checked_prob2 x y : 0 <= x -> x < y -> exists q, div_checked (Z.shiftl x 8) y = Some q /\ 0 <= q < 256.
Proof. intros. destruct (div_checked_prob x y 0) as (q & E & Q); try lia. rewrite !Z.sub_0_r in E. now exists q. Qed.

Ltac evz t := let v := eval vm_compute in t in change t with v.
Ltac sweep :=
   repeat match goal with |- context [Z.testbit ?a ?b] => evz (Z.testbit a b) end;
   repeat (progress (cbn [negb b2z bind];
   repeat match goal with |- context [Z.shiftl (Zpos ?a) (Zpos ?b)] => evz (Z.shiftl (Zpos a) (Zpos b)) | |- context [Z.shiftl 0 ?b] => evz (Z.shiftl 0 b) end;
   repeat match goal with |- context [Z.lor (Zpos ?a) (Zpos ?b)] => evz (Z.lor (Zpos a) (Zpos b)) | |- context [Z.lor 0 ?b] => evz (Z.lor 0 b) | |- context [Z.lor ?b 0] => evz (Z.lor b 0) end;
   repeat match goal with |- context [Z.land (Zpos ?a) (Zpos ?b)] => evz (Z.land (Zpos a) (Zpos b)) | |- context [Z.land 0 ?b] => evz (Z.land 0 b) end;
   repeat match goal with |- context [Zpos ?a =? 0] => evz (Zpos a =? 0) | |- context [0 =? 0] => evz (0 =? 0) end;
   repeat match goal with |- context [Zpos ?a + Zpos ?b] => evz (Zpos a + Zpos b) | |- context [0 + Zpos ?b] => evz (0 + Zpos b) end)).
Ltac three :=
  match goal with
  | |- context [bind (div_checked (Z.shiftl ?x 8) ?y) _] =>
    lazymatch x with context [nth] =>
    let q1 := fresh "q" in let E1 := fresh "E" in let Q1 := fresh "Q" in
    destruct (div_checked_prob2 x y) as (q1 & E1 & Q1); [lia|lia|rewrite E1; cbn [bind]] end
  end.
Ltac fin := match goal with E : div_checked ?a ?b = Some _ |- context [div_checked ?a ?b] => rewrite E; cbn [bind] end.
Lemma nibble_bits E (put : E -> bool -> Z -> E) (c : list Z) (nib : Z) : codable c -> nibble nib ->
  exists p1 p2 p3 p4, Forall byte [p1; p2; p3; p4] /\
    let log := [(Z.testbit nib 3, p1); (Z.testbit nib 2, p2); (Z.testbit nib 1, p3); (Z.testbit nib 0, p4)] in
    (forall e, put_nibble put e nib c = Some (ref_interval c nib, put_log put e log)) /\
    forall D (get : D -> Z -> bool * D) d d', answers get d log d' ->
      get_nibble get d c = Some (nib, ref_interval c nib, d').
Proof.
  intros HC. pose proof (cumul_mono c HC) as M.
  assert (M1 : forall s t, 0 <= s -> s < t -> t < 16 -> nth (Z.to_nat s) c 0 < nth (Z.to_nat t) c 0).
  { intros s t ? ? ?. specialize (M s t ltac:(lia) ltac:(lia) ltac:(lia)). unfold cumul in M. now replace (s <? 0) with false in M by lia; replace (t <? 0) with false in M by lia. }
  assert (M0 : 0 < nth (Z.to_nat 0) c 0) by (specialize (M (-1) 0 ltac:(lia) ltac:(lia) ltac:(lia)); exact M).
  pose proof (M1 0 1 ltac:(lia) ltac:(lia) ltac:(lia)). pose proof (M1 1 2 ltac:(lia) ltac:(lia) ltac:(lia)).
  pose proof (M1 2 3 ltac:(lia) ltac:(lia) ltac:(lia)). pose proof (M1 3 4 ltac:(lia) ltac:(lia) ltac:(lia)).
  pose proof (M1 4 5 ltac:(lia) ltac:(lia) ltac:(lia)). pose proof (M1 5 6 ltac:(lia) ltac:(lia) ltac:(lia)).
  pose proof (M1 6 7 ltac:(lia) ltac:(lia) ltac:(lia)). pose proof (M1 7 8 ltac:(lia) ltac:(lia) ltac:(lia)).
  pose proof (M1 8 9 ltac:(lia) ltac:(lia) ltac:(lia)). pose proof (M1 9 10 ltac:(lia) ltac:(lia) ltac:(lia)).
  pose proof (M1 10 11 ltac:(lia) ltac:(lia) ltac:(lia)). pose proof (M1 11 12 ltac:(lia) ltac:(lia) ltac:(lia)).
  pose proof (M1 12 13 ltac:(lia) ltac:(lia) ltac:(lia)). pose proof (M1 13 14 ltac:(lia) ltac:(lia) ltac:(lia)).
  pose proof (M1 14 15 ltac:(lia) ltac:(lia) ltac:(lia)).
  assert (Mx : cdf_max c = nth (Z.to_nat 15) c 0) by reflexivity.
  clear M M1. unfold put_nibble, get_nibble. rewrite Mx. clear Mx. revert nib.
  apply nibble_cases; unfold cdf_at, u8; cbv zeta; sweep;
  lazymatch goal with
  | |- exists p1 p2 p3 p4, _ /\ (forall e, bind (div_checked ?a1 ?b1) _ = _) /\ _ =>
    let q1 := fresh "q" in let E1 := fresh "E" in let Q1 := fresh "Q" in
    destruct (div_checked_prob2 (nth (Z.to_nat 7) c 0) b1) as (q1 & E1 & Q1); [lia|lia|rewrite E1; cbn [bind]]
  end;
  three; three; three; do 4 eexists;
  (split; [repeat (apply Forall_cons; [unfold byte; apply Z.mod_pos_bound; lia|]); apply Forall_nil|]);
  (split; [intros e; reflexivity|]);
  intros D get d d' (d1 & G1 & d2 & G2 & d3 & G3 & d4 & G4 & <-);
  rewrite G1; sweep; fin; rewrite G2; sweep; fin; rewrite G3; sweep; fin; rewrite G4; sweep; reflexivity.
Qed.

Lemma put_log_app {E} (put : E -> bool -> Z -> E) e l1 l2 : put_log put e (l1 ++ l2) = put_log put (put_log put e l1) l2.
Proof. unfold put_log. apply fold_left_app. Qed.
Lemma answers_app {D} (get : D -> Z -> bool * D) l1 : forall l2 d d', answers get d (l1 ++ l2) d' -> exists d1, answers get d l1 d1 /\ answers get d1 l2 d'.
Proof.
  induction l1 as [|(b, p) l1 IH]; intros l2 d d' A.
  - exists d. split; [reflexivity|exact A].
  - cbn [app answers] in A. destruct A as (d1 & G & A). destruct (IH _ _ _ A) as (d2 & A1 & A2).
    exists d2. split; [exists d1; now split|exact A2].
Qed.
Lemma nibbles_log {E} (put : E -> bool -> Z -> E) items : Forall (fun nc => nibble (fst nc) /\ codable (snd nc)) items ->
  exists log, Forall (fun bp => byte (snd bp)) log /\ (forall e, put_nibbles put e items = Some (put_log put e log)) /\
    forall D (get : D -> Z -> bool * D) d d', answers get d log d' ->
      get_nibbles get d (map snd items) = Some (map fst items, d').
Proof.
  induction 1 as [|(n, c) items (N & C) _ IH].
  - exists []. split; [constructor|]. split; [reflexivity|]. intros D get d d' ->. reflexivity.
  - destruct IH as (log & B & P & G). cbn [fst snd] in N, C.
    destruct (nibble_bits E put c n C N) as (p1 & p2 & p3 & p4 & Bp & P1 & G1). cbv zeta in P1, G1.
    set (l1 := [(Z.testbit n 3, p1); (Z.testbit n 2, p2); (Z.testbit n 1, p3); (Z.testbit n 0, p4)]) in *.
    exists (l1 ++ log). split.
    { apply Forall_app. split; [|exact B]. unfold l1. inversion Bp as [|? ? X1 Y1]; inversion Y1 as [|? ? X2 Y2]; inversion Y2 as [|? ? X3 Y3]; inversion Y3; subst.
      repeat (apply Forall_cons; [assumption|]). apply Forall_nil. }
    split.
    { intros e. cbn [put_nibbles]. rewrite P1. cbn [bind]. rewrite P. now rewrite put_log_app. }
    intros D get d d' A. apply answers_app in A. destruct A as (d1 & A1 & A2).
    cbn [map get_nibbles fst snd]. rewrite (G1 _ _ _ _ A1). cbn [bind]. rewrite (G _ _ _ _ A2). reflexivity.
Qed.
Lemma nibble_coding E D (put : E -> bool -> Z -> E) (get : D -> Z -> bool * D) e0 start :
  bit_coder_round_trips put get e0 start ->
  forall items, Forall (fun nc => nibble (fst nc) /\ codable (snd nc)) items ->
  exists e d', put_nibbles put e0 items = Some e /\
    get_nibbles get (start e) (map snd items) = Some (map fst items, d').
Proof.
  intros RT items H. destruct (nibbles_log put items H) as (log & B & P & G).
  destruct (RT log B) as (d' & A). exists (put_log put e0 log), d'. split; [apply P|]. now apply G.
Qed.
Lemma byte_coding E D (put : E -> bool -> Z -> E) (get : D -> Z -> bool * D) e0 start :
  bit_coder_round_trips put get e0 start ->
  forall bits probs, length bits = 8%nat -> length probs = 8%nat -> bytes probs ->
  exists d', get_bits get (start (put_bits put e0 bits probs)) probs = (bits, d').
Proof.
  intros RT bits probs L1 L2 B. rewrite put_bits_log by congruence.
  destruct (RT (combine bits probs)) as (d' & A).
  { apply Forall_forall. intros (b, p) H. apply in_combine_r in H. now apply (proj1 (Forall_forall _ _) B). }
  exists d'. apply get_bits_log; [congruence|exact A].
Qed.
Lemma ans_bit_codes b p : byte p -> codes (ans_get_bit p) b (ans_put_bit b p).
Proof.
  intros P. unfold byte in P. unfold codes, legal, ans_put_bit, ans_get_bit. cbv zeta. cbn [fst snd].
  set (q := if p =? 0 then 1 else p). assert (Q : 1 <= q < 256) by (unfold q; destruct (Z.eqb_spec p 0); lia).
  rewrite !Z.shiftl_mul_pow2 by lia. change (2 ^ 7) with 128. change (2 ^ 15) with 32768.
  destruct b; (split; [lia|]); intros off H; destruct (Z.leb_spec (q * 128) off); try lia; reflexivity.
Qed.
Lemma ans_bits log : Forall (fun bp => byte (snd bp)) log ->
  exists out, ans_encode (map (fun bp => ans_put_bit (fst bp) (snd bp)) log) = Some out /\
    forall pieces tail, concat pieces = out ++ tail ->
    exists d rest, ans_decode dec_new (map (fun bp => ans_get_bit (snd bp)) log) pieces = DOk (map fst log) d rest /\ concat rest = tail.
Proof.
  intros H. destruct (ans_roundtrip (map (fun bp => (ans_get_bit (snd bp), fst bp, ans_put_bit (fst bp) (snd bp))) log)) as (out & E & R).
  { apply Forall_forall. intros x Hx. apply in_map_iff in Hx. destruct Hx as ((b, p) & <- & Hx). cbn [fst snd].
    apply ans_bit_codes. exact (proj1 (Forall_forall _ _) H _ Hx). }
  rewrite map_map in E. exists out. split; [exact E|]. intros pieces tail HP. specialize (R pieces tail HP). rewrite !map_map in R. exact R.
Qed.
