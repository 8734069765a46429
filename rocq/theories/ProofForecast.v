From Verif Require Import Prelude ModelCdf ModelMux ModelCmd ModelCodec ModelIr ModelForecast SpecForecast.
From Coq Require Import Sorted.

(** ** The distances *)
Lemma obs_lru : forall b d, distance_lru (obs_distance b d) = lru_obs (distance_lru b) d.
Proof. intros b d. unfold obs_distance, lru_obs. cbv zeta. repeat match goal with |- context [if ?c then _ else _] => destruct c end; reflexivity. Qed.
Lemma lru_obs4 : forall l d, length l = 4%nat -> NoDup l -> length (lru_obs l d) = 4%nat /\ NoDup (lru_obs l d).
Proof.
  intros l d L N. destruct l as [|a [|b [|c [|e [|]]]]]; try discriminate L. clear L.
  unfold lru_obs. change (znth [a; b; c; e] 0) with a. change (znth [a; b; c; e] 1) with b.
  change (znth [a; b; c; e] 2) with c. change (znth [a; b; c; e] 3) with e.
  repeat rewrite NoDup_cons_iff in N. cbn [In] in N.
  destruct (d =? b) eqn:E1; [|destruct (d =? c) eqn:E2; [|destruct (d =? a) eqn:E3]]; cbn [negb];
    split; try reflexivity; repeat rewrite NoDup_cons_iff; cbn [In]; intuition lia.
Qed.
Lemma after_recent4 : forall l b, recent4 b -> recent4 (after_copies b l).
Proof.
  unfold recent4, after_copies. induction l as [|x l IH]; intros b H; [exact H|]. cbn [fold_left]. apply IH.
  destruct x as [? ? ?|[]]; try exact H. rewrite obs_lru. apply lru_obs4; apply H.
Qed.

(** ** The search for a code *)
Lemma find_le : forall (f : Z -> bool) l k, In k l -> f k = true -> StronglySorted Z.le l ->
  exists i, find f l = Some i /\ i <= k.
Proof.
  intros f. induction l as [|x l IH]; intros k I K S; [destruct I|]. apply StronglySorted_inv in S. destruct S as (S1 & S2).
  rewrite Forall_forall in S2. cbn [find]. destruct (f x) eqn:F.
  - exists x. split; [reflexivity|]. destruct I as [->|I]; [lia|]. exact (S2 _ I).
  - destruct I as [->|I]; [congruence|]. apply IH; assumption.
Qed.
Lemma code_le : forall lru d k, 0 <= k < 15 -> distance_from_code lru k = (d, true) -> distance_mnemonic_code lru d <= k.
Proof.
  intros lru d k K E. unfold distance_mnemonic_code.
  set (f := fun i : Z => let '(item, ok) := distance_from_code lru i in (item =? d) && ok).
  destruct (find_le f [0; 1; 2; 3; 4; 5; 6; 7; 8; 9; 10; 11; 12; 13; 14] k) as (i & F & I).
  - cbn [In]. clear -K. lia.
  - unfold f. rewrite E. rewrite Z.eqb_refl. reflexivity.
  - repeat constructor; lia.
  - rewrite F. exact I.
Qed.
Lemma code_range : forall lru d, 0 <= distance_mnemonic_code lru d <= 15.
Proof.
  intros lru d. unfold distance_mnemonic_code.
  destruct (find _ _) as [i|] eqn:F; [|lia]. apply find_some in F. destruct F as (I & _). cbn [In] in I. lia.
Qed.
Lemma cache_index_lt : forall code, 0 <= code < 15 -> (cache_index code < 4)%nat.
Proof.
  intros code H. assert (I : In code [0; 1; 2; 3; 4; 5; 6; 7; 8; 9; 10; 11; 12; 13; 14]) by (cbn [In]; lia).
  cbn [In] in I. repeat (destruct I as [<-|I]; [vm_compute; lia|]). destruct I.
Qed.

(** ** Rows *)
Lemma len_upd : forall A (l : list A) i x, (i < length l)%nat -> length (upd l i x) = length l.
Proof. intros A l i x H. unfold upd. rewrite app_length. cbn [length]. rewrite firstn_length, skipn_length. lia. Qed.
Lemma nth_upd : forall A (l : list A) i j x d, (i < length l)%nat -> nth j (upd l i x) d = if (j =? i)%nat then x else nth j l d.
Proof.
  induction l as [|a l IH]; intros i j x d H; [cbn in H; lia|]. destruct i as [|i]; cbn [length] in H.
  - destruct j as [|j]; reflexivity.
  - change (upd (a :: l) (S i) x) with (a :: upd l i x). destruct j as [|j]; [reflexivity|]. cbn [nth Nat.eqb]. apply IH. lia.
Qed.
Lemma all_firstn : forall A (P : A -> Prop) l i, Forall P l -> Forall P (firstn i l).
Proof. intros A P l i H. rewrite <- (firstn_skipn i l) in H. apply Forall_app in H. apply H. Qed.
Lemma all_skipn : forall A (P : A -> Prop) l i, Forall P l -> Forall P (skipn i l).
Proof. intros A P l i H. rewrite <- (firstn_skipn i l) in H. apply Forall_app in H. apply H. Qed.
Lemma byte_pieces : forall o, 0 <= o < 2 ^ 32 ->
  Z.lor (Z.lor (Z.lor (u8_ o) (Z.shiftl (u8_ (Z.shiftr o 8)) 8)) (Z.shiftl (u8_ (Z.shiftr o 16)) 16)) (Z.shiftl (u8_ (Z.shiftr o 24)) 24) = o.
Proof.
  intros o H. unfold u8_. change 256 with (2 ^ 8). apply Z.bits_inj'. intros n N.
  rewrite !Z.lor_spec, !Z.shiftl_spec by exact N.
  destruct (Z_lt_dec n 8) as [A|A].
  { rewrite (Z.mod_pow2_bits_low o 8 n) by lia. rewrite !(Z.testbit_neg_r _ (n - _)) by lia. rewrite !orb_false_r. reflexivity. }
  rewrite (Z.mod_pow2_bits_high o 8 n) by lia. rewrite orb_false_l.
  destruct (Z_lt_dec n 16) as [B|B].
  { rewrite (Z.mod_pow2_bits_low _ 8 (n - 8)) by lia. rewrite Z.shiftr_spec by lia. replace (n - 8 + 8) with n by lia.
    rewrite !(Z.testbit_neg_r _ (n - 16)), !(Z.testbit_neg_r _ (n - 24)) by lia. rewrite !orb_false_r. reflexivity. }
  rewrite (Z.mod_pow2_bits_high _ 8 (n - 8)) by lia. rewrite orb_false_l.
  destruct (Z_lt_dec n 24) as [C|C].
  { rewrite (Z.mod_pow2_bits_low _ 8 (n - 16)) by lia. rewrite Z.shiftr_spec by lia. replace (n - 16 + 16) with n by lia.
    rewrite !(Z.testbit_neg_r _ (n - 24)) by lia. rewrite !orb_false_r. reflexivity. }
  rewrite (Z.mod_pow2_bits_high _ 8 (n - 16)) by lia. rewrite orb_false_l.
  destruct (Z_lt_dec n 32) as [D|D].
  { rewrite (Z.mod_pow2_bits_low _ 8 (n - 24)) by lia. rewrite Z.shiftr_spec by lia. replace (n - 24 + 24) with n by lia. reflexivity. }
  rewrite (Z.mod_pow2_bits_high _ 8 (n - 24)) by lia.
  symmetry. destruct (Z.eq_dec o 0) as [->|Z]; [apply Z.bits_0|].
  apply Z.bits_above_log2; [lia|]. apply Z.log2_lt_pow2; [lia|].
  apply (Z.lt_le_trans _ (2 ^ 32)); [lia|]. apply Z.pow_le_mono_r; lia.
Qed.
Lemma row_set : forall row code off, Z.of_nat off + 1 < 2 ^ 32 ->
  let r := set_code_and_offset row code off in
  entry_id r = code /\ log_offset r = Z.of_nat off.
Proof.
  intros row code off H. cbv zeta. unfold set_code_and_offset. cbv zeta. set (t := skipn 5 row). cbn [app].
  split; [reflexivity|]. unfold log_offset. unfold znth. cbn [nth Z.to_nat Pos.to_nat Pos.iter_op Init.Nat.add].
  change (Z.to_nat 1) with 1%nat. change (Z.to_nat 2) with 2%nat. change (Z.to_nat 3) with 3%nat. change (Z.to_nat 4) with 4%nat. cbn [nth].
  rewrite byte_pieces by lia. rewrite Z.mod_small by lia. lia.
Qed.
Lemma row_zero : log_miss (repeat 0 8) = true.
Proof. reflexivity. Qed.

(** ** Populating *)
(** what is known of a row that holds a reference, when the commands before [i] have been
    looked at *)
Definition row_ok (b : bk) (l : list icmd) (i k : nat) (row : list Z) : Prop :=
  exists j d n, log_offset row = Z.of_nat j /\ (j < i)%nat /\ nth_error l j = Some (IOther (Copy d n)) /\
    entry_id row = code_at b l j d /\ entry_id row < 15 /\ ((k < j)%nat \/ (k = 0 /\ j = 0)%nat).
Definition finv (b : bk) (l : list icmd) (i : nat) (c : fcache) : Prop :=
  map ce_dist (fc_cache c) = distance_lru (after_copies b (firstn i l)) /\
  length (fc_cache c) = 4%nat /\ length (fc_hits c) = length l /\
  Forall (fun e => (ce_origin e < i)%nat \/ ce_origin e = 0%nat) (fc_cache c) /\
  (forall k, (k < length l)%nat -> log_miss (nth k (fc_hits c) []) = false -> row_ok b l i k (nth k (fc_hits c) [])).
Lemma firstn_S : forall A (l : list A) i x, nth_error l i = Some x -> firstn (S i) l = firstn i l ++ [x].
Proof.
  induction l as [|a l IH]; intros i x H; [destruct i; discriminate H|]. destruct i as [|i].
  - cbn in H. assert (a = x) by congruence. subst. reflexivity.
  - cbn [firstn app]. f_equal. apply IH. exact H.
Qed.
Lemma after_app : forall b l m, after_copies b (l ++ m) = after_copies (after_copies b l) m.
Proof. intros. unfold after_copies. apply fold_left_app. Qed.
Lemma row_ok_more : forall b l i k row, row_ok b l i k row -> row_ok b l (S i) k row.
Proof. intros b l i k row (j & d & n & A & B & C). exists j, d, n. split; [exact A|]. split; [lia|exact C]. Qed.

Lemma populate_inv : forall b l i c d n, recent4 b -> nth_error l i = Some (IOther (Copy d n)) -> Z.of_nat (length l) < 2 ^ 32 ->
  finv b l i c -> finv b l (S i) (populate c d i).
Proof.
  intros b l i c d n R N LN (Hd & Hl & Hh & Ho & Hr).
  assert (IL : (i < length l)%nat) by (apply nth_error_Some; congruence).
  assert (R' := after_recent4 (firstn i l) b R). destruct R' as (_ & ND). rewrite <- Hd in ND.
  unfold populate. cbv zeta. set (cur := map ce_dist (fc_cache c)) in *.
  set (code := distance_mnemonic_code cur d).
  assert (CD : code = code_at b l i d) by (unfold code, code_at; rewrite <- Hd; reflexivity).
  set (c1 := if code =? 15 then c else forward_reference c code (cache_index code) i).
  assert (C1 : map ce_dist (fc_cache c1) = cur /\ length (fc_cache c1) = 4%nat /\ length (fc_hits c1) = length l /\
    Forall (fun e => (ce_origin e < S i)%nat \/ ce_origin e = 0%nat) (fc_cache c1) /\
    (forall k, (k < length l)%nat -> log_miss (nth k (fc_hits c1) []) = false -> row_ok b l (S i) k (nth k (fc_hits c1) []))).
  { unfold c1. destruct (code =? 15) eqn:E15.
    - split; [reflexivity|]. split; [exact Hl|]. split; [exact Hh|]. split.
      + eapply Forall_impl; [|exact Ho]. cbv beta. intros a Ha. lia.
      + intros k K M. apply row_ok_more. exact (Hr k K M).
    - assert (CR := code_range cur d). fold code in CR. assert (C15 : 0 <= code < 15) by lia.
      assert (CI := cache_index_lt code C15). unfold forward_reference. cbv zeta.
      set (ci := cache_index code) in *. set (e := nth ci (fc_cache c) (CE 0 0)). cbn [fc_cache fc_hits].
      assert (Oe : (ce_origin e < i)%nat \/ ce_origin e = 0%nat).
      { rewrite Forall_forall in Ho. apply Ho. apply nth_In. lia. }
      set (r := row_index _ (ce_origin e)).
      assert (RR : r = ce_origin e). { unfold r, row_index. cbn [fc_hits]. rewrite Hh. destruct (ce_origin e <? length l)%nat eqn:X; [reflexivity|]. apply Nat.ltb_ge in X. lia. }
      assert (RL : (r < length (fc_hits c))%nat) by (rewrite Hh, RR; lia).
      split; [|split; [|split; [|split]]].
      + unfold cur. unfold upd. rewrite map_app. cbn [map ce_dist].
        rewrite <- (firstn_skipn ci (map ce_dist (fc_cache c))). rewrite firstn_map, skipn_map. f_equal.
        assert (Q : skipn ci (fc_cache c) = e :: skipn (S ci) (fc_cache c)).
        { unfold e. clear -CI Hl. revert ci CI. assert (G : forall (m : list centry) k, (k < length m)%nat -> skipn k m = nth k m (CE 0 0) :: skipn (S k) m).
          { induction m as [|x m IH]; intros k K; [cbn in K; lia|]. destruct k; [reflexivity|]. cbn [skipn nth]. rewrite IH by (cbn in K; lia). reflexivity. }
          intros ci CI. apply G. lia. }
        rewrite Q. cbn [map]. reflexivity.
      + rewrite len_upd by lia. exact Hl.
      + rewrite len_upd by exact RL. exact Hh.
      + unfold upd. apply Forall_app. split; [|constructor; [cbn [ce_origin]; lia|]].
        * apply all_firstn. eapply Forall_impl; [|exact Ho]. cbv beta. intros a Ha. lia.
        * apply all_skipn. eapply Forall_impl; [|exact Ho]. cbv beta. intros a Ha. lia.
      + intros k K. rewrite nth_upd by exact RL. destruct (k =? r)%nat eqn:KR.
        * intros _. apply Nat.eqb_eq in KR. destruct (row_set (nth r (fc_hits c) []) code i ltac:(lia)) as (A & B).
          exists i, d, n. split; [exact B|]. split; [lia|]. split; [exact N|]. split; [rewrite A; exact CD|]. split; [rewrite A; lia|].
          rewrite KR, RR. lia.
        * intros M. apply row_ok_more. exact (Hr k K M). }
  destruct C1 as (D1 & L1 & H1 & O1 & R1).
  split; [|split; [|split; [|split]]].
  - rewrite (firstn_S _ l i _ N), after_app. unfold after_copies at 1. cbn [fold_left]. rewrite obs_lru.
    rewrite <- Hd. cbn [fc_cache].
    destruct (fc_cache c1) as [|x0 [|x1 [|x2 [|x3 [|]]]]]; try discriminate L1. cbn [map] in D1. rewrite <- D1 in ND |- *.
    cbn [nth]. unfold lru_obs. cbv zeta.
    set (y0 := ce_dist x0) in *. set (y1 := ce_dist x1) in *. set (y2 := ce_dist x2) in *. set (y3 := ce_dist x3) in *.
    change (znth [y0; y1; y2; y3] 0) with y0. change (znth [y0; y1; y2; y3] 1) with y1.
    change (znth [y0; y1; y2; y3] 2) with y2. change (znth [y0; y1; y2; y3] 3) with y3.
    repeat rewrite NoDup_cons_iff in ND. cbn [In] in ND.
    destruct (d =? y0) eqn:E0.
    + apply Z.eqb_eq in E0. destruct (d =? y1) eqn:E1; [apply Z.eqb_eq in E1; exfalso; clear -ND E0 E1; intuition lia|].
      destruct (d =? y2) eqn:E2; [apply Z.eqb_eq in E2; exfalso; clear -ND E0 E2; intuition lia|]. cbn [negb map ce_dist].
      rewrite E0. reflexivity.
    + cbn [negb]. destruct (d =? y1); [reflexivity|]. destruct (d =? y2); reflexivity.
  - cbn [fc_cache]. repeat match goal with |- context [if ?q then _ else _] => destruct q end; reflexivity.
  - exact H1.
  - cbn [fc_cache]. destruct (fc_cache c1) as [|x0 [|x1 [|x2 [|x3 [|]]]]]; try discriminate L1. cbn [nth].
    repeat rewrite Forall_cons_iff in O1. destruct O1 as (P0 & P1 & P2 & P3 & _).
    repeat match goal with |- context [if ?q then _ else _] => destruct q end; repeat (apply Forall_cons; [first [assumption|cbn [ce_origin]; left; lia]|]); apply Forall_nil.
  - exact R1.
Qed.
Lemma populate_all_inv : forall b l, recent4 b -> Z.of_nat (length l) < 2 ^ 32 -> forall m i c,
  l = firstn i l ++ m -> finv b l i c -> (i + length m = length l)%nat -> finv b l (length l) (populate_all c m i).
Proof.
  intros b l R LN. induction m as [|x m IH]; intros i c E H G.
  - cbn [length] in G. cbn [populate_all]. replace (length l) with i by lia. exact H.
  - cbn [length] in G.
    assert (N : nth_error l i = Some x).
    { rewrite E. rewrite nth_error_app2 by (rewrite firstn_length; lia). rewrite firstn_length. replace (i - Nat.min i (length l))%nat with 0%nat by lia. reflexivity. }
    assert (E' : l = firstn (S i) l ++ m). { rewrite (firstn_S _ l i x N). rewrite <- app_assoc. exact E. }
    assert (Y : (forall d n, x <> IOther (Copy d n)) -> finv b l (S i) c).
    { intros Nc. destruct H as (Hd & Hl & Hh & Ho & Hr). split; [|split; [exact Hl|split; [exact Hh|split]]].
      - rewrite (firstn_S _ l i x N), after_app. unfold after_copies at 1. cbn [fold_left]. rewrite Hd.
        destruct x as [? ? ?|[]]; try reflexivity. exfalso. eapply Nc. reflexivity.
      - eapply Forall_impl; [|exact Ho]. cbv beta. intros a Ha. lia.
      - intros k K M. apply row_ok_more. exact (Hr k K M). }
    cbn [populate_all]. destruct x as [? ? ?|[]]; try (apply IH; [exact E'|apply Y; discriminate|lia]).
    apply IH; [exact E'| |lia]. eapply populate_inv; eauto.
Qed.
Lemma finv_new : forall b l, recent4 b -> finv b l 0 (fcache_new (distance_lru b) (length l)).
Proof.
  intros b l (L4 & ND). unfold fcache_new. split; [|split; [|split; [|split]]]; cbn [fc_cache fc_hits].
  - rewrite map_map. cbn [ce_dist]. rewrite map_id. rewrite <- L4. rewrite firstn_all. reflexivity.
  - rewrite map_length, firstn_length. lia.
  - apply repeat_length.
  - apply Forall_forall. intros e I. apply in_map_iff in I. destruct I as (d & <- & _). right. reflexivity.
  - intros k K M. exfalso. rewrite (nth_indep _ [] (repeat 0 8)) in M by (rewrite repeat_length; exact K). rewrite nth_repeat in M. discriminate M.
Qed.

(** ** The forecast *)
Lemma set_nth0 : forall l v, length l = 4%nat -> znth (upd l 0 v) 0 = v /\ znth (upd l 1 v) 1 = v.
Proof. intros l v L. destruct l as [|a [|b [|c [|e [|]]]]]; try discriminate L. split; reflexivity. Qed.
Lemma i32_back : forall d k, 0 < d < 2 ^ 31 -> -3 <= k <= 3 -> i32 (i32 ((d - k) mod 2 ^ 32) + k) = d.
Proof.
  intros d k D K. unfold i32.
  assert (M : (d - k) mod 2 ^ 32 = if d - k <? 0 then d - k + 2 ^ 32 else d - k).
  { destruct (d - k <? 0) eqn:E; [symmetry; apply (Z.mod_unique _ _ (-1)); lia|apply Z.mod_small; lia]. }
  rewrite M. destruct (d - k <? 0) eqn:E; Z.div_mod_to_equations; lia.
Qed.
Lemma from_code_add : forall lru code d k, 4 <= code < 15 ->
  Z.shiftr code 2 - Z.shiftl (Z.land (- (Z.land code 1)) (Z.shiftr code 2)) 1 = k -> -3 <= k <= 3 -> 0 < d < 2 ^ 31 ->
  znth lru (Z.shiftr (Z.land code 2) 1) = (d - k) mod 2 ^ 32 ->
  distance_from_code lru code = (d, true).
Proof.
  intros lru code d k C K KR D Z. unfold distance_from_code. replace (code <? 4) with false by lia. cbv zeta. rewrite K, Z.
  rewrite i32_back by assumption. rewrite Z.mod_small by lia. replace (0 <? d) with true by lia. reflexivity.
Qed.
Lemma forecast_serves : forall lru id d, length lru = 4%nat -> 0 <= id < 15 -> 0 < d < 2 ^ 31 ->
  exists lru', forecast wrapping lru id d = Some lru' /\ distance_mnemonic_code lru' d <= id.
Proof.
  intros lru id d L I D.
  assert (J : In id [0; 1; 2; 3; 4; 5; 6; 7; 8; 9; 10; 11; 12; 13; 14]) by (cbn [In]; lia). clear I. cbn [In] in J.
  assert (T : forall i v, set_lru lru i (Some v) = Some (upd lru i v)) by reflexivity.
  destruct J as [<-|[<-|[<-|[<-|J]]]].
  1-4: eexists; (split; [reflexivity|]); apply code_le; [lia|];
       destruct lru as [|x0 [|x1 [|x2 [|x3 [|]]]]]; try discriminate L; reflexivity.
  repeat match goal with J : _ \/ _ |- _ => destruct J as [<-|J] end; [..|destruct J];
    (eexists; (split; [unfold forecast; cbn [Z.ltb Z.compare Pos.compare Pos.compare_cont a_add a_sub wrapping]; first [rewrite T; reflexivity|reflexivity]|]);
     apply code_le; [lia|]; eapply from_code_add; [lia|vm_compute; reflexivity|lia|lia|]).
  all: match goal with
       | L : length ?m = 4%nat |- znth (upd ?m 0 ?v) _ = _ => etransitivity; [exact (proj1 (set_nth0 m v L))|]; f_equal; lia
       | L : length ?m = 4%nat |- znth (upd ?m 1 ?v) _ = _ => etransitivity; [exact (proj2 (set_nth0 m v L))|]; f_equal; lia
       end.
Qed.
Lemma forecast_total : forall A lru id d,
  (forall k, 1 <= k <= 3 -> a_add A d k <> None) -> (forall k, 1 <= k <= 3 -> a_sub A d k <> None) -> forecast A lru id d <> None.
Proof.
  intros A lru id d Ha Hs. unfold forecast. destruct (id <? 4); [discriminate|].
  assert (T : forall i v, v <> None -> set_lru lru i v <> None) by (intros i v V; destruct v; [discriminate|congruence]).
  repeat match goal with |- match ?x with _ => _ end <> None => destruct x end; try discriminate; apply T; first [apply Ha|apply Hs]; lia.
Qed.

(** ** The loop *)
Definition fits_arith (A : arith) (x : icmd) : Prop :=
  match x with
  | IOther (Copy d _) => (forall k, 1 <= k <= 3 -> a_add A d k <> None) /\ (forall k, 1 <= k <= 3 -> a_sub A d k <> None)
  | _ => True
  end.
Lemma skip_upd : forall A (l : list A) i j x, (i < j)%nat -> (i < length l)%nat -> skipn j (upd l i x) = skipn j l.
Proof.
  induction l as [|a l IH]; intros i j x H L; [cbn in L; lia|]. destruct j as [|j]; [lia|]. destruct i as [|i]; [reflexivity|].
  change (upd (a :: l) (S i) x) with (a :: upd l i x). cbn [skipn]. apply IH; cbn in L; lia.
Qed.
Lemma nth_skip : forall A (l : list A) i x, nth_error l i = Some x -> skipn i l = x :: skipn (S i) l.
Proof. induction l as [|a l IH]; intros i x H; [destruct i; discriminate H|]. destruct i; [cbn in H; assert (a = x) by congruence; subst; reflexivity|]. cbn [skipn]. apply IH. exact H. Qed.
Lemma step_tail : forall b merge trial l el index l' el', (el < index)%nat ->
  ir_step b merge trial l el index = IrOk (l', el') -> skipn (S index) l' = skipn (S index) l /\ (el' < S index)%nat.
Proof.
  intros b merge trial l el index l' el' H E. unfold ir_step in E. cbv zeta in E.
  assert (IL : forall x, nth_error l index = Some x -> (index < length l)%nat) by (intros x X; apply nth_error_Some; congruence).
  assert (U : forall x y, (index < length l)%nat -> skipn (S index) (upd (upd l el x) index y) = skipn (S index) l).
  { intros x y L. rewrite skip_upd by (try rewrite len_upd; lia). apply skip_upd; lia. }
  destruct (nth_error l el) as [[? ? ?|?]|]; [| |discriminate E].
  - destruct (nth_error l index) as [[? ? ?|[]]|] eqn:NI; try discriminate E; try specialize (IL _ eq_refl);
      repeat match type of E with
      | (if ?c then _ else _) = _ => destruct c
      | match merge ?i with _ => _ end = _ => destruct (merge i)
      end; try discriminate E;
      match type of E with IrOk (?a, ?e) = IrOk _ => assert (a = l') by congruence; assert (e = el') by congruence; subst end;
      (split; [first [reflexivity|apply U; exact IL]|lia]).
  - destruct (nth_error l index) as [[? ? ?|?]|] eqn:NI; try discriminate E;
      destruct (trial index); try discriminate E;
      match type of E with IrOk (?a, ?e) = IrOk _ => assert (a = l') by congruence; assert (e = el') by congruence; subst end;
      (split; [reflexivity|lia]).
Qed.
Lemma f_step_same : forall A c b merge trial l lru el index, Forall (fits_arith A) (skipn index l) ->
  exists lru', f_step A c b merge trial l lru el index =
    match ir_step b merge trial l el index with IrOk (l', el') => IrOk (l', lru', el') | IrErr => IrErr | IrPanic => IrPanic end.
Proof.
  intros A c b merge trial l lru el index F. unfold f_step. cbv zeta.
  set (go := match ir_step b merge trial l el index with IrOk (l', el') => _ | IrErr => _ | IrPanic => _ end).
  assert (G : exists lru', go = match ir_step b merge trial l el index with IrOk (l', el') => IrOk (l', lru', el') | IrErr => IrErr | IrPanic => IrPanic end).
  { unfold go. destruct (ir_step b merge trial l el index) as [[l' el']| |]; [eexists; reflexivity|exists lru; reflexivity|exists lru; reflexivity]. }
  destruct (nth_error l el) as [[off len ?|?]|]; try exact G.
  destruct (nth_error l index) as [[? ? ?|[d n| | | | | |]]|] eqn:NI; try exact G.
  destruct ((off <? b) && (b <? off + len + n)); [exact G|].
  rewrite (nth_skip _ l index _ NI) in F. apply Forall_inv in F. destruct F as (Fa & Fs).
  assert (P : prepare A c lru index d <> None).
  { unfold prepare. cbv zeta. destruct (log_miss _); [discriminate|]. destruct (_ =? 15); [|discriminate]. apply forecast_total; assumption. }
  destruct (prepare A c lru index d); [exact G|congruence].
Qed.
Lemma f_loop_same : forall A c b merge trial n l lru el index, (el < index)%nat -> Forall (fits_arith A) (skipn index l) ->
  f_loop A c b merge trial n l lru el index = ir_loop b merge trial n l el index.
Proof.
  intros A c b merge trial. induction n as [|n IH]; intros l lru el index H F; [reflexivity|]. cbn [f_loop ir_loop].
  destruct (f_step_same A c b merge trial l lru el index F) as (lru' & ->).
  destruct (ir_step b merge trial l el index) as [[l' el']| |] eqn:E; [|reflexivity|reflexivity].
  destruct (step_tail _ _ _ _ _ _ _ _ H E) as (T & H').
  apply IH; [exact H'|]. rewrite T. rewrite <- (firstn_skipn 1 (skipn index l)) in F. apply Forall_app in F. destruct F as (_ & F).
  assert (K : skipn (S index) l = skipn 1 (skipn index l)); [|rewrite K; exact F].
  clear. revert index. induction l as [|a l IH]; intros index; [destruct index; reflexivity|]. destruct index as [|index]; [reflexivity|]. change (skipn (S index) l = skipn 1 (skipn index l)). apply IH.
Qed.
Lemma f_optimize_same : forall A b merge trial lru l, Forall (fits_arith A) l ->
  f_optimize A b merge trial lru l = ir_optimize b merge trial l.
Proof.
  intros A b merge trial lru l F. unfold f_optimize, ir_optimize. destruct l as [|x l]; [reflexivity|].
  rewrite f_loop_same; [reflexivity|lia|]. cbn [skipn]. apply Forall_inv_tail in F. exact F.
Qed.
