(** The parser of the textual format accepts exactly the lines of SpecStrict. *)
From Coq Require Import String Ascii.
From Verif Require Import Prelude ModelMux ProofList ProofZlist ModelCdf ModelCmd ModelText SpecText ProofText ProofText2 SpecStrict.
From Coq Require Import Lia.

(** ** Numbers *)
Lemma count_iff top n s : 0 <= top -> parse_unsigned top s = Some n <-> count top n s.
Proof. intros T. rewrite unsigned_iff by exact T. unfold count. split; [intros (d & A & B & C)|intros (B & d & A & C)]; eauto 6. Qed.
Lemma integer_iff n s : parse_i64 s = Some n <-> integer n s.
Proof.
  unfold parse_i64, parse_signed, integer, count. change (9223372036854775807 + 1) with 9223372036854775808. change (2 ^ 63 - 1) with 9223372036854775807. change (- 2 ^ 63) with (- 9223372036854775808). destruct s as [|c t].
  - split; [discriminate|]. intros [(_ & d & (N & _) & [<-|Q])|(_ & d & _ & Q)]; [contradiction N; reflexivity|discriminate Q|discriminate Q].
  - destruct (Z.eqb_spec c 43) as [->|N43]; [|destruct (Z.eqb_spec c 45) as [->|N45]].
    + rewrite some_digits_iff by lia. split; [intros (A & B); left; split; [exact B|]; exists t; auto|]. intros [(B & d & A & [<-|Q])|(_ & d & _ & Q)]; [apply numeral_cons in A; unfold digit in A; lia| |discriminate Q]. assert (t = d) by congruence. subst. auto.
    + split.
      * destruct (some_digits _ t) as [v|] eqn:E; cbn [option_map]; [|discriminate]. intros Q. assert (n = - v) by congruence. subst n. apply some_digits_iff in E; [|lia]. destruct E as (A & B). right. split; [lia|]. exists t. rewrite Z.opp_involutive. auto.
      * intros [(B & d & A & [<-|Q])|(B & d & A & Q)]; [apply numeral_cons in A; unfold digit in A; lia|discriminate Q|]. assert (t = d) by congruence. subst d. assert (E : some_digits 9223372036854775808 t = Some (- n)) by (apply some_digits_iff; [lia|]; split; [exact A|lia]). rewrite E. cbn [option_map]. f_equal. lia.
    + rewrite some_digits_iff by lia. split; [intros (A & B); left; split; [exact B|]; exists (c :: t); auto|]. intros [(B & d & A & [<-|Q])|(_ & d & _ & Q)]; [auto|congruence|congruence].
Qed.
Lemma count_word top n s : count top n s -> word s.
Proof. intros (_ & d & A & [->| ->]); [exact (numeral_word _ _ A)|]. intros [Q|Q]; [discriminate Q|exact (numeral_word _ _ A Q)]. Qed.
Lemma count_no_comma top n s : count top n s -> ~ In 44 s.
Proof. intros (_ & d & (_ & A & _) & [->| ->]); [apply digits_no; [exact A|lia]|]. intros [Q|Q]; [discriminate Q|revert Q; apply digits_no; [exact A|lia]]. Qed.
Lemma count_nonneg top n s : count top n s -> 0 <= n <= top.
Proof. intros (B & d & A & _). apply numeral_nonneg in A. lia. Qed.
Lemma u32_iff n s : parse_u32 s = Some n <-> count (2 ^ 32 - 1) n s.
Proof. apply (count_iff 4294967295). lia. Qed.
Lemma u16_iff n s : parse_u16 s = Some n <-> count 65535 n s.
Proof. apply count_iff. lia. Qed.
Lemma usize_iff n s : parse_usize s = Some n <-> count (2 ^ 64 - 1) n s.
Proof. apply (count_iff 18446744073709551615). lia. Qed.
Lemma u8_mod x : u8 x = x mod 256.
Proof. unfold u8. change 255 with (Z.ones 8). apply Z.land_ones. lia. Qed.

(** ** Lines *)
Lemma line_split : forall s, line (split 32 s) = s /\ Forall word (split 32 s).
Proof.
  induction s as [|x s (IH & IW)]; [split; [reflexivity|repeat constructor; intros []]|]. cbn [split]. pose proof (split_not_nil 32 s) as NN. destruct (split 32 s) as [|w ws]; [contradiction NN; reflexivity|]. destruct (Z.eqb_spec x 32) as [->|N].
  - split; [cbn [line app]; f_equal; exact IH|constructor; [intros []|exact IW]].
  - apply Forall_cons_iff in IW. destruct IW as (W1 & W2). split; [destruct ws; cbn [line app] in *; f_equal; exact IH|]. constructor; [intros [Q|Q]; auto|exact W2].
Qed.
Lemma split_of s ws : split 32 s = ws -> s = line ws /\ Forall word ws.
Proof. intros <-. destruct (line_split s) as (A & B). auto. Qed.
Lemma comma_of id len ix : split 44 id = [len; ix] -> id = len ++ [44] ++ ix.
Proof.
  intros E. destruct (split_inv _ _ _ _ E) as (_ & [(Q & _)|(t & -> & T)]); [discriminate Q|]. destruct (split_inv _ _ _ _ T) as (_ & [(_ & ->)|(t2 & _ & Q)]); [reflexivity|]. contradiction (split_not_nil _ _ Q).
Qed.

(** ** The bytes of an insertion *)
Lemma nibble_iff c v : hex_to_nibble c = Some v -> hex_digit v c.
Proof.
  unfold hex_to_nibble, hex_digit. destruct ((65 <=? c) && (c <=? 70)) eqn:A; [|destruct ((97 <=? c) && (c <=? 102)) eqn:B; [|destruct ((48 <=? c) && (c <=? 57)) eqn:C; [|discriminate]]]; intros Q; repeat match goal with H : (_ && _) = true |- _ => apply andb_prop in H; destruct H as (?H1 & ?H2); apply Z.leb_le in H1, H2 end; assert (v = c - 65 + 10 \/ v = c - 97 + 10 \/ v = c - 48) by (first [left; congruence|right; left; congruence|right; right; congruence]).
  - assert (v = c - 65 + 10) by congruence. lia.
  - assert (v = c - 97 + 10) by congruence. lia.
  - assert (v = c - 48) by congruence. lia.
Qed.
Lemma digit_visible v c : hex_digit v c -> visible c = true.
Proof. unfold hex_digit, visible. intros H. destruct (Z.eqb_spec c 10), (Z.eqb_spec c 9), (Z.eqb_spec c 13); try lia; reflexivity. Qed.
Lemma hex_only : forall s buf, (forall d, hex_loop s false buf = Some d -> hex_text d (filter visible s)) /\
  (forall d h, Z.land buf 15 = h -> 0 <= h <= 15 -> hex_loop s true buf = Some d -> exists l c2 d' s', d = 16 * h + l :: d' /\ filter visible s = c2 :: s' /\ hex_digit l c2 /\ hex_text d' s').
Proof.
  induction s as [|c s IH]; intros buf; cbn [hex_loop filter]; [split; [intros d E; assert (d = []) by congruence; subst; constructor|discriminate]|].
  destruct (hex_to_nibble c) as [v|] eqn:HN.
  - pose proof (nibble_iff _ _ HN) as HD. rewrite (digit_visible _ _ HD). destruct (hex_ok _ _ HD) as (_ & BV & _). cbn zeta. split.
    + intros d E. destruct (proj2 (IH _) d v (low_nibble v buf BV) BV E) as (l & c2 & d' & s' & -> & -> & HL & HT). constructor; assumption.
    + intros d h LB BH E. destruct (hex_loop s false _) as [d'|] eqn:R; cbn [option_map] in E; [|discriminate]. assert (d = Z.lor (Z.land (Z.shiftl buf 4) 255) v :: d') by congruence. subst d. exists v, c, d', (filter visible s). split; [f_equal; apply nibbles; assumption|]. split; [reflexivity|]. split; [exact HD|]. exact (proj1 (IH _) _ R).
  - destruct ((c =? 10) || (c =? 9) || (c =? 13)) eqn:V; [|split; discriminate]. assert (VF : visible c = false) by (unfold visible; rewrite V; reflexivity). rewrite VF. apply IH.
Qed.
Lemma hex_all : forall s buf, (forall d, hex_text d (filter visible s) -> hex_loop s false buf = Some d) /\
  (forall d h l c2 s', Z.land buf 15 = h -> 0 <= h <= 15 -> filter visible s = c2 :: s' -> hex_digit l c2 -> hex_text d s' -> hex_loop s true buf = Some (16 * h + l :: d)).
Proof.
  induction s as [|c s IH]; intros buf; cbn [hex_loop filter].
  - split; [intros d H; inversion H; reflexivity|discriminate].
  - destruct (visible c) eqn:V.
    + split.
      * intros d H. inversion H as [|h l b c1 c2 s0 H1 H2 H3 Q1 [Q2 Q3]]. subst d c1. destruct (hex_ok _ _ H1) as (-> & B1 & _). cbn zeta. eapply (proj2 (IH _)); [apply low_nibble, B1|exact B1|symmetry; exact Q3|exact H2|exact H3].
      * intros d h l c2 s' LB BH E HL HT. assert (c2 = c /\ s' = filter visible s) by (split; congruence). destruct H as (-> & ->). destruct (hex_ok _ _ HL) as (-> & BL & _). cbn zeta. rewrite (nibbles h l) by assumption. rewrite (proj1 (IH _) d HT). reflexivity.
    + assert (W : (c =? 10) || (c =? 9) || (c =? 13) = true) by (unfold visible in V; destruct (_ || _ || _); [reflexivity|discriminate V]). assert (HN : hex_to_nibble c = None). { destruct (hex_to_nibble c) as [v|] eqn:HN; [|reflexivity]. apply nibble_iff, digit_visible in HN. congruence. }
      rewrite HN, W. apply IH.
Qed.
Lemma quoted_only : forall n s d, (length s <= n)%nat -> quoted_loop s false false false None = Some d -> exists q, quoted_text d q /\ s = q ++ [34].
Proof.
  induction n as [|n IH]; intros s d L E; (destruct s as [|c s]; [discriminate E|]); cbn [length] in L; [lia|]. cbn [quoted_loop] in E. destruct (Z.eqb_spec c 34) as [->|N34].
  { cbn [andb negb] in E. destruct s as [|x s]; cbn [quoted_loop] in E; [|discriminate E]. cbn [orb negb] in E. assert (d = []) by congruence. subst. exists []. split; [constructor|reflexivity]. }
  destruct (Z.eqb_spec c 92) as [->|N92].
  - cbn [andb negb] in E. destruct s as [|e s]; [discriminate E|]. cbn [quoted_loop] in E. rewrite !andb_false_r in E. cbn [length] in L. destruct (Z.eqb_spec e 120) as [->|N120].
    + destruct s as [|c1 s]; [discriminate E|]. cbn [quoted_loop] in E. rewrite !andb_false_r in E. destruct (hex_to_nibble c1) as [h|] eqn:H1; [|discriminate E]. destruct s as [|c2 s]; [discriminate E|]. cbn [quoted_loop] in E. rewrite !andb_false_r in E. destruct (hex_to_nibble c2) as [l|] eqn:H2; [|discriminate E].
      apply nibble_iff in H1, H2. destruct (hex_ok _ _ H1) as (_ & B1 & _). destruct (hex_ok _ _ H2) as (_ & B2 & _). rewrite (nibbles h l) in E by (try assumption; change 15 with (Z.ones 4); rewrite Z.land_ones by lia; apply Z.mod_small; change (2 ^ 4) with 16; lia).
      destruct (quoted_loop s _ _ _ _) as [d'|] eqn:R; cbn [option_map] in E; [|discriminate E]. assert (d = 16 * h + l :: d') by congruence. subst d. cbn [length] in L. destruct (IH s d' ltac:(lia) R) as (q & HQ & ->). exists (92 :: 120 :: c1 :: c2 :: q). split; [constructor; assumption|reflexivity].
    + cbn zeta in E. assert (P : exists b d', In (e, b) [(110, 10); (114, 13); (116, 9); (92, 92); (39, 39); (34, 34); (63, 63)] /\ d = b :: d' /\ quoted_loop s false false false None = Some d').
      { repeat match type of E with (if ?a =? ?b then _ else _) = _ => destruct (Z.eqb_spec a b) as [->|?] end; [| | | | | | |discriminate E]; (destruct (quoted_loop s _ _ _ _) as [d'|]; cbn [option_map] in E; [|discriminate E]); (injection E as <-; eexists _, _; split; [|split; reflexivity]; cbn [In]; auto 10). }
      destruct P as (b & d' & HI & -> & R). destruct (IH s d' ltac:(lia) R) as (q & HQ & ->). exists (92 :: e :: q). split; [econstructor; eassumption|reflexivity].
  - cbn [andb] in E. destruct (quoted_loop s _ _ _ _) as [d'|] eqn:R; cbn [option_map] in E; [|discriminate E]. assert (d = c :: d') by congruence. subst d. destruct (IH s d' ltac:(lia) R) as (q & HQ & ->). exists (c :: q). split; [constructor; assumption|reflexivity].
Qed.
Lemma hex_text_head d s : hex_text d s -> hd 0 s <> 34.
Proof. intros [|h l b c1 c2 t H1 _ _]; cbn [hd]; [discriminate|]. apply hex_ok in H1. tauto. Qed.
Lemma data_text_iff d s : d <> [] -> literal_slice_to_vec s = Some d <-> data_text d s.
Proof.
  intros ND. unfold data_text. split.
  - destruct s as [|c s]; [intros E; assert (d = []) by (unfold literal_slice_to_vec in E; congruence); contradiction|]. unfold literal_slice_to_vec. destruct (Z.eqb_spec c 34) as [->|N].
    + unfold quoted_slice_to_vec. destruct (_ <? 2); [discriminate|]. cbn [tl]. intros E. right. destruct (quoted_only _ _ _ (le_n _) E) as (q & HQ & ->). exists q. auto.
    + intros E. left. exact (proj1 (hex_only (c :: s) 0) _ E).
  - intros [H|(q & HQ & ->)].
    + destruct s as [|c s]; [inversion H; subst; contradiction ND; reflexivity|]. unfold literal_slice_to_vec. destruct (Z.eqb_spec c 34) as [->|N]; [|exact (proj1 (hex_all (c :: s) 0) _ H)]. cbn [filter] in H. change (visible 34) with true in H. cbn iota in H. apply hex_text_head in H. contradiction H. reflexivity.
    + eapply literal_text_ok; [|exact ND]. right. eauto.
Qed.

(** ** The sections of a prediction mode *)
Lemma follows_after key : forall words, follows key words (after key words).
Proof.
  induction words as [|t ts IH]; cbn [after]; [right; split; [intros []|reflexivity]|]. destruct (same t key) eqn:E.
  - apply same_ok in E. subst t. left. exists []. split; [reflexivity|intros []].
  - assert (N : t <> key) by (intros ->; rewrite same_refl in E; discriminate E). destruct IH as [(pre & Q & NI)|(NI & Q)].
    + left. exists (t :: pre). split; [cbn [app]; f_equal; exact Q|]. intros [J|J]; auto.
    + right. split; [intros [J|J]; auto|exact Q].
Qed.
Lemma follows_det key words r : follows key words r -> after key words = r.
Proof.
  revert r. induction words as [|t ts IH]; intros r F; cbn [after].
  - destruct F as [(pre & Q & _)|(_ & ->)]; [destruct pre; discriminate Q|reflexivity].
  - destruct (same t key) eqn:E.
    + apply same_ok in E. subst t. destruct F as [(pre & Q & NI)|(NI & _)]; [|contradiction NI; left; reflexivity]. destruct pre as [|p pre]; [cbn [app] in Q; congruence|]. contradiction NI. left. cbn [app] in Q. congruence.
    + apply IH. destruct F as [(pre & Q & NI)|(NI & ->)]; [|right; split; [intros J; apply NI; right; exact J|reflexivity]]. destruct pre as [|p pre]; cbn [app] in Q; [assert (t = key) by congruence; subst; rewrite same_refl in E; discriminate E|]. left. exists pre. split; [congruence|]. intros J. apply NI. right. exact J.
Qed.
Lemma numbers_iff top : forall toks most l, numbers most top toks = Some l <->
  (exists ts rest, toks = ts ++ rest /\ Forall2 (fun n t => integer n t /\ 0 <= n <= top) l ts /\ forall w more, rest = w :: more -> ~ exists n, integer n w) /\
  (forall k, most = Some k -> (length l <= k)%nat).
Proof.
  induction toks as [|t toks IH]; intros most l; cbn [numbers].
  - split.
    + intros E. assert (l = []) by congruence. subst. split; [exists [], []; split; [reflexivity|]; split; [constructor|discriminate]|]. intros k _. cbn [length]. lia.
    + intros ((ts & rest & Q & F & _) & _). symmetry in Q. apply app_eq_nil in Q. destruct Q as (-> & ->). inversion F. reflexivity.
  - destruct (parse_i64 t) as [v|] eqn:PT.
    + apply integer_iff in PT. assert (UN : forall n, integer n t -> n = v) by (intros n Q; apply integer_iff in Q; apply integer_iff in PT; congruence). split.
      * intros E. assert (E2 : (if (v <=? top) && (0 <=? v) then option_map (cons v) (numbers (option_map Nat.pred most) top toks) else None) = Some l /\ most <> Some 0%nat) by (destruct most as [[|k]|]; [discriminate E|split; [exact E|discriminate]|split; [exact E|discriminate]]). clear E. destruct E2 as (E & M).
        destruct (Z.leb_spec v top); [|discriminate E]. destruct (Z.leb_spec 0 v); [|discriminate E]. cbn [andb] in E. destruct (numbers _ top toks) as [l'|] eqn:R; cbn [option_map] in E; [|discriminate E]. assert (l = v :: l') by congruence. subst l. apply IH in R. destruct R as ((ts & rest & -> & F & ST) & LK).
        split; [exists (t :: ts), rest; split; [reflexivity|]; split; [constructor; [split; [exact PT|lia]|exact F]|exact ST]|]. intros k ->. destruct k as [|k]; [contradiction M; reflexivity|]. cbn [length]. specialize (LK k eq_refl). lia.
      * intros ((ts & rest & Q & F & ST) & LK). destruct ts as [|t' ts]; [cbn [app] in Q; exfalso; symmetry in Q; apply (ST _ _ Q); exists v; exact PT|]. cbn [app] in Q. assert (t' = t /\ toks = ts ++ rest) by (split; congruence). destruct H as (-> & ->). inversion F as [|n t1 l' ts1 (P1 & P2) F2 Q1 Q2]. subst. apply UN in P1. subst n.
        assert (R : numbers (option_map Nat.pred most) top (ts ++ rest) = Some l'). { apply IH. split; [exists ts, rest; auto|]. intros k K. destruct most as [k0|]; [|discriminate K]. cbn [option_map] in K. specialize (LK k0 eq_refl). cbn [length] in LK. assert (k = Nat.pred k0) by congruence. lia. }
        destruct (Z.leb_spec v top); [|lia]. destruct (Z.leb_spec 0 v); [|lia]. cbn [andb]. rewrite R. destruct most as [[|k]|]; [specialize (LK _ eq_refl); cbn [length] in LK; lia|reflexivity|reflexivity].
    + assert (NI : ~ exists n, integer n t) by (intros (n & Q); apply integer_iff in Q; congruence). split.
      * intros E. assert (l = []) by congruence. subst. split; [|intros k _; cbn [length]; lia]. exists [], (t :: toks). split; [reflexivity|]. split; [constructor|]. intros w more Q. assert (w = t) by congruence. subst. exact NI.
      * intros ((ts & rest & Q & F & _) & _). destruct ts as [|t' ts]; [inversion F; reflexivity|]. exfalso. cbn [app] in Q. assert (t' = t) by congruence. subst. inversion F as [|n t1 l' ts1 (P1 & _)]. subst. eauto.
Qed.
Lemma listed_iff most top key words l : (numbers most top (after key words) = Some l <-> listed top key words l /\ forall k, most = Some k -> (length l <= k)%nat).
Proof.
  rewrite numbers_iff. unfold listed. pose proof (follows_after key words) as FA. split.
  - intros ((ts & rest & Q & F & S1) & L). split; [|exact L]. exists ts, rest. rewrite <- Q. auto.
  - intros ((ts & rest & FO & F & S1) & L). split; [|exact L]. exists ts, rest. split; [apply follows_det, FO|auto].
Qed.
Lemma pair_iff toks x y : speed_pair toks = Some (x, y) <->
  exists l ts rest, toks = ts ++ rest /\ Forall2 (count 16384) l ts /\ x = nth 0 l 0 /\ y = nth 1 l 0 /\ (zlen l = 2 \/ zlen l < 2 /\ forall w more, rest = w :: more -> ~ exists n, count 65535 n w).
Proof.
  assert (C16 : forall n t, count 16384 n t -> parse_u16 t = Some n /\ n <= 16384) by (intros n t (B & d & A); split; [apply u16_iff; split; [lia|eauto]|exact B]).
  assert (NO : forall t, parse_u16 t = None -> ~ exists n, count 65535 n t) by (intros t Q (n & H); apply u16_iff in H; congruence).
  split.
  - intros E. unfold speed_pair in E. destruct toks as [|a toks].
    { exists [], [], []. split; [reflexivity|]. split; [constructor|]. cbn [nth]. split; [congruence|]. split; [congruence|]. right. split; [reflexivity|discriminate]. }
    destruct (parse_u16 a) as [v|] eqn:PA.
    2:{ exists [], [], (a :: toks). split; [reflexivity|]. split; [constructor|]. cbn [nth]. split; [congruence|]. split; [congruence|]. right. split; [reflexivity|]. intros w more Q. assert (w = a) by congruence. subst. apply NO, PA. }
    destruct (Z.ltb_spec 16384 v); [discriminate E|]. apply u16_iff in PA. assert (CA : count 16384 v a) by (destruct PA as (_ & PA); split; [lia|exact PA]). destruct toks as [|b toks].
    { exists [v], [a], []. split; [reflexivity|]. split; [constructor; [exact CA|constructor]|]. cbn [nth]. split; [congruence|]. split; [congruence|]. right. split; [reflexivity|discriminate]. }
    destruct (parse_u16 b) as [u|] eqn:PB.
    + destruct (Z.ltb_spec 16384 u); [discriminate E|]. apply u16_iff in PB. assert (CB : count 16384 u b) by (destruct PB as (_ & PB); split; [lia|exact PB]). exists [v; u], [a; b], toks. split; [reflexivity|]. split; [constructor; [exact CA|constructor; [exact CB|constructor]]|]. cbn [nth]. split; [congruence|]. split; [congruence|]. left. reflexivity.
    + exists [v], [a], (b :: toks). split; [reflexivity|]. split; [constructor; [exact CA|constructor]|]. cbn [nth]. split; [congruence|]. split; [congruence|]. right. split; [reflexivity|]. intros w more Q. assert (w = b) by congruence. subst. apply NO, PB.
  - intros (l & ts & rest & -> & F & -> & -> & E). assert (STOP : (forall w more, rest = w :: more -> ~ exists n, count 65535 n w) -> forall w more, rest = w :: more -> parse_u16 w = None). { intros H w more Q. destruct (parse_u16 w) as [n|] eqn:PW; [|reflexivity]. exfalso. apply u16_iff in PW. eapply H; eauto. }
    inversion F as [|v a l' ts' CA F2]; subst.
    { destruct E as [E|(_ & E)]; [discriminate E|]. cbn [app nth]. unfold speed_pair. destruct rest as [|w more]; [reflexivity|]. rewrite (STOP E w more eq_refl). reflexivity. }
    destruct (C16 _ _ CA) as (PA & LA). cbn [app]. unfold speed_pair. rewrite PA. destruct (Z.ltb_spec 16384 v); [lia|]. inversion F2 as [|u b l2 ts2 CB F3]; subst.
    + destruct E as [E|(_ & E)]; [discriminate E|]. cbn [app nth]. destruct rest as [|w more]; [reflexivity|]. rewrite (STOP E w more eq_refl). reflexivity.
    + destruct (C16 _ _ CB) as (PB & LB). cbn [app nth]. rewrite PB. destruct (Z.ltb_spec 16384 u); [lia|reflexivity].
Qed.
Lemma speeds_iff key words x y : speed_pair (after key words) = Some (x, y) <-> two_speeds key words x y.
Proof.
  rewrite pair_iff. unfold two_speeds. pose proof (follows_after key words) as FA. split; intros (l & ts & rest & Q & H); exists l, ts, rest; (split; [|exact H]).
  - rewrite <- Q. exact FA.
  - apply follows_det, Q.
Qed.
Lemma func_iff c : forall toks k, func toks k = PCmd c <-> exists mid st more t, toks = mid ++ [str "func"; st] ++ more /\ ~ In (str "func") mid /\ count (2 ^ 32 - 1) t st /\ k t = PCmd c.
Proof.
  intros toks k. split.
  - induction toks as [|a toks IH]; [discriminate|]. assert (E : func (a :: toks) k = match toks with b :: _ => if same a (str "func") then num (parse_u32 b) k else func toks k | [] => PErr end) by (destruct toks; reflexivity). rewrite E. clear E. destruct toks as [|b t]; [discriminate|]. destruct (same a (str "func")) eqn:S.
    + intros H. destruct (parse_u32 b) as [n|] eqn:P; cbn [num] in H; [|discriminate H]. apply u32_iff in P. apply same_ok in S. subst a. exists [], b, t, n. split; [reflexivity|]. split; [intros []|]. auto.
    + intros H. destruct (IH H) as (mid & st & more & n & -> & NI & C & K). exists (a :: mid), st, more, n. split; [reflexivity|]. split; [|auto]. intros [Q|Q]; [subst a; rewrite same_refl in S; discriminate S|contradiction].
  - intros (mid & st & more & t & -> & NI & C & K). rewrite func_ok by exact NI. apply u32_iff in C. rewrite C. exact K.
Qed.

(** ** Lines *)
Lemma num_cmd o k c : num o k = PCmd c <-> exists v, o = Some v /\ k v = PCmd c.
Proof. destruct o as [v|]; cbn [num]; split; [intros E; eauto|intros (w & Q & E); congruence|discriminate|intros (w & Q & _); discriminate Q]. Qed.
Lemma of_opt_cmd {A} (o : option A) k c : of_opt o k = PCmd c <-> exists v, o = Some v /\ k v = PCmd c.
Proof. destruct o as [v|]; cbn [of_opt]; split; [intros E; eauto|intros (w & Q & E); congruence|discriminate|intros (w & Q & _); discriminate Q]. Qed.
Lemma mode_iff m mode : (if same m (str "utf8") then Some 2 else if same m (str "sign") then Some 3 else if same m (str "lsb6") then Some 0 else if same m (str "msb6") then Some 1 else None) = Some mode <->
  In (m, mode) [(str "lsb6", 0); (str "msb6", 1); (str "utf8", 2); (str "sign", 3)].
Proof.
  split.
  - destruct (same m (str "utf8")) eqn:A; [apply same_ok in A; subst; intros Q; assert (mode = 2) by congruence; subst; cbn [In]; auto|]. destruct (same m (str "sign")) eqn:B; [apply same_ok in B; subst; intros Q; assert (mode = 3) by congruence; subst; cbn [In]; auto|].
    destruct (same m (str "lsb6")) eqn:C; [apply same_ok in C; subst; intros Q; assert (mode = 0) by congruence; subst; cbn [In]; auto|]. destruct (same m (str "msb6")) eqn:E; [apply same_ok in E; subst; intros Q; assert (mode = 1) by congruence; subst; cbn [In]; auto|discriminate].
  - cbn [In]. intros H. repeat destruct H as [H|H]; try contradiction; injection H as <- <-; sames; reflexivity.
Qed.
Lemma mode_no_key m mode key : In (m, mode) [(str "lsb6", 0); (str "msb6", 1); (str "utf8", 2); (str "sign", 3)] ->
  In key (str "lcontextmap" :: str "dcontextmap" :: str "mixingvalues" :: speed_keys) -> forall words, after key (str "prediction" :: m :: words) = after key words.
Proof.
  intros HM HK words. assert (N : same (str "prediction") key = false /\ same m key = false); [|cbn [after]; destruct N as (-> & ->); reflexivity].
  cbn [In speed_keys] in HM, HK. repeat destruct HM as [HM|HM]; try contradiction; injection HM as <- <-; repeat destruct HK as [HK|HK]; try contradiction; subst key; split; sames; reflexivity.
Qed.
Lemma prediction_iff c words m : Forall word words -> parse_prediction (str "prediction" :: m :: words) = PCmd c <->
  exists mode lit dist mix ci0 ci1 cm0 cm1 si0 si1 sm0 sm1 mi0 mi1 mm0 mm1, In (m, mode) [(str "lsb6", 0); (str "msb6", 1); (str "utf8", 2); (str "sign", 3)] /\
    listed 255 (str "lcontextmap") words lit /\ listed 255 (str "dcontextmap") words dist /\
    listed 8 (str "mixingvalues") words mix /\ zlen mix <= 8192 /\
    two_speeds (str "cmspeedinc") words ci0 ci1 /\ two_speeds (str "cmspeedmax") words cm0 cm1 /\
    two_speeds (str "stspeedinc") words si0 si1 /\ two_speeds (str "stspeedmax") words sm0 sm1 /\
    two_speeds (str "mxspeedinc") words mi0 mi1 /\ two_speeds (str "mxspeedmax") words mm0 mm1 /\
    c = PredictionMode (PM lit dist (mix ++ repeat 0 (Z.to_nat (8192 - zlen mix))) mode 0 0 (kept si0 si1 sm0 sm1) (kept ci0 ci1 cm0 cm1) (kept mi0 mi1 mm0 mm1) true).
Proof.
  intros W. unfold parse_prediction. set (v := str "prediction" :: m :: words). rewrite of_opt_cmd. split.
  - intros (mode & M & E). apply mode_iff in M. assert (AF : forall key, In key (str "lcontextmap" :: str "dcontextmap" :: str "mixingvalues" :: speed_keys) -> after key v = after key words) by (intros key HK; eapply mode_no_key; eassumption).
    rewrite !AF in E by (cbn [In speed_keys]; auto 12). clear AF.
    apply of_opt_cmd in E. destruct E as (lit & E1 & E). apply of_opt_cmd in E. destruct E as (dist & E2 & E). apply of_opt_cmd in E. destruct E as (mix & E3 & E).
    apply of_opt_cmd in E. destruct E as ((ci0 & ci1) & E4 & E). apply of_opt_cmd in E. destruct E as ((cm0 & cm1) & E5 & E). apply of_opt_cmd in E. destruct E as ((si0 & si1) & E6 & E). apply of_opt_cmd in E. destruct E as ((sm0 & sm1) & E7 & E). apply of_opt_cmd in E. destruct E as ((mi0 & mi1) & E8 & E). apply of_opt_cmd in E. destruct E as ((mm0 & mm1) & E9 & E).
    apply listed_iff in E1. apply listed_iff in E2. apply listed_iff in E3. apply speeds_iff in E4, E5, E6, E7, E8, E9. destruct E1 as (E1 & _). destruct E2 as (E2 & _). destruct E3 as (E3 & L3). specialize (L3 _ eq_refl).
    exists mode, lit, dist, mix, ci0, ci1, cm0, cm1, si0, si1, sm0, sm1, mi0, mi1, mm0, mm1. assert (Z3 : zlen mix <= 8192) by (unfold zlen; lia). unfold stored in E. cbn [fst snd] in E. unfold kept. intuition congruence.
  - intros (mode & lit & dist & mix & ci0 & ci1 & cm0 & cm1 & si0 & si1 & sm0 & sm1 & mi0 & mi1 & mm0 & mm1 & M & E1 & E2 & E3 & L3 & E4 & E5 & E6 & E7 & E8 & E9 & ->). exists mode. split; [apply mode_iff, M|].
    assert (AF : forall key, In key (str "lcontextmap" :: str "dcontextmap" :: str "mixingvalues" :: speed_keys) -> after key v = after key words) by (intros key HK; eapply mode_no_key; eassumption).
    rewrite !AF by (cbn [In speed_keys]; auto 12). clear AF.
    assert (N1 : numbers None 255 (after (str "lcontextmap") words) = Some lit) by (apply listed_iff; split; [exact E1|discriminate]). assert (N2 : numbers None 255 (after (str "dcontextmap") words) = Some dist) by (apply listed_iff; split; [exact E2|discriminate]).
    assert (N3 : numbers (Some (Z.to_nat 8192)) 8 (after (str "mixingvalues") words) = Some mix). { apply listed_iff. split; [exact E3|]. intros k Q. assert (k = Z.to_nat 8192) by congruence. unfold zlen in L3. lia. }
    apply speeds_iff in E4, E5, E6, E7, E8, E9. rewrite N1, N2, N3, E4, E5, E6, E7, E8, E9. reflexivity.
Qed.
Lemma insert_iff (e : bool) c sn text : word sn -> parse_insert (if e then str "rndins" else str "insert") ((if e then str "rndins" else str "insert") ++ [32] ++ sn ++ [32] ++ text) ((if e then str "rndins" else str "insert") :: sn :: split 32 text) = PCmd c <->
  exists data, c = Literal data e /\ data <> [] /\ count (2 ^ 64 - 1) (zlen data) sn /\ data_text data text.
Proof.
  intros W. unfold parse_insert. destruct (split 32 text) as [|d0 more] eqn:ST; [contradiction (split_not_nil _ _ ST)|]. rewrite insert_text. rewrite num_cmd. assert (GV : forall data, literal_slice_to_vec text = Some data -> data <> [] -> (match more, d0 with p :: _, c :: _ => if c =? 34 then None else Some p | _, _ => None end) = @None (list Z)).
  { intros data E ND. destruct more as [|p more]; [reflexivity|]. destruct d0 as [|x d0]; [reflexivity|]. destruct (Z.eqb_spec x 34); [reflexivity|]. exfalso. destruct (split_inv _ _ _ _ ST) as (_ & [(Q & _)|(t & -> & _)]); [discriminate Q|]. cbn [app] in E. unfold literal_slice_to_vec in E. destruct (Z.eqb_spec x 34); [contradiction|]. unfold hex_slice_to_vec in E. rewrite hex_no_space in E by (right; apply in_or_app; right; left; reflexivity). discriminate E. }
  assert (SE : same (if e then str "rndins" else str "insert") (str "rndins") = e) by (destruct e; sames; reflexivity). split.
  - intros (n & PN & E). apply usize_iff in PN. destruct (Z.eqb_spec n 0); [discriminate E|]. apply of_opt_cmd in E. destruct E as (data & LD & E). pose proof (count_nonneg _ _ _ PN).
    assert (ZD : zlen data = n). { destruct (match more with [] => None | _ => _ end) as [p|]; cbn zeta iota in E; [|destruct (Z.eqb_spec (zlen data) n); [assumption|discriminate E]]. destruct (hex_slice_to_vec p) as [prob|]; cbn [of_opt] in E; [|discriminate E]. destruct (_ =? n * 8); [|discriminate E]. destruct (Z.eqb_spec (zlen data) n); [assumption|discriminate E]. }
    assert (ND : data <> []) by (intros ->; change (zlen (@nil Z)) with 0 in ZD; lia). rewrite (GV data LD ND) in E. cbn zeta iota in E. rewrite ZD, Z.eqb_refl in E. cbn [negb] in E. rewrite SE in E. exists data. split; [congruence|]. split; [exact ND|]. split; [rewrite ZD; exact PN|]. apply data_text_iff; assumption.
  - intros (data & -> & ND & C & DT). apply data_text_iff in DT; [|exact ND]. exists (zlen data). split; [apply usize_iff, C|]. pose proof (zlen_nonneg data). destruct (Z.eqb_spec (zlen data) 0) as [Q|_]; [destruct data as [|x data]; [contradiction ND; reflexivity|]; rewrite zlen_cons in Q; pose proof (zlen_nonneg data); lia|].
    rewrite DT. cbn [of_opt]. rewrite (GV data DT ND). cbn zeta iota. rewrite Z.eqb_refl. cbn [negb]. rewrite SE. reflexivity.
Qed.
