(** The parser of the textual command format accepts what the format describes, and
    panics only on one shape of line. *)
From Coq Require Import String Ascii.
From Verif Require Import Prelude ModelMux ProofList ProofZlist ModelCdf ModelCmd ModelText SpecText.

Lemma same_ok a : forall b, same a b = true <-> a = b.
Proof.
  induction a as [|x a IH]; intros [|y b]; cbn [same]; split; intros H; try reflexivity; try discriminate.
  - apply andb_prop in H. destruct H as (H1 & H2). apply Z.eqb_eq in H1. apply IH in H2. subst. reflexivity.
  - injection H as -> ->. rewrite Z.eqb_refl. apply IH. reflexivity.
Qed.
Lemma same_refl a : same a a = true.
Proof. apply same_ok. reflexivity. Qed.
Lemma same_no a b : a <> b -> same a b = false.
Proof. intros H. destruct (same a b) eqn:E; [apply same_ok in E; contradiction|reflexivity]. Qed.

(** ** Words *)
Lemma split_word c w : ~ In c w -> split c w = [w].
Proof.
  induction w as [|x w IH]; intros H; cbn [split]; [reflexivity|]. destruct (Z.eqb_spec x c) as [->|_]; [contradiction H; left; reflexivity|]. rewrite IH by (intros Q; apply H; right; exact Q). reflexivity.
Qed.
Lemma split_app c w s : ~ In c w -> split c (w ++ c :: s) = w :: split c s.
Proof.
  induction w as [|x w IH]; intros H; cbn [app split]; [rewrite Z.eqb_refl; reflexivity|]. destruct (Z.eqb_spec x c) as [->|_]; [contradiction H; left; reflexivity|]. rewrite IH by (intros Q; apply H; right; exact Q). reflexivity.
Qed.
Lemma split_line ws : Forall word ws -> ws <> [] -> split 32 (line ws) = ws.
Proof.
  induction ws as [|w ws IH]; intros F N; [contradiction N; reflexivity|]. apply Forall_cons_iff in F. destruct F as (F1 & F2). destruct ws as [|w2 ws]; [apply split_word, F1|].
  change (line (w :: w2 :: ws)) with (w ++ 32 :: line (w2 :: ws)). rewrite split_app by exact F1. rewrite IH by (auto; discriminate). reflexivity.
Qed.
Lemma split_not_nil c s : split c s <> [].
Proof. destruct s as [|x s]; cbn [split]; [discriminate|]. destruct (x =? c); [discriminate|]. destruct (split c s); discriminate. Qed.
(** what a split says about the text *)
Lemma split_inv c : forall s w ws, split c s = w :: ws -> ~ In c w /\ ((ws = [] /\ s = w) \/ exists t, s = w ++ c :: t /\ split c t = ws).
Proof.
  induction s as [|x s IH]; intros w ws E; cbn [split] in E.
  - injection E as <- <-. split; [intros []|left; auto].
  - destruct (Z.eqb_spec x c) as [->|N].
    + injection E as <- <-. split; [intros []|]. right. exists s. auto.
    + destruct (split c s) as [|w' ws'] eqn:ES; [contradiction (split_not_nil _ _ ES)|]. injection E as <- <-. destruct (IH w' ws' eq_refl) as (H1 & H2). split; [intros [Q|Q]; auto|].
      destruct H2 as [(-> & ->)|(t & -> & T)]; [left; auto|right; exists t; auto].
Qed.

(** ** Numerals *)
Lemma fold_value : forall s a, fold_left (fun a c => 10 * a + (c - 48)) s a = a * 10 ^ zlen s + value s.
Proof.
  assert (G : forall s a, fold_left (fun a c => 10 * a + (c - 48)) s a = a * 10 ^ zlen s + fold_left (fun a c => 10 * a + (c - 48)) s 0).
  { induction s as [|c s IH]; intros a; [cbn [fold_left]; change (zlen (@nil Z)) with 0; lia|]. cbn [fold_left]. rewrite IH, (IH (10 * 0 + (c - 48))). rewrite zlen_cons. pose proof (zlen_nonneg s). rewrite Z.pow_add_r by lia. change (10 ^ 1) with 10. ring. }
  exact G.
Qed.
Lemma value_nonneg s : Forall digit s -> 0 <= value s.
Proof.
  induction s as [|c s IH]; intros F; [unfold value; cbn; lia|]. apply Forall_cons_iff in F. destruct F as (F1 & F2). unfold value. cbn [fold_left]. rewrite fold_value. specialize (IH F2). unfold digit in F1. pose proof (Z.pow_nonneg 10 (zlen s) ltac:(lia)). nia.
Qed.
Lemma digits_ok max : forall s a, Forall digit s -> 0 <= a -> a * 10 ^ zlen s + value s <= max -> digits max a s = Some (a * 10 ^ zlen s + value s).
Proof.
  induction s as [|c s IH]; intros a F A M; cbn [digits].
  - change (zlen (@nil Z)) with 0. unfold value. cbn [fold_left]. f_equal. lia.
  - apply Forall_cons_iff in F. destruct F as (F1 & F2). unfold digit in F1. destruct (Z.leb_spec 48 c); [|lia]. destruct (Z.leb_spec c 57); [|lia]. cbn [andb].
    assert (E : a * 10 ^ zlen (c :: s) + value (c :: s) = (a * 10 + (c - 48)) * 10 ^ zlen s + value s).
    { unfold value at 1. cbn [fold_left]. rewrite fold_value, zlen_cons. pose proof (zlen_nonneg s). rewrite Z.pow_add_r by lia. change (10 ^ 1) with 10. ring. }
    rewrite E in *. pose proof (value_nonneg s F2). assert (P1 : 1 <= 10 ^ zlen s) by (pose proof (Z.pow_pos_nonneg 10 (zlen s) ltac:(lia) (zlen_nonneg s)); lia).
    destruct (Z.leb_spec (a * 10 + (c - 48)) max); [|nia]. apply IH; [exact F2|nia|exact M].
Qed.
Lemma some_digits_ok max n s : numeral n s -> n <= max -> some_digits max s = Some n.
Proof.
  intros (N & F & V) M. unfold some_digits. destruct s as [|c s]; [contradiction N; reflexivity|]. rewrite (digits_ok max (c :: s) 0 F ltac:(lia)) by lia. f_equal. lia.
Qed.
Lemma numeral_cons n c s : numeral n (c :: s) -> digit c.
Proof. intros (_ & F & _). exact (Forall_inv F). Qed.
Lemma unsigned_ok max n s : numeral n s -> n <= max -> parse_unsigned max s = Some n.
Proof.
  intros H M. destruct s as [|c t]; [destruct H as (N & _); contradiction N; reflexivity|]. unfold parse_unsigned. pose proof (numeral_cons _ _ _ H) as D. unfold digit in D. destruct (Z.eqb_spec c 43); [lia|]. apply some_digits_ok; assumption.
Qed.
Lemma signed_ok max n s : numeral n s -> n <= max -> parse_signed max s = Some n.
Proof.
  intros H M. destruct s as [|c t]; [destruct H as (N & _); contradiction N; reflexivity|]. unfold parse_signed. pose proof (numeral_cons _ _ _ H) as D. unfold digit in D. destruct (Z.eqb_spec c 43); [lia|]. destruct (Z.eqb_spec c 45); [lia|]. apply some_digits_ok; assumption.
Qed.
Lemma numeral_nonneg n s : numeral n s -> 0 <= n.
Proof. intros (_ & F & <-). apply value_nonneg, F. Qed.
Lemma digits_no c s : Forall digit s -> (c < 48 \/ 57 < c) -> ~ In c s.
Proof. intros F H Q. rewrite Forall_forall in F. specialize (F _ Q). unfold digit in F. lia. Qed.
Lemma numeral_word n s : numeral n s -> word s.
Proof. intros (_ & F & _). apply digits_no; [exact F|lia]. Qed.
(** a text that starts with a letter is no number *)
Lemma letter_no_number c s : 58 <= c -> parse_i64 (c :: s) = None /\ parse_u16 (c :: s) = None.
Proof.
  intros L. unfold parse_i64, parse_u16, parse_signed, parse_unsigned, some_digits. cbn [digits]. destruct (Z.eqb_spec c 43); [lia|]. destruct (Z.eqb_spec c 45); [lia|]. destruct (Z.leb_spec c 57); [lia|]. rewrite andb_false_r. auto.
Qed.

(** ** Literals *)
Lemma hex_ok v c : hex_digit v c -> hex_to_nibble c = Some v /\ 0 <= v <= 15 /\ c <> 34 /\ c <> 32.
Proof.
  intros H. unfold hex_to_nibble. destruct (Z.leb_spec 65 c), (Z.leb_spec c 70), (Z.leb_spec 97 c), (Z.leb_spec c 102), (Z.leb_spec 48 c), (Z.leb_spec c 57); cbn [andb]; unfold hex_digit in H; (split; [f_equal; lia|lia]).
Qed.
Lemma nibbles h l x : 0 <= h <= 15 -> 0 <= l <= 15 -> Z.land x 15 = h -> Z.lor (Z.land (Z.shiftl x 4) 255) l = 16 * h + l.
Proof.
  intros H L E. assert (A : Z.land (Z.shiftl x 4) 255 = Z.shiftl h 4).
  { rewrite <- E. change 255 with (Z.lor (Z.shiftl 15 4) 15). rewrite Z.land_lor_distr_r, <- Z.shiftl_land. assert (Q : Z.land (Z.shiftl x 4) 15 = 0). { change 15 with (Z.ones 4). rewrite Z.land_ones by lia. rewrite Z.shiftl_mul_pow2 by lia. apply Z.mod_mul. lia. } rewrite Q. apply Z.lor_0_r. }
  rewrite A, Z.lor_comm, lor_shift_add by (try lia; change (2 ^ 4) with 16; lia). change (2 ^ 4) with 16. lia.
Qed.
Lemma low_nibble h buf : 0 <= h <= 15 -> Z.land (Z.lor (Z.land (Z.shiftl buf 4) 255) h) 15 = h.
Proof.
  intros H. rewrite Z.land_lor_distr_l, <- Z.land_assoc. change (Z.land 255 15) with 15. assert (Q : Z.land (Z.shiftl buf 4) 15 = 0). { change 15 with (Z.ones 4). rewrite Z.land_ones by lia. rewrite Z.shiftl_mul_pow2 by lia. apply Z.mod_mul. lia. }
  rewrite Q, Z.lor_0_l. change 15 with (Z.ones 4). rewrite Z.land_ones by lia. apply Z.mod_small. change (2 ^ 4) with 16. lia.
Qed.
Lemma hex_text_ok data s : hex_text data s -> forall buf, hex_loop s false buf = Some data.
Proof.
  induction 1 as [|h l b c1 c2 s H1 H2 H IH]; intros buf; cbn [hex_loop]; [reflexivity|]. destruct (hex_ok _ _ H1) as (E1 & B1 & _). destruct (hex_ok _ _ H2) as (E2 & B2 & _). rewrite E1. cbn zeta. rewrite E2.
  rewrite IH. cbn [option_map]. rewrite (nibbles h l) by (try assumption; apply low_nibble; exact B1). reflexivity.
Qed.
Lemma quoted_text_ok data q : quoted_text data q -> forall rest, quoted_loop (q ++ rest) false false false None = option_map (app data) (quoted_loop rest false false false None).
Proof.
  assert (OM : forall (x : Z) l (o : option (list Z)), option_map (cons x) (option_map (app l) o) = option_map (app (x :: l)) o) by (intros x l [o|]; reflexivity).
  induction 1 as [|c b s N1 N2 H IH|e c b s HI H IH|h l b c1 c2 s H1 H2 H IH]; intros rest; cbn [app].
  - destruct (quoted_loop rest false false false None); reflexivity.
  - cbn [quoted_loop]. destruct (Z.eqb_spec c 34); [contradiction|]. destruct (Z.eqb_spec c 92); [contradiction|]. cbn [andb]. rewrite IH, OM. reflexivity.
  - cbn [quoted_loop]. change (92 =? 34) with false. change (92 =? 92) with true. cbn [andb negb].
    cbn [In] in HI. repeat destruct HI as [HI|HI]; try contradiction; injection HI as <- <-; repeat (match goal with |- context[?a =? ?b] => let v := eval vm_compute in (a =? b) in change (a =? b) with v end); cbn [andb negb]; rewrite IH, OM; reflexivity.
  - cbn [quoted_loop]. change (92 =? 34) with false. change (92 =? 92) with true. cbn [andb negb]. change (120 =? 34) with false. change (120 =? 92) with false. cbn [andb]. change (120 =? 120) with true. cbv iota.
    destruct (hex_ok _ _ H1) as (E1 & B1 & N1 & _). destruct (hex_ok _ _ H2) as (E2 & B2 & N2 & _). rewrite !andb_false_r, E1, E2. rewrite IH, OM.
    rewrite (nibbles h l) by (try assumption; change 15 with (Z.ones 4); rewrite Z.land_ones by lia; apply Z.mod_small; change (2 ^ 4) with 16; lia). reflexivity.
Qed.
Lemma literal_text_ok data text : literal_text data text -> data <> [] -> literal_slice_to_vec text = Some data /\ exists d0 more, split 32 text = d0 :: more /\ (match more, d0 with p :: _, c :: _ => if c =? 34 then None else Some p | _, _ => None end) = None.
Proof.
  intros [H|(q & H & ->)] N.
  - split.
    + unfold literal_slice_to_vec. destruct text as [|c t]; [inversion H; subst; contradiction N; reflexivity|]. assert (C : c <> 34) by (inversion H as [|h l b c1 c2 s H1 H2 H3]; subst; apply (hex_ok _ _ H1)). destruct (Z.eqb_spec c 34); [contradiction|]. apply hex_text_ok, H.
    + exists text, []. split; [|reflexivity]. apply split_word. clear N. induction H as [|h l b c1 c2 s H1 H2 H IH]; [intros []|]. intros [Q|[Q|Q]]; [apply (hex_ok _ _ H1) in Q; contradiction|apply (hex_ok _ _ H2) in Q; contradiction|exact (IH Q)].
  - split.
    + cbn [app literal_slice_to_vec]. change (34 =? 34) with true. cbv iota. unfold quoted_slice_to_vec. rewrite zlen_cons, zlen_app. change (zlen [34]) with 1. pose proof (zlen_nonneg q). destruct (Z.ltb_spec (zlen q + 1 + 1) 2); [lia|]. cbn [tl].
      assert (L2 : (1 + (zlen q + 1) <? 2) = false) by (apply Z.ltb_ge; lia). rewrite ?L2. rewrite (quoted_text_ok _ _ H). cbn [quoted_loop]. change (34 =? 34) with true. cbn [andb negb orb option_map]. rewrite app_nil_r. reflexivity.
    + cbn [app split]. change (34 =? 32) with false. cbv iota. destruct (split 32 (q ++ [34])) as [|t ts] eqn:E; [contradiction (split_not_nil _ _ E)|]. exists (34 :: t), ts. split; [reflexivity|]. destruct ts; reflexivity.
Qed.
