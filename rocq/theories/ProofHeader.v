From Verif Require Import Prelude ProofList ModelCrc SpecCrc ProofCrc ModelHeader SpecHeader.

Lemma make_header_length ws : length (make_header ws) = 16%nat.
Proof. reflexivity. Qed.
Lemma make_header_bytes ws : byte ws -> bytes (make_header ws).
Proof. intros H. unfold make_header, bytes, MAGIC_NUMBER. cbn [app repeat]. repeat (apply Forall_cons; [unfold byte in *; lia|]). constructor. Qed.
Lemma write_header_all_ok ws : byte ws -> forall caps p crc, (p < 16)%nat -> 0 <= crc < 2 ^ 32 ->
  write_header_all p ws crc caps =
    (firstn (total_cap caps) (skipn p (make_header ws)),
     crc32c_update crc (firstn (total_cap caps) (skipn p (make_header ws))),
     (16 <=? p + total_cap caps)%nat && negb (match caps with [] => true | _ => false end)).
Proof.
  intros W. induction caps as [|a caps IH]; intros p crc P C; cbn [write_header_all total_cap fold_right].
  - cbn [firstn]. rewrite andb_false_r, crc_update_ok by (auto; constructor). unfold crc32c. cbn [fold_left].
    rewrite Z.lxor_assoc, Z.lxor_nilpotent, Z.lxor_0_r. reflexivity.
  - unfold write_header. change HEADER_LENGTH with 16%nat. fold (total_cap caps).
    destruct (Nat.ltb_spec (a + p) 16) as [L|L].
    + set (o := firstn a (skipn p (make_header ws))).
      assert (Bo : bytes o) by (apply bytes_firstn, bytes_skipn, make_header_bytes, W).
      rewrite IH by (try lia; apply crc_update_range; auto).
      rewrite <- crc_update_app by (auto; apply bytes_firstn, bytes_skipn, make_header_bytes, W).
      unfold o. rewrite skipn_firstn_app. f_equal. rewrite andb_true_r.
      destruct caps; [|rewrite andb_true_r; f_equal; lia].
      rewrite andb_false_r. cbn [total_cap fold_right]. symmetry. apply Nat.leb_gt. lia.
    + rewrite firstn_all2 by (rewrite skipn_length, make_header_length; lia).
      f_equal. rewrite andb_true_r. symmetry. apply Nat.leb_le. lia.
Qed.

(** parser *)
Definition hp_inv (p : hdr_parser) (seen : list Z) : Prop :=
  length (hp_header p) = 16%nat /\ hp_read_offset p = length seen /\ (length seen < 16)%nat /\
  firstn (length seen) (hp_header p) = seen.
Lemma overwrite_app (d : list Z) seen x : length d = 16%nat -> firstn (length seen) d = seen ->
  (length seen + length x <= 16)%nat ->
  length (overwrite d (length seen) x) = 16%nat /\
  firstn (length (seen ++ x)) (overwrite d (length seen) x) = seen ++ x.
Proof.
  intros L F B. unfold overwrite. rewrite F. split.
  - rewrite !app_length, skipn_length. lia.
  - rewrite app_assoc, firstn_app, firstn_all, Nat.sub_diag, firstn_O, app_nil_r. reflexivity.
Qed.
Lemma parse_all_ok pieces : forall p seen, hp_inv p seen ->
  parse_all p pieces =
    if (16 <=? length (seen ++ concat pieces))%nat
    then (parse_header (firstn 16 (seen ++ concat pieces)), (16 - length seen)%nat)
    else (HNeedsMoreInput, length (concat pieces)).
Proof.
  induction pieces as [|x pieces IH]; intros p seen (L & R & S & F); cbn [parse_all concat].
  - rewrite app_nil_r. destruct (Nat.leb_spec 16 (length seen)); [lia|reflexivity].
  - unfold hp_decode. rewrite L, R. destruct (Nat.leb_spec (16 - length seen) (length x)) as [H|H].
    + set (f := firstn (16 - length seen) x).
      assert (Lf : length f = (16 - length seen)%nat) by (unfold f; rewrite firstn_length; lia).
      destruct (overwrite_app (hp_header p) seen f L F ltac:(lia)) as (L2 & F2).
      assert (E : firstn 16 (seen ++ x ++ concat pieces) = overwrite (hp_header p) (length seen) f).
      { rewrite app_length, Lf in F2. replace (length seen + (16 - length seen))%nat with 16%nat in F2 by lia.
        rewrite <- L2 in F2 at 1. rewrite firstn_all in F2. rewrite F2.
        rewrite firstn_app, firstn_all2 by lia. f_equal. unfold f. rewrite firstn_app.
        replace (16 - length seen - length x)%nat with 0%nat by lia. rewrite firstn_O, app_nil_r. reflexivity. }
      destruct (Nat.leb_spec 16 (length (seen ++ x ++ concat pieces))) as [G|G]; [|rewrite !app_length in G; lia].
      rewrite E. unfold parse_header. cbv zeta.
      repeat match goal with |- context [if ?b then _ else _] => destruct b end; reflexivity.
    + destruct (overwrite_app (hp_header p) seen x L F ltac:(lia)) as (L2 & F2).
      rewrite (IH _ (seen ++ x)); [|split; [exact L2|]; split; [rewrite app_length; cbn [hp_read_offset]; lia|]; split; [rewrite app_length; lia|exact F2]].
      rewrite <- app_assoc. rewrite (app_length seen x).
      destruct (Nat.leb_spec 16 (length (seen ++ x ++ concat pieces))) as [G|G].
      * f_equal. lia.
      * f_equal. rewrite app_length. reflexivity.
Qed.
Lemma hp_new_inv : hp_inv hp_new [].
Proof. split; [reflexivity|]. split; [reflexivity|]. split; [cbn; lia|reflexivity]. Qed.

Lemma parse_header_ok h ws : length h = 16%nat ->
  parse_header h = HOk ws <-> firstn 4 h = MAGIC_NUMBER /\ nth 5 h 0 = ws /\ 10 <= ws <= 24.
Proof.
  intros L. do 16 (destruct h as [|? h]; [discriminate L|]). destruct h; [|discriminate L].
  unfold parse_header, MAGIC_NUMBER. cbn [nth firstn]. clear L.
  destruct (Z.eqb_spec z 255), (Z.eqb_spec z0 229); cbn [negb orb]; try (split; [discriminate|intros (E & _); congruence]).
  destruct (Z.eqb_spec z1 140), (Z.eqb_spec z2 159); cbn [negb orb]; try (split; [discriminate|intros (E & _); congruence]).
  destruct (Z.ltb_spec z4 10), (Z.leb_spec 25 z4); cbn [orb]; try (split; [discriminate|intros (_ & E & F); lia]).
  split.
  - intros E. assert (z4 = ws) by congruence. subst. repeat split; lia.
  - intros (_ & E & _). subst. reflexivity.
Qed.
Lemma parse_header_err h e : length h = 16%nat -> parse_header h = HErr e ->
  match e with
  | MagicNumberWrongA a b => a = nth 0 h 0 /\ b = nth 1 h 0 /\ firstn 2 h <> firstn 2 MAGIC_NUMBER
  | MagicNumberWrongB a b => firstn 2 h = firstn 2 MAGIC_NUMBER /\ a = nth 2 h 0 /\ b = nth 3 h 0 /\ [a; b] <> skipn 2 MAGIC_NUMBER
  | BadWindowSize w => firstn 4 h = MAGIC_NUMBER /\ w = nth 5 h 0 /\ ~ (10 <= w <= 24)
  end.
Proof.
  intros L. do 16 (destruct h as [|? h]; [discriminate L|]). destruct h; [|discriminate L].
  unfold parse_header, MAGIC_NUMBER. cbn [nth firstn skipn]. clear L.
  destruct (Z.eqb_spec z 255), (Z.eqb_spec z0 229); cbn [negb orb];
    try (intros E; assert (E' : e = MagicNumberWrongA z z0) by congruence; subst e; repeat split; congruence).
  destruct (Z.eqb_spec z1 140), (Z.eqb_spec z2 159); cbn [negb orb];
    try (intros E; assert (E' : e = MagicNumberWrongB z1 z2) by congruence; subst e; repeat split; congruence).
  destruct (Z.ltb_spec z4 10), (Z.leb_spec 25 z4); cbn [orb]; try discriminate;
    (intros E; assert (E' : e = BadWindowSize z4) by congruence; subst e; repeat split; [congruence|lia]).
Qed.

(** trailer *)
Lemma checksum_bytes_trailer crc : checksum_bytes crc = trailer crc.
Proof.
  unfold checksum_bytes, trailer. rewrite !as_u8_mod, !Z.shiftr_div_pow2 by lia. cbn [le app].
  change (2 ^ 8) with 256. change (2 ^ 16) with (256 * 256). change (2 ^ 24) with (256 * 256 * 256).
  rewrite !Z.div_div by lia. reflexivity.
Qed.
Lemma trailer_length crc : length (trailer crc) = 8%nat.
Proof. reflexivity. Qed.
Lemma write_trailer_all_ok crc : forall caps c, (c < 8)%nat ->
  write_trailer_all crc c caps =
    (firstn (total_cap caps) (skipn c (trailer crc)), (8 <=? c + total_cap caps)%nat).
Proof.
  induction caps as [|a caps IH]; intros c C; cbn [write_trailer_all total_cap fold_right].
  - cbn [firstn]. f_equal. symmetry. apply Nat.leb_gt. lia.
  - unfold write_checksum. rewrite checksum_bytes_trailer. change CHECKSUM_LENGTH with 8%nat. fold (total_cap caps).
    destruct (Nat.leb_spec (8 - c) a) as [L|L].
    + replace (Nat.min a (8 - c)) with (8 - c)%nat by lia. f_equal.
      * rewrite !firstn_all2 by (rewrite skipn_length, trailer_length; lia). reflexivity.
      * symmetry. apply Nat.leb_le. lia.
    + replace (Nat.min a (8 - c)) with a by lia. rewrite IH by lia.
      rewrite skipn_firstn_app. f_equal. f_equal. lia.
Qed.
Lemma read_trailer_ok pieces : forall got, (length got <= 8)%nat ->
  fold_left (fun got x => fst (read_trailer got x)) pieces got = firstn 8 (got ++ concat pieces).
Proof.
  induction pieces as [|x pieces IH]; intros got G; cbn [fold_left concat].
  - rewrite app_nil_r, firstn_all2; auto.
  - unfold read_trailer at 2. cbn [fst]. rewrite IH.
    + rewrite (firstn_app 8 got), (firstn_all2 got) by lia.
      destruct (Nat.le_gt_cases (length x) (8 - length got)) as [H|H].
      * replace (Nat.min (length x) (8 - length got)) with (length x) by lia. rewrite firstn_all.
        rewrite firstn_app, (firstn_all2 (got ++ x)) by (rewrite app_length; lia).
        rewrite <- app_assoc. f_equal. rewrite (firstn_app (8 - length got)), (firstn_all2 x) by lia.
        f_equal. f_equal. rewrite app_length. lia.
      * replace (Nat.min (length x) (8 - length got)) with (8 - length got)%nat by lia.
        rewrite firstn_app, (firstn_all2 (got ++ _)) by (rewrite app_length, firstn_length; lia).
        rewrite <- app_assoc. f_equal. rewrite (firstn_app (8 - length got) x).
        f_equal. f_equal. rewrite app_length, firstn_length. lia.
    + rewrite app_length, firstn_length. lia.
Qed.

Lemma compare_trailer_ok skip chk : forall fil i, length chk = length fil ->
  compare_trailer skip i chk fil = EofSuccess <->
  (if skip then skipn (4 - i) chk = skipn (4 - i) fil else chk = fil).
Proof.
  induction chk as [|c chk IH]; intros [|f fil] i L; try discriminate L.
  - cbn. destruct skip; rewrite ?skipn_nil; tauto.
  - cbn [compare_trailer]. assert (L' : length chk = length fil) by (cbn in L; lia).
    destruct skip; cbn [negb]; rewrite ?orb_false_r, ?orb_true_r, ?andb_true_r.
    + destruct (Nat.leb_spec 4 i) as [G|G]; rewrite ?andb_true_r, ?andb_false_r.
      * replace (4 - i)%nat with 0%nat by lia. cbn [skipn].
        destruct (Z.eqb_spec c f) as [->|N]; cbn [negb].
        -- rewrite IH by auto. replace (4 - S i)%nat with 0%nat by lia. cbn [skipn]. split; congruence.
        -- split; [discriminate|congruence].
      * rewrite IH by auto. replace (4 - i)%nat with (S (4 - S i)) by lia. cbn [skipn]. reflexivity.
    + destruct (Z.eqb_spec c f) as [->|N]; cbn [negb].
      * rewrite IH by auto. split; congruence.
      * split; [discriminate|congruence].
Qed.
Lemma compare_trailer_total skip chk : forall fil i, compare_trailer skip i chk fil <> EofNeedsMoreInput.
Proof.
  induction chk as [|c chk IH]; intros [|f fil] i; cbn [compare_trailer]; try discriminate.
  destruct (negb (c =? f) && _); [discriminate|apply IH].
Qed.
Lemma process_eof_success skip crc got :
  process_eof skip crc got = EofSuccess <->
  length got = 8%nat /\ (if skip then skipn 4 got = [97; 110; 115; 126] else got = trailer crc).
Proof.
  unfold process_eof. destruct (Nat.eqb_spec (length got) 8) as [L|L]; cbn [negb].
  - rewrite compare_trailer_ok by (rewrite L; reflexivity). rewrite checksum_bytes_trailer.
    destruct skip; [|intuition].
    change (4 - 0)%nat with 4%nat. change (skipn 4 (trailer crc)) with [97; 110; 115; 126]. intuition.
  - split; [discriminate|tauto].
Qed.
Lemma process_eof_needs skip crc got :
  process_eof skip crc got = EofNeedsMoreInput <-> length got <> 8%nat.
Proof.
  unfold process_eof. destruct (Nat.eqb_spec (length got) 8) as [L|L]; cbn [negb]; [|tauto].
  split; [intros E; now apply compare_trailer_total in E|tauto].
Qed.
