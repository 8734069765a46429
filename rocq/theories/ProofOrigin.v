(** The decompressor on any input: it takes everything it is offered, unless the container
    is complete or broken, and it wants space only when there is none left. *)
From Verif Require Import Prelude ProofList ProofZlist ModelAns ModelCdf ModelMux ModelCmd ModelCrc ModelHeader ModelRecode ModelPriors ModelCodec ModelLit ModelPm ModelTop ModelEnc ModelDec SpecLz SpecCrc SpecHeader SpecCheck SpecOrigin ProofCrc ProofCheck ThmHeader.

(** ** The reader of the container *)
Definition framed (W : list Z) (t : btd) (e : eofst) : Prop :=
  match e with
  | Running =>
      match t with
      | BNone => chunks W
      | BHeader0 _ => exists pre b, W = pre ++ [b] /\ chunks pre /\ b < 16
      | BHeader1 _ l => 0 <= l < 256 /\ exists pre b, W = pre ++ [b; l] /\ chunks pre /\ b < 16
      | BSome _ c => 0 <= c /\ forall x, zlen x = c -> chunks (W ++ x)
      end
  | EofStart => t = BNone /\ exists pre, W = pre ++ [255] /\ chunks pre
  | EofMid => t = BNone /\ exists pre, W = pre ++ [255; 254] /\ chunks pre
  | EofDone => True
  end.
Lemma two_byte_value l h : 0 <= l < 256 -> 0 <= h -> Z.lor l (Z.shiftl h 8) = l + 256 * h.
Proof.
  intros L H.
  assert (N : Z.land l (Z.shiftl h 8) = 0).
  { apply Z.bits_inj'. intros n Hn. rewrite Z.land_spec, Z.bits_0.
    destruct (Z.ltb_spec n 8) as [A|A].
    - rewrite (Z.shiftl_spec_low h 8 n A). apply andb_false_r.
    - assert (T : Z.testbit l n = false).
      { destruct (Z.eq_dec l 0) as [->|NZ]; [apply Z.bits_0|].
        apply Z.bits_above_log2; [lia|]. assert (Z.log2 l < 8) by (apply Z.log2_lt_pow2; [lia|]; change (2 ^ 8) with 256; lia). lia. }
      now rewrite T. }
  rewrite <- Z.lxor_lor by exact N. rewrite <- Z.add_nocarry_lxor by exact N. rewrite Z.shiftl_mul_pow2 by lia. change (2 ^ 8) with 256. lia.
Qed.
Lemma long_value b : 0 <= b -> Z.shiftl 1024 (Z.shiftl (Z.shiftr b 4) 1) mod 2 ^ 32 = (1024 * 4 ^ (b / 16)) mod 2 ^ 32.
Proof.
  intros B. f_equal. assert (0 <= b / 16) by (apply Z.div_pos; lia).
  rewrite Z.shiftr_div_pow2 by lia. change (2 ^ 4) with 16. rewrite (Z.shiftl_mul_pow2 _ 1) by lia. change (2 ^ 1) with 2.
  rewrite Z.shiftl_mul_pow2 by lia. f_equal. replace (b / 16 * 2) with (2 * (b / 16)) by lia. rewrite Z.pow_mul_r by lia. reflexivity.
Qed.
Lemma split_at (W input : list Z) n : W ++ input = (W ++ zfirst n input) ++ zskip n input.
Proof. now rewrite <- app_assoc, zfirst_skip. Qed.
Lemma deser_framed : forall fuel m input n m' W, framed W (to_deser m) (eof m) -> bytes input -> ~ broken_mark (W ++ input) ->
  deserialize_loop fuel m input = Some (n, m') ->
  framed (W ++ zfirst n input) (to_deser m') (eof m') /\ 0 <= n <= zlen input /\ (n = zlen input \/ is_done (eof m') = true).
Proof.
  induction fuel as [|fuel IH]; intros m input n m' W FR B NB; destruct input as [|b0 rest]; cbn [deserialize_loop].
  - intros E. assert (n = 0 /\ m' = m) as (-> & ->) by (split; congruence). rewrite zfirst_0, app_nil_r. change (zlen (@nil Z)) with 0. split; [exact FR|lia].
  - destruct (is_done (eof m)) eqn:DN; [|discriminate]. intros E. assert (n = 0 /\ m' = m) as (-> & ->) by (split; congruence).
    rewrite zfirst_0, app_nil_r. split; [exact FR|]. pose proof (zlen_nonneg (b0 :: rest)). split; [lia|now right].
  - intros E. assert (n = 0 /\ m' = m) as (-> & ->) by (split; congruence). rewrite zfirst_0, app_nil_r. change (zlen (@nil Z)) with 0. split; [exact FR|lia].
  - destruct (is_done (eof m)) eqn:DN.
    { intros E. assert (n = 0 /\ m' = m) as (-> & ->) by (split; congruence).
      rewrite zfirst_0, app_nil_r. split; [exact FR|]. pose proof (zlen_nonneg (b0 :: rest)). split; [lia|now right]. }
    pose proof (bytes_cons _ _ B) as (B0 & BR).
    assert (GO : forall k mm, 0 <= k <= zlen (b0 :: rest) -> framed (W ++ zfirst k (b0 :: rest)) (to_deser mm) (eof mm) ->
      (let? '(n, m) := deserialize_loop fuel mm (zskip k (b0 :: rest)) in Some (k + n, m)) = Some (n, m') ->
      framed (W ++ zfirst n (b0 :: rest)) (to_deser m') (eof m') /\ 0 <= n <= zlen (b0 :: rest) /\ (n = zlen (b0 :: rest) \/ is_done (eof m') = true)).
    { intros k mm Hk H1. destruct (deserialize_loop fuel mm (zskip k (b0 :: rest))) as [(n2, m2)|] eqn:E2; cbn [bind]; [|discriminate].
      intros E. assert (n = k + n2 /\ m' = m2) as (-> & ->) by (split; congruence).
      rewrite (split_at W _ k) in NB.
      destruct (IH _ _ _ _ _ H1 (bytes_zskip _ _ B) NB E2) as (F2 & R & K2). rewrite zlen_skip in R, K2 by lia.
      rewrite zfirst_plus by lia. rewrite app_assoc. split; [exact F2|]. split; [lia|]. destruct K2 as [K2|K2]; [left; lia|now right]. }
    pose proof (zlen_cons b0 rest) as ZC. pose proof (zlen_nonneg rest) as ZN. unfold byte in B0.
    destruct (eof m) eqn:EM; [| | |discriminate].
    + (* running *)
      cbn [framed] in FR. destruct (to_deser m) as [|s count|s|s lsb] eqn:T.
      * cbn [is_running negb]. rewrite orb_false_r.
        destruct (Z.eqb_spec b0 255) as [E255|N255].
        -- cbn [orb andb]. subst b0.
           unfold deserialize_eof. cbn [nth]. change (255 =? 255) with true. cbn match. cbn [skipn].
           destruct rest as [|c rest].
           { change (zlen (@nil Z) =? 0) with true. cbn match. intros E. assert (n = 1 /\ m' = set_eof m EofStart) as (-> & ->) by (split; congruence).
             cbn [set_eof to_deser eof]. rewrite T. change (zfirst 1 [255]) with [255]. cbn [framed]. split; [split; [reflexivity|exists W; split; [reflexivity|exact FR]]|].
             change (zlen [255]) with 1. lia. }
           destruct (Z.eq_dec c 254) as [->|NC].
           2: { exfalso. apply NB. exists W, (255 :: c :: rest). split; [reflexivity|]. split; [exact FR|]. left. now exists c, rest. }
           destruct (Z.eqb_spec (zlen (254 :: rest)) 0) as [Z0|_]. { rewrite zlen_cons in Z0. pose proof (zlen_nonneg rest). lia. }
           cbn [nth]. change (254 =? 254) with true. cbn match. cbn [skipn].
           destruct rest as [|c2 rest].
           { change (zlen (@nil Z) =? 0) with true. cbn match. change (1 + 1) with 2; intros E. assert (n = 2 /\ m' = set_eof m EofMid) as (-> & ->) by (split; congruence).
             cbn [set_eof to_deser eof]. rewrite T. change (zfirst 2 [255; 254]) with [255; 254]. cbn [framed]. split; [split; [reflexivity|exists W; split; [reflexivity|exact FR]]|].
             change (zlen [255; 254]) with 2. lia. }
           destruct (Z.eq_dec c2 255) as [->|NC].
           2: { exfalso. apply NB. exists W, (255 :: 254 :: c2 :: rest). split; [reflexivity|]. split; [exact FR|]. right. now exists c2, rest. }
           destruct (Z.eqb_spec (zlen (255 :: rest)) 0) as [Z0|_]. { rewrite zlen_cons in Z0. pose proof (zlen_nonneg rest). lia. }
           cbn [nth]. change (255 =? 255) with true. cbn match. change (1 + 1 + 1) with 3; intros E. assert (n = 3 /\ m' = set_eof m EofDone) as (-> & ->) by (split; congruence).
           cbn [set_eof to_deser eof]. rewrite T. split; [exact I|]. rewrite !zlen_cons in *. pose proof (zlen_nonneg rest). split; [lia|now right].
        -- rewrite andb_false_r. cbn match. destruct (Z.ltb_spec b0 16) as [L|L].
           ++ assert (ONE : (let? '(n0, m0) := deserialize_loop fuel (set_btd m (BHeader0 (Z.land b0 1))) rest in Some (1 + n0, m0)) = Some (n, m') ->
                framed (W ++ zfirst n (b0 :: rest)) (to_deser m') (eof m') /\ 0 <= n <= zlen (b0 :: rest) /\ (n = zlen (b0 :: rest) \/ is_done (eof m') = true)).
              { apply (GO 1); [lia|]. cbn [set_btd to_deser eof]. rewrite EM. cbn [framed]. exists W, b0. split; [reflexivity|]. split; [exact FR|exact L]. }
              destruct rest as [|b1 [|b2 rest]]; [exact ONE|exact ONE|].
              pose proof (bytes_cons _ _ BR) as (B1 & BR1). pose proof (bytes_cons _ _ BR1) as (B2 & BR2). unfold byte in B1, B2.
              apply (GO 3). { rewrite !zlen_cons. pose proof (zlen_nonneg rest). lia. }
              cbn [set_btd to_deser eof]. rewrite EM. cbn [framed]. rewrite two_byte_value by lia.
              split; [lia|]. intros x Lx. change (zfirst 3 (b0 :: b1 :: b2 :: rest)) with [b0; b1; b2]. rewrite <- app_assoc. cbn [app].
              apply short_chunk; [exact FR|exact L|lia].
           ++ apply (GO 1); [lia|]. cbn [set_btd to_deser eof]. rewrite EM. cbn [framed]. rewrite long_value by lia.
              split; [apply Z.mod_pos_bound; reflexivity|]. intros x Lx. change (zfirst 1 (b0 :: rest)) with [b0]. rewrite <- app_assoc. cbn [app].
              apply long_chunk; [exact FR|lia|exact Lx].
      * destruct FR as (C0 & FR). destruct (Z.ltb_spec (zlen (b0 :: rest)) count) as [L|L].
        -- destruct (push_data m s (b0 :: rest)) as [m1|] eqn:PD; cbn [bind]; [|discriminate]. apply push_data_same in PD. destruct PD as (PD1 & PD2).
           intros E. assert (n = zlen (b0 :: rest) /\ m' = set_btd m1 (BSome s (count - zlen (b0 :: rest)))) as (-> & ->) by (split; congruence).
           cbn [set_btd to_deser eof]. rewrite PD2, EM. rewrite zfirst_all by lia. cbn [framed]. split; [|lia].
           split; [lia|]. intros x Lx. rewrite <- app_assoc. apply FR. rewrite zlen_app. lia.
        -- destruct (push_data m s (zfirst count (b0 :: rest))) as [m1|] eqn:PD; cbn [bind]; [|discriminate]. apply push_data_same in PD. destruct PD as (PD1 & PD2).
           apply GO; [lia|]. cbn [set_btd to_deser eof]. rewrite PD2, EM. cbn [framed]. apply FR. rewrite zlen_first by lia. lia.
      * destruct FR as (pre & b & -> & CP & LB). apply (GO 1); [lia|]. cbn [set_btd to_deser eof]. rewrite EM. cbn [framed]. split; [lia|].
        exists pre, b. split; [now rewrite <- app_assoc|]. split; [exact CP|exact LB].
      * destruct FR as (L0 & pre & b & -> & CP & LB). apply (GO 1); [lia|]. cbn [set_btd to_deser eof]. rewrite EM. cbn [framed].
        rewrite two_byte_value by lia. split; [lia|]. intros x Lx. change (zfirst 1 (b0 :: rest)) with [b0]. rewrite <- !app_assoc. cbn [app].
        apply short_chunk; [exact CP|exact LB|lia].
    + destruct FR as (T & pre & -> & CP). rewrite T. cbn [is_running negb]. rewrite orb_true_r, andb_true_r.
      assert (b0 = 254) as ->.
      { destruct (Z.eq_dec b0 254) as [E|NE]; [exact E|]. exfalso. apply NB. exists pre, (255 :: b0 :: rest). split; [now rewrite <- app_assoc|]. split; [exact CP|]. left. now exists b0, rest. }
      change ((254 =? 255) || (254 =? 254) || (254 =? 255)) with true. cbn match. unfold deserialize_eof.
      destruct (Z.eqb_spec (zlen (254 :: rest)) 0) as [Z0|_]; [lia|]. cbn [nth skipn]. cbn [nth]. change (254 =? 254) with true. cbn match. cbn [skipn].
      destruct rest as [|c2 rest].
      { change (zlen (@nil Z) =? 0) with true. cbn match. change (0 + 1) with 1; intros E. assert (n = 1 /\ m' = set_eof m EofMid) as (-> & ->) by (split; congruence).
        cbn [set_eof to_deser eof]. rewrite T. change (zfirst 1 [254]) with [254]. cbn [framed]. split; [split; [reflexivity|exists pre; split; [now rewrite <- app_assoc|exact CP]]|].
        change (zlen [254]) with 1. lia. }
      destruct (Z.eq_dec c2 255) as [->|NC].
      2: { exfalso. apply NB. exists pre, (255 :: 254 :: c2 :: rest). split; [now rewrite <- app_assoc|]. split; [exact CP|]. right. now exists c2, rest. }
      destruct (Z.eqb_spec (zlen (255 :: rest)) 0) as [Z0|_]. { rewrite zlen_cons in Z0. pose proof (zlen_nonneg rest). lia. }
      cbn [nth]. change (255 =? 255) with true. cbn match. change (0 + 1 + 1) with 2; intros E. assert (n = 2 /\ m' = set_eof m EofDone) as (-> & ->) by (split; congruence).
      cbn [set_eof to_deser eof]. split; [exact I|]. rewrite !zlen_cons in *. pose proof (zlen_nonneg rest). split; [lia|now right].
    + destruct FR as (T & pre & -> & CP). rewrite T. cbn [is_running negb]. rewrite orb_true_r, andb_true_r.
      assert (b0 = 255) as ->.
      { destruct (Z.eq_dec b0 255) as [E|NE]; [exact E|]. exfalso. apply NB. exists pre, (255 :: 254 :: b0 :: rest). split; [now rewrite <- app_assoc|]. split; [exact CP|]. right. now exists b0, rest. }
      change ((255 =? 255) || (255 =? 254) || (255 =? 255)) with true. cbn match. unfold deserialize_eof.
      destruct (Z.eqb_spec (zlen (255 :: rest)) 0) as [Z0|_]; [lia|]. cbn [nth skipn]. change (255 =? 255) with true. cbn match.
      change (0 + 1) with 1; intros E. assert (n = 1 /\ m' = set_eof m EofDone) as (-> & ->) by (split; congruence).
      cbn [set_eof to_deser eof]. split; [exact I|]. split; [lia|now right].
Qed.

(** ** The ring buffer *)
Definition ring_ok (r : rcs) : Prop := 0 <= di r < zlen (ring r) /\ 0 <= oi r < zlen (ring r).
Lemma flush_ring r room res o r' : ring_ok r -> 0 <= room -> rflush r room = Some (res, o, r') ->
  ring_ok r' /\ (res = ONeedsMoreOutput -> zlen o = room).
Proof.
  intros (DI & OI) R. unfold rflush.
  match goal with |- bind ?a _ = _ -> _ => destruct a as [(o1, oi1)|] eqn:E1 end; cbn [bind]; [|discriminate].
  assert (L1 : 0 <= oi1 < zlen (ring r) /\ zlen o1 <= room /\ (zlen o1 = room \/ oi1 <= di r)).
  { destruct (Z.ltb_spec (di r) (oi r)).
    - destruct (slice _ _ _) as [x|] eqn:SL in E1; cbn [bind] in E1; [|discriminate].
      assert (o1 = x) as -> by congruence. apply slice_len in SL. destruct SL as (S1 & S2).
      match type of E1 with Some (_, ?y) = _ => assert (oi1 = y) as -> by congruence end.
      destruct (Z.eqb_spec (oi r + Z.min (zlen (ring r) - oi r) room) (zlen (ring r))); lia.
    - assert (o1 = [] /\ oi1 = oi r) as (-> & ->) by (split; congruence). change (zlen (@nil Z)) with 0. lia. }
  clear E1. destruct L1 as (O1 & L1 & C1).
  match goal with |- bind ?a _ = _ -> _ => destruct a as [(o2, oi2)|] eqn:E2 end; cbn [bind]; [|discriminate].
  assert (L2 : 0 <= oi2 < zlen (ring r) /\ (zlen o1 + zlen o2 = room \/ oi2 = di r)).
  { destruct (Z.eqb_spec (zlen o1) room) as [EE|EE]; cbn [negb andb] in E2.
    - assert (o2 = [] /\ oi2 = oi1) as (-> & ->) by (split; congruence). change (zlen (@nil Z)) with 0. lia.
    - destruct (Z.ltb_spec oi1 (di r)).
      + destruct (slice _ _ _) as [x|] eqn:SL in E2; cbn [bind] in E2; [|discriminate].
        assert (o2 = x) as -> by congruence. apply slice_len in SL. destruct SL as (S1 & S2).
        match type of E2 with Some (_, ?y) = _ => assert (oi2 = y) as -> by congruence end.
        destruct (Z.eqb_spec (oi1 + Z.min (di r - oi1) (room - zlen o1)) (zlen (ring r))); lia.
      + assert (o2 = [] /\ oi2 = oi1) as (-> & ->) by (split; congruence). change (zlen (@nil Z)) with 0. lia. }
  clear E2. destruct L2 as (O2 & C2). intros E.
  match type of E with Some (?a, ?b, ?c) = _ => assert (res = a /\ o = b /\ r' = c) as (-> & -> & ->) by (repeat split; congruence) end.
  split; [split; cbn [di oi ring]; assumption|]. rewrite zlen_app. destruct (Z.eqb_spec oi2 (di r)); [discriminate|]. intros _. lia.
Qed.
Lemma sub_ring r s : ring_ok r -> ring_ok (set_sub r s).
Proof. exact (fun H => H). Qed.
Lemma copy_to_ring_ok r data n r' : ring_ok r -> copy_to_ring r data = Some (n, r') -> ring_ok r'.
Proof.
  intros (DI & OI). unfold copy_to_ring. set (d := zfirst _ data).
  assert (LD : zlen d <= space_left r).
  { unfold d. unfold space_left. pose proof (zlen_nonneg data). destruct (Z.leb_spec (oi r) (di r)); rewrite zlen_first by lia; lia. }
  pose proof (zlen_nonneg d) as LN.
  set (a := Z.min (zlen d) (zlen (ring r) - di r)). unfold assert.
  destruct (Z.leb_spec (di r + a) (zlen (ring r))); [|discriminate].
  assert (A0 : 0 <= a <= zlen d) by (unfold a; lia).
  assert (P1 : zlen (put_at (ring r) (di r) (zfirst a d)) = zlen (ring r)).
  { apply zlen_put; [lia|]. rewrite zlen_first by lia. lia. }
  destruct (Z.eqb_spec (di r + a) (zlen (ring r))) as [EQ|NE].
  - assert (L2 : zlen (zskip a d) = zlen d - a) by (rewrite zlen_skip by lia; lia).
    destruct (Z.leb_spec (zlen (zskip a d)) (zlen (ring r))); [|discriminate]. intros E.
    match type of E with Some (_, ?c) = _ => assert (r' = c) as -> by congruence end.
    unfold ring_ok. cbn [set_pos di oi ring]. rewrite zlen_put by (rewrite ?P1; lia). rewrite P1, L2.
    unfold space_left in LD. destruct (Z.leb_spec (oi r) (di r)); lia.
  - intros E. match type of E with Some (_, ?c) = _ => assert (r' = c) as -> by congruence end.
    unfold ring_ok. cbn [set_pos di oi ring]. rewrite P1. lia.
Qed.
Lemma copy_some_ok r dist want k r' : ring_ok r -> copy_some r dist want = Some (Some (k, r')) -> ring_ok r'.
Proof.
  intros (DI & OI). unfold copy_some.
  match goal with |- match ?x with _ => _ end = _ -> _ => destruct x as [src|]; [|discriminate] end.
  unfold assert. destruct (Z.leb_spec src (zlen (ring r))); [|discriminate].
  match goal with |- bind ?a _ = _ -> _ => destruct a as [(t, data)|] eqn:E1 end; cbn [bind]; [|discriminate].
  assert (T : 0 <= t /\ zlen data = t).
  { destruct (src <? di r).
    - destruct (_ <=? _) in E1; [|discriminate]. destruct (slice _ _ _) as [x|] eqn:SL in E1; cbn [bind] in E1; [|discriminate].
      apply slice_len in SL. assert (data = x) as -> by congruence. match type of E1 with Some (?y, _) = _ => assert (t = y) as -> by congruence end. lia.
    - destruct (slice _ _ _) as [x|] eqn:SL in E1; cbn [bind] in E1; [|discriminate].
      apply slice_len in SL. assert (data = x) as -> by congruence. match type of E1 with Some (?y, _) = _ => assert (t = y) as -> by congruence end. lia. }
  clear E1. destruct (Z.leb_spec (di r + t) (zlen (ring r))); [|discriminate]. intros E.
  match type of E with Some (Some (_, ?c)) = _ => assert (r' = c) as -> by congruence end.
  unfold ring_ok. cbn [set_pos di oi ring]. rewrite zlen_put by lia. destruct (Z.eqb_spec (di r + t) (zlen (ring r))); lia.
Qed.
Lemma repeat_ok : forall n r rep b r', ring_ok r -> repeat_loop n r rep = Some (b, r') -> ring_ok r'.
Proof.
  induction n as [|n IH]; intros r rep b r' OK; cbn [repeat_loop].
  - intros E. assert (r' = r) as -> by congruence. exact OK.
  - destruct (copy_to_ring r rep) as [(k, r1)|] eqn:C; cbn [bind]; [|discriminate]. apply copy_to_ring_ok in C; [|exact OK].
    destruct (_ =? _).
    + intros E. apply IH in E; [exact E|]. now apply sub_ring.
    + intros E. match type of E with Some (_, ?c) = _ => assert (r' = c) as -> by congruence end. now apply sub_ring.
Qed.
Lemma command_ring dict r c res r' : ring_ok r -> parse_command dict r c = Some (res, r') -> ring_ok r'.
Proof.
  intros OK. destruct c as [dist num|ws wid tr fs|data he| | | | ]; cbn [parse_command];
    try (intros E; assert (r' = r) as -> by congruence; exact OK).
  - unfold parse_copy, assert. destruct (_ <=? num); [|discriminate]. destruct (_ && _).
    + destruct (copy_decoded r dist dist) as [rep|]; cbn [bind]; [|discriminate]. destruct (negb _); [|discriminate].
      destruct (repeat_loop _ r rep) as [(b, r1)|] eqn:RL; cbn [bind]; [|discriminate]. apply repeat_ok in RL; [|exact OK].
      destruct (negb b). { intros E. assert (r' = r1) as -> by congruence. exact RL. }
      destruct (copy_to_ring r1 _) as [(k, r2)|] eqn:C; cbn [bind]; [|discriminate]. apply copy_to_ring_ok in C; [|exact RL].
      intros E. match type of E with Some (_, ?c) = _ => assert (r' = c) as -> by congruence end. now apply sub_ring.
    + destruct (copy_some r dist _) as [[(k, r1)|]|] eqn:C; cbn [bind]; [| |discriminate].
      * apply copy_some_ok in C; [|exact OK]. intros E. match type of E with Some (_, ?c) = _ => assert (r' = c) as -> by congruence end. now apply sub_ring.
      * intros E. assert (r' = r) as -> by congruence. exact OK.
  - unfold parse_dictionary. destruct (dict ws wid tr) as [word|]; cbn [bind]; [|discriminate].
    destruct (_ <? _). { intros E. assert (r' = r) as -> by congruence. exact OK. }
    destruct (_ && _). { intros E. assert (r' = r) as -> by congruence. exact OK. }
    match goal with |- bind ?a _ = _ -> _ => destruct a as [r1|] eqn:E1 end; cbn [bind]; [|discriminate].
    intros E. match type of E with Some (_, ?c) = _ => assert (r' = c) as -> by congruence end. apply sub_ring.
    unfold assert in E1. destruct (negb _).
    + destruct (_ =? _) in E1; [|discriminate]. assert (r1 = r) as -> by congruence. exact OK.
    + destruct (copy_to_ring r word) as [(k, r2)|] eqn:C in E1; cbn [bind] in E1; [|discriminate]. apply copy_to_ring_ok in C; [|exact OK].
      destruct (_ =? _) in E1; [|discriminate]. assert (r1 = r2) as -> by congruence. exact C.
  - unfold parse_literal. destruct (_ <? _). { intros E. assert (r' = r) as -> by congruence. exact OK. }
    destruct (copy_to_ring r _) as [(k, r2)|] eqn:C; cbn [bind]; [|discriminate]. apply copy_to_ring_ok in C; [|exact OK].
    intros E. match type of E with Some (_, ?c) = _ => assert (r' = c) as -> by congruence end. now apply sub_ring.
Qed.
Lemma loop_ring dict c : forall fuel r room res o r', ring_ok r -> 0 <= room -> encode_loop fuel dict r c room = Some (res, o, r') ->
  ring_ok r' /\ zlen o <= room /\ (res = Some ONeedsMoreOutput -> zlen o = room).
Proof.
  induction fuel as [|fuel IH]; intros r room res o r' OK R; cbn [encode_loop]; [discriminate|].
  destruct (parse_command dict r c) as [(pr, r1)|] eqn:P; cbn [bind]; [|discriminate]. apply command_ring in P; [|exact OK].
  destruct pr.
  - intros E. assert (res = None /\ o = [] /\ r' = r1) as (-> & -> & ->) by (repeat split; congruence). split; [exact P|]. split; [exact R|discriminate].
  - destruct (rflush r1 room) as [((fr, o1), r2)|] eqn:F; cbn [bind]; [|discriminate].
    pose proof (flush_room _ _ _ _ _ R F) as L. apply flush_ring in F; [|exact P|exact R]. destruct F as (F1 & F2). destruct fr.
    + destruct (encode_loop fuel dict r2 c (room - zlen o1)) as [((res2, o2), r3)|] eqn:E2; cbn [bind]; [|discriminate].
      apply IH in E2; [|exact F1|lia]. destruct E2 as (G1 & G2 & G3).
      intros E. assert (res = res2 /\ o = o1 ++ o2 /\ r' = r3) as (-> & -> & ->) by (repeat split; congruence). rewrite zlen_app.
      split; [exact G1|]. split; [lia|]. intros H. specialize (G3 H). lia.
    + intros E. assert (res = Some ONeedsMoreOutput /\ o = o1 /\ r' = r2) as (-> & -> & ->) by (repeat split; congruence).
      split; [exact F1|]. split; [exact L|]. intros _. now apply F2.
    + intros E. assert (res = Some OFailure /\ o = o1 /\ r' = r2) as (-> & -> & ->) by (repeat split; congruence).
      split; [exact F1|]. split; [exact L|]. intros H. congruence.
  - intros E. assert (res = Some OFailure /\ o = [] /\ r' = r1) as (-> & -> & ->) by (repeat split; congruence). split; [exact P|]. split; [exact R|]. intros H. congruence.
Qed.
Lemma cmd_ring dict c fuel r room res o r' : ring_ok r -> 0 <= room -> encode_cmd fuel dict r c room = Some (res, o, r') ->
  ring_ok r' /\ zlen o <= room /\ (res = ONeedsMoreOutput -> zlen o = room).
Proof.
  intros OK R. unfold encode_cmd. destruct (encode_loop fuel dict r c room) as [((e, o1), r1)|] eqn:E1; cbn [bind]; [|discriminate].
  apply loop_ring in E1; [|exact OK|exact R]. destruct E1 as (F1 & F2 & F3). destruct e as [e|].
  - intros E. assert (res = e /\ o = o1 /\ r' = r1) as (-> & -> & ->) by (repeat split; congruence). split; [exact F1|]. split; [exact F2|]. intros ->. now apply F3.
  - destruct (_ =? 0).
    + intros E. match type of E with Some (?a, ?b, ?c) = _ => assert (res = a /\ o = b /\ r' = c) as (-> & -> & ->) by (repeat split; congruence) end.
      split; [now apply sub_ring|]. split; [exact F2|discriminate].
    + destruct (rflush r1 (room - zlen o1)) as [((fr, o2), r2)|] eqn:F; cbn [bind]; [|discriminate].
      pose proof (flush_room r1 (room - zlen o1) _ _ _ ltac:(lia) F) as L. apply flush_ring in F; [|exact F1|lia]. destruct F as (G1 & G2).
      destruct fr; intros E;
        match type of E with Some (?a, ?b, ?c) = _ => assert (res = a /\ o = b /\ r' = c) as (-> & -> & ->) by (repeat split; congruence) end;
        rewrite zlen_app; (split; [try apply sub_ring; exact G1|]); (split; [lia|]); intros H; try discriminate. specialize (G2 eq_refl). lia.
Qed.
