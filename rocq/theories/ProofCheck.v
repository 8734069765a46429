(** The decompressor on any input: what is consumed, what is stored, what success means. *)
From Verif Require Import Prelude ProofList ProofZlist ModelAns ModelCdf ModelMux ModelCmd ModelCrc ModelHeader ModelRecode ModelPriors ModelCodec ModelLit ModelPm ModelTop ModelEnc ModelDec SpecLz SpecCrc SpecHeader SpecCheck ProofCrc ProofHeader.

(** ** The reader of the container *)
Definition btd_ok (t : btd) : Prop := match t with BSome _ c => 0 <= c | BHeader1 _ l => 0 <= l | _ => True end.
Lemma bytes_cons b l : bytes (b :: l) -> byte b /\ bytes l.
Proof. intros H. now apply Forall_cons_iff in H. Qed.
Lemma bytes_zskip n l : bytes l -> bytes (zskip n l).
Proof. apply bytes_skipn. Qed.
Lemma bytes_zfirst n l : bytes l -> bytes (zfirst n l).
Proof. apply bytes_firstn. Qed.
Lemma two_bytes a b : 0 <= a -> 0 <= b -> 0 <= Z.lor a (Z.shiftl b 8) + 1.
Proof.
  intros A B. assert (0 <= Z.lor a (Z.shiftl b 8)); [|lia].
  apply Z.lor_nonneg. split; [exact A|]. now apply Z.shiftl_nonneg.
Qed.
Lemma push_data_same m s d m' : push_data m s d = Some m' -> to_deser m' = to_deser m /\ eof m' = eof m.
Proof.
  unfold push_data. destruct (push_buf (getb m s) d); cbn [bind]; [|discriminate].
  intros E. assert (m' = setb m s m0) by congruence. subst m'. unfold setb. destruct (s =? 0); split; reflexivity.
Qed.
Lemma eof_range e l : l <> [] -> let '(n, _) := deserialize_eof e l in 0 <= n <= zlen l.
Proof.
  intros NE. unfold deserialize_eof. destruct l as [|a [|b [|c l]]]; [congruence| | |];
    destruct e; cbn [nth skipn zlen length]; unfold zlen; cbn [length]; rewrite ?Nat2Z.inj_succ;
    repeat match goal with |- context [if ?x then _ else _] => destruct x eqn:? end;
    cbn [length] in *; rewrite ?Nat2Z.inj_succ in *; try lia; repeat match goal with H : (_ =? _) = true |- _ => apply Z.eqb_eq in H end; try lia.
Qed.
Lemma deserialize_any : forall fuel m input n m', btd_ok (to_deser m) -> bytes input ->
  deserialize_loop fuel m input = Some (n, m') -> 0 <= n <= zlen input /\ btd_ok (to_deser m').
Proof.
  induction fuel as [|fuel IH]; intros m input n m' K B; destruct input as [|b0 rest]; cbn [deserialize_loop].
  - intros E. assert (n = 0 /\ m' = m) as (-> & ->) by (split; congruence). split; [|exact K]. change (zlen (@nil Z)) with 0. lia.
  - destruct (is_done (eof m)); [|discriminate]. intros E. assert (n = 0 /\ m' = m) as (-> & ->) by (split; congruence).
    split; [|exact K]. pose proof (zlen_nonneg (b0 :: rest)). lia.
  - intros E. assert (n = 0 /\ m' = m) as (-> & ->) by (split; congruence). split; [|exact K]. change (zlen (@nil Z)) with 0. lia.
  - destruct (is_done (eof m)).
    { intros E. assert (n = 0 /\ m' = m) as (-> & ->) by (split; congruence).
      split; [|exact K]. pose proof (zlen_nonneg (b0 :: rest)). lia. }
    pose proof (bytes_cons _ _ B) as (B0 & BR).
    assert (GO : forall k mm l, 0 <= k -> btd_ok (to_deser mm) -> bytes l -> k + zlen l <= zlen (b0 :: rest) ->
      (let? '(n, m) := deserialize_loop fuel mm l in Some (k + n, m)) = Some (n, m') ->
      0 <= n <= zlen (b0 :: rest) /\ btd_ok (to_deser m')).
    { intros k mm l Hk H1 H2 H3. destruct (deserialize_loop fuel mm l) as [(n2, m2)|] eqn:E2; cbn [bind]; [|discriminate].
      intros E. assert (n = k + n2 /\ m' = m2) as (-> & ->) by (split; congruence).
      destruct (IH _ _ _ _ H1 H2 E2) as (R & K2). split; [lia|exact K2]. }
    pose proof (zlen_cons b0 rest) as ZC. pose proof (zlen_nonneg rest) as ZN.
    destruct (to_deser m) as [|s count|s|s lsb] eqn:T.
    + destruct (((b0 =? 255) || (b0 =? 254) || (b0 =? 255)) && ((b0 =? 255) || negb (is_running (eof m)))).
      * pose proof (eof_range (eof m) (b0 :: rest) ltac:(discriminate)) as R.
        destruct (deserialize_eof (eof m) (b0 :: rest)) as (k, e). intros E.
        assert (n = k /\ m' = set_eof m e) as (-> & ->) by (split; congruence). split; [exact R|].
        cbn [set_eof to_deser]. rewrite T. exact I.
      * destruct (b0 <? 16).
        -- destruct rest as [|b1 [|b2 rest]].
           ++ apply GO; [lia|exact I|exact BR|lia].
           ++ apply GO; [lia|exact I|exact BR|lia].
           ++ pose proof (bytes_cons _ _ BR) as (B1 & BR1). pose proof (bytes_cons _ _ BR1) as (B2 & BR2).
              pose proof (zlen_cons b1 (b2 :: rest)). pose proof (zlen_cons b2 rest).
              apply GO; [lia| |exact BR2|lia].
              cbn [set_btd to_deser btd_ok]. unfold byte in *. apply two_bytes; lia.
        -- apply GO; [lia| |exact BR|lia]. cbn [set_btd to_deser btd_ok].
           match goal with |- 0 <= ?x mod ?y => pose proof (Z.mod_pos_bound x y ltac:(reflexivity)) end. lia.
    + cbn [btd_ok] in K. destruct (Z.ltb_spec (zlen (b0 :: rest)) count) as [L|L].
      * destruct (push_data m s (b0 :: rest)) as [m1|]; cbn [bind]; [|discriminate].
        intros E. assert (n = zlen (b0 :: rest) /\ m' = set_btd m1 (BSome s (count - zlen (b0 :: rest)))) as (-> & ->) by (split; congruence).
        split; [lia|]. cbn [set_btd to_deser btd_ok]. lia.
      * destruct (push_data m s (zfirst count (b0 :: rest))) as [m1|]; cbn [bind]; [|discriminate].
        apply GO; [exact K|exact I|now apply bytes_zskip|]. rewrite zlen_skip by exact K. lia.
    + apply GO; [lia| |exact BR|lia]. cbn [set_btd to_deser btd_ok]. unfold byte in B0. lia.
    + apply GO; [lia| |exact BR|lia]. cbn [set_btd to_deser btd_ok]. unfold byte in B0. cbn [btd_ok] in K. apply two_bytes; lia.
Qed.
Lemma deserialize_done m input : is_done (eof m) = true -> deserialize m input = Some (0, m).
Proof.
  intros E. unfold deserialize. generalize (2 * length input + 2)%nat. intros f.
  destruct input as [|b l], f; cbn [deserialize_loop]; rewrite ?E; reflexivity.
Qed.

(** ** Output space *)
Lemma slice_len l a n x : slice l a n = Some x -> 0 <= n /\ zlen x = n.
Proof.
  unfold slice. destruct (Z.leb_spec 0 a), (Z.leb_spec 0 n), (Z.leb_spec (a + n) (zlen l)); cbn [andb]; try discriminate.
  intros E. assert (x = zfirst n (zskip a l)) as -> by congruence. split; [lia|].
  rewrite zlen_first, zlen_skip by lia. lia.
Qed.
Lemma flush_room r room res o r' : 0 <= room -> rflush r room = Some (res, o, r') -> zlen o <= room.
Proof.
  intros R. unfold rflush.
  match goal with |- bind ?a _ = _ -> _ => destruct a as [(o1, oi1)|] eqn:E1 end; cbn [bind]; [|discriminate].
  assert (L1 : zlen o1 <= room).
  { destruct (di r <? oi r).
    - destruct (slice _ _ _) as [x|] eqn:S in E1; cbn [bind] in E1; [|discriminate].
      assert (o1 = x) as -> by congruence. apply slice_len in S. lia.
    - assert (o1 = []) as -> by congruence. exact R. }
  match goal with |- bind ?a _ = _ -> _ => destruct a as [(o2, oi2)|] eqn:E2 end; cbn [bind]; [|discriminate].
  intros E. assert (o = o1 ++ o2) as -> by congruence. rewrite zlen_app.
  destruct (negb (zlen o1 =? room) && (oi1 <? di r)).
  - destruct (slice _ _ _) as [x|] eqn:S in E2; cbn [bind] in E2; [|discriminate].
    assert (o2 = x) as -> by congruence. apply slice_len in S. lia.
  - assert (o2 = []) as -> by congruence. change (zlen (@nil Z)) with 0. lia.
Qed.
Lemma loop_room dict c : forall fuel r room res o r', 0 <= room -> encode_loop fuel dict r c room = Some (res, o, r') -> zlen o <= room.
Proof.
  induction fuel as [|fuel IH]; intros r room res o r' R; cbn [encode_loop]; [discriminate|].
  destruct (parse_command dict r c) as [(pr, r1)|]; cbn [bind]; [|discriminate].
  destruct pr.
  - intros E. assert (o = []) as -> by congruence. exact R.
  - destruct (rflush r1 room) as [((fr, o1), r2)|] eqn:F; cbn [bind]; [|discriminate].
    pose proof (flush_room _ _ _ _ _ R F) as L. destruct fr.
    + destruct (encode_loop fuel dict r2 c (room - zlen o1)) as [((res2, o2), r3)|] eqn:E2; cbn [bind]; [|discriminate].
      apply IH in E2; [|lia]. intros E. assert (o = o1 ++ o2) as -> by congruence. rewrite zlen_app. lia.
    + intros E. assert (o = o1) as -> by congruence. exact L.
    + intros E. assert (o = o1) as -> by congruence. exact L.
  - intros E. assert (o = []) as -> by congruence. exact R.
Qed.
Lemma cmd_room dict c fuel r room res o r' : 0 <= room -> encode_cmd fuel dict r c room = Some (res, o, r') -> zlen o <= room.
Proof.
  intros R. unfold encode_cmd. destruct (encode_loop fuel dict r c room) as [((e, o1), r1)|] eqn:E1; cbn [bind]; [|discriminate].
  apply loop_room in E1; [|exact R]. destruct e as [e|].
  - intros E. assert (o = o1) as -> by congruence. exact E1.
  - destruct (_ =? 0).
    + intros E. assert (o = o1) as -> by congruence. exact E1.
    + destruct (rflush r1 (room - zlen o1)) as [((fr, o2), r2)|] eqn:F; cbn [bind]; [|discriminate].
      apply flush_room in F; [|lia]. destruct fr; intros E; assert (o = o1 ++ o2) as -> by congruence; rewrite zlen_app; lia.
Qed.

(** ** What decoding does not touch *)
Definition kept (m : main) := (m_crc m, m_trailer m, eof (m_mux m), to_deser (m_mux m)).
Lemma kept_buf m b o : kept (m_set_buf m b o) = kept m.
Proof. reflexivity. Qed.
Lemma kept_coder m d b : kept (m_set_coder m d b) = kept m.
Proof. reflexivity. Qed.
Lemma fill_kept m m' ok : lit_fill m = Some (m', ok) -> kept m' = kept m.
Proof.
  unfold lit_fill. destruct (fill_from _ _) as [((d, b), k)|]; cbn [bind]; [|discriminate].
  intros E. assert (m' = m_set_coder m d b) as -> by congruence. apply kept_coder.
Qed.
Lemma nibble_kept m m' : lit_nibble m = Some m' -> kept m' = kept m.
Proof.
  unfold lit_nibble. destruct (m_lit m) as [(safe, s)|]; [|discriminate].
  destruct (lit_node _ _ _ _) as [[] cdf k| |]; try discriminate.
  destruct (get_sym _ _) as [(v, d)|]; cbn [bind]; [|discriminate].
  destruct (k v) as [((b, l), s')| |]; try discriminate.
  intros E. assert (m' = m_set_nib m d l (Some (safe, s'))) as -> by congruence. reflexivity.
Qed.
Lemma safe_kept m : kept (set_safe m) = kept m.
Proof. reflexivity. Qed.
Lemma content_kept : forall fuel m m' ok, content fuel m = Some (m', ok) -> kept m' = kept m.
Proof.
  induction fuel as [|fuel IH]; intros m m' ok; cbn [content]; [discriminate|].
  destruct (lit_fill m) as [(m1, ok1)|] eqn:F1; cbn [bind]; [|discriminate]. apply fill_kept in F1.
  destruct (negb ok1). { intros E. assert (m' = m1) as -> by congruence. exact F1. }
  destruct (m_lit m1) as [([|], s)|]; [| |discriminate].
  - destruct (lit_nibble m1) as [m2|] eqn:N1; cbn [bind]; [|discriminate]. apply nibble_kept in N1.
    destruct (lit_fill m2) as [(m3, ok3)|] eqn:F3; cbn [bind]; [|discriminate]. apply fill_kept in F3.
    unfold assert. destruct ok3; [|discriminate].
    destruct (lit_nibble m3) as [m4|] eqn:N4; cbn [bind]; [|discriminate]. apply nibble_kept in N4.
    destruct (ready m3 1 <? 16).
    + destruct (lit_done m4); intros E; [assert (m' = m4) as -> by congruence; congruence|].
      apply IH in E. rewrite safe_kept in E. congruence.
    + destruct (lit_fill m4) as [(m5, ok5)|] eqn:F5; cbn [bind]; [|discriminate]. apply fill_kept in F5.
      destruct ok5; [|discriminate].
      destruct (lit_done m5); intros E; [assert (m' = m5) as -> by congruence; congruence|]. apply IH in E. congruence.
  - destruct (lit_nibble m1) as [m2|] eqn:N1; cbn [bind]; [|discriminate]. apply nibble_kept in N1.
    destruct (match m_lit m2 with Some (_, s0) => match l_sub s0 with LLower _ _ => true | _ => false end | None => false end).
    { intros E. apply IH in E. congruence. }
    destruct (lit_fill m2) as [(m3, ok3)|] eqn:F3; cbn [bind]; [|discriminate]. apply fill_kept in F3.
    destruct (lit_done m3). { intros E. assert (m' = m3) as -> by congruence. congruence. }
    destruct ok3; intros E. { apply IH in E. congruence. }
    assert (m' = set_safe m3) as -> by congruence. rewrite safe_kept. congruence.
Qed.
Lemma take_back_kept : forall bufs q m q' m' need, take_back bufs q m = Some (q', m', need) -> kept m' = kept m.
Proof.
  induction bufs as [|dat bufs IH]; intros q m q' m' need; cbn [take_back].
  - intros E. assert (m' = m) as -> by congruence. reflexivity.
  - unfold assert. destruct (1 <=? m_out m); [|discriminate].
    destruct (q_push q (buf0 (m_mux m))) as [q1|];
      match goal with |- bind (take_back bufs ?a ?b) _ = _ -> _ => destruct (take_back bufs a b) as [((q2, m2), need2)|] eqn:E2 end;
      cbn [bind]; try discriminate; apply IH in E2; rewrite kept_buf in E2;
      intros E; assert (m' = m2) as -> by congruence; exact E2.
Qed.
Lemma pull_kept q m q' m' need : pull_commands q m = Some (q', m', need) -> kept m' = kept m.
Proof.
  unfold pull_commands. destruct (m_cmds m).
  - destruct (m_eof m). { intros E. assert (m' = m) as -> by congruence. reflexivity. }
    unfold assert. destruct (_ && _); [|discriminate].
    match goal with |- (if ?x then _ else _) = _ -> _ => destruct x end; [|discriminate].
    intros E. apply take_back_kept in E. rewrite E. reflexivity.
  - intros E. assert (m' = m) as -> by congruence. reflexivity.
Qed.
Lemma take_command_kept c q m q' m' r : take_command c q m = Some (q', m', r) -> kept m' = kept m.
Proof.
  destruct c; cbn [take_command];
    try (intros E; match type of E with Some (_, ?x, _) = _ => assert (m' = x) as -> by congruence end; reflexivity).
  destruct (obs_prediction_mode _ _) as [l| |]; [| |discriminate].
  - unfold assert. destruct (_ <? _); [|discriminate].
    intros E; match type of E with Some (_, ?x, _) = _ => assert (m' = x) as -> by congruence end; reflexivity.
  - intros E; match type of E with Some (_, ?x, _) = _ => assert (m' = x) as -> by congruence end; reflexivity.
Qed.
Lemma take_command_result c q m q' m' r : take_command c q m = Some (q', m', r) -> r <> Some (Processed DSuccess).
Proof.
  destruct c; cbn [take_command]; try (intros E; congruence).
  destruct (obs_prediction_mode _ _) as [l| |]; [| |discriminate].
  - unfold assert. destruct (_ <? _); [|discriminate]. congruence.
  - congruence.
Qed.
Lemma finish_kept skip m room o m' r : 0 <= room -> finish skip m room = Some (o, m', r) ->
  kept m' = kept m /\ zlen o <= room /\ (r = DSuccess -> process_eof skip (m_crc m') (m_trailer m') = EofSuccess).
Proof.
  intros R. unfold finish. destruct (rflush (m_rec m) room) as [((res, o1), x)|] eqn:F; cbn [bind]; [|discriminate].
  apply flush_room in F; [|exact R]. destruct res.
  - intros E. assert (m' = m_set_rec m x (m_pop m) /\ o = o1) as (-> & ->) by (split; congruence).
    split; [reflexivity|]. split; [exact F|]. cbn [m_set_rec m_crc m_trailer] in *.
    intros ->. destruct (process_eof skip (m_crc m) (m_trailer m)); congruence.
  - intros E. assert (m' = m_set_rec m x (m_pop m) /\ o = o1 /\ r = DNeedOut) as (-> & -> & ->) by (split; [|split]; congruence).
    split; [reflexivity|]. split; [exact F|discriminate].
  - intros E. assert (m' = m_set_rec m x (m_pop m) /\ o = o1 /\ r = DFail) as (-> & -> & ->) by (split; [|split]; congruence).
    split; [reflexivity|]. split; [exact F|discriminate].
Qed.

Section Any.
Context (dict : dict_fn) (wl : word_len_fn) (D : dims) (skip : bool).
Definition good_end (m : main) (r : presult) : Prop :=
  r = Processed DSuccess -> process_eof skip (m_crc m) (m_trailer m) = EofSuccess.
Lemma output_any : forall fuel q m room o q' m' r, 0 <= room ->
  process_output dict skip fuel q m room = Some (o, q', m', r) ->
  kept m' = kept m /\ zlen o <= room /\ good_end m' r.
Proof.
  induction fuel as [|fuel IH]; intros q m room o q' m' r R; cbn [process_output]; [discriminate|].
  match goal with |- bind ?a _ = _ -> _ => destruct a as [(m1, ok)|] eqn:E1 end; cbn [bind]; [|discriminate].
  assert (K1 : kept m1 = kept m).
  { destruct (m_lit m) as [ls|] eqn:ML in E1.
    - destruct (content _ m) as [(m0, ok0)|] eqn:C in E1; cbn [bind] in E1; [|discriminate]. apply content_kept in C.
      destruct ok0.
      + destruct (m_lit m0) as [(sf, s)|]; [|discriminate].
        match type of E1 with Some (?x, _) = _ => assert (m1 = x) as -> by congruence end. exact C.
      + assert (m1 = m0) as -> by congruence. exact C.
    - assert (m1 = m) as -> by congruence. reflexivity. }
  clear E1. destruct (negb ok).
  { intros E. assert (o = [] /\ m' = m1 /\ r = Processed DNeedIn) as (-> & -> & ->) by (split; [|split]; congruence).
    split; [exact K1|]. split; [exact R|discriminate]. }
  match goal with |- bind ?a _ = _ -> _ => destruct a as [((o1, m2), rr)|] eqn:E2 end; cbn [bind]; [|discriminate].
  assert (K2 : kept m2 = kept m1 /\ zlen o1 <= room).
  { destruct (m_pop m1) as [c|].
    - destruct (encode_cmd _ _ _ _ _) as [((r0, o0), x)|] eqn:C in E2; cbn [bind] in E2; [|discriminate].
      apply cmd_room in C; [|exact R].
      match type of E2 with Some (_, ?x, _) = _ => assert (m2 = x /\ o1 = o0) as (-> & ->) by (split; congruence) end. split; [reflexivity|exact C].
    - assert (m2 = m1 /\ o1 = []) as (-> & ->) by (split; congruence). split; [reflexivity|exact R]. }
  clear E2. destruct K2 as (K2 & L1). destruct rr.
  - destruct (pull_commands q m2) as [((q3, m3), need)|] eqn:P; cbn [bind]; [|discriminate]. apply pull_kept in P.
    destruct need.
    { intros E. assert (o = o1 /\ m' = m3 /\ r = Processed DNeedIn) as (-> & -> & ->) by (split; [|split]; congruence).
      split; [congruence|]. split; [exact L1|discriminate]. }
    destruct (m_cmds m3) as [|c cs].
    + destruct (m_eof m3).
      * destruct (finish skip m3 (room - zlen o1)) as [((o2, m4), r4)|] eqn:F; cbn [bind]; [|discriminate].
        apply finish_kept in F; [|lia]. destruct F as (K4 & L4 & G4).
        intros E. assert (o = o1 ++ o2 /\ m' = m4 /\ r = Processed r4) as (-> & -> & ->) by (split; [|split]; congruence).
        split; [congruence|]. split; [rewrite zlen_app; lia|]. intros E5. apply G4. congruence.
      * intros E. assert (o = o1 /\ m' = m3 /\ r = Yield) as (-> & -> & ->) by (split; [|split]; congruence).
        split; [congruence|]. split; [exact L1|discriminate].
    + destruct (take_command c q3 (m_set_cmds m3 cs)) as [((q4, m4), r4)|] eqn:T; cbn [bind]; [|discriminate].
      pose proof (take_command_kept _ _ _ _ _ _ T) as K4. pose proof (take_command_result _ _ _ _ _ _ T) as NS. clear T.
      change (kept (m_set_cmds m3 cs)) with (kept m3) in K4.
      destruct r4 as [r4|].
      * intros E. assert (o = o1 /\ m' = m4 /\ r = r4) as (-> & -> & ->) by (split; [|split]; congruence).
        split; [congruence|]. split; [exact L1|]. intros E5. congruence.
      * destruct (process_output dict skip fuel q4 m4 (room - zlen o1)) as [(((o2, q5), m5), r5)|] eqn:E5; cbn [bind]; [|discriminate].
        apply IH in E5; [|lia]. destruct E5 as (K5 & L5 & G5).
        intros E. assert (o = o1 ++ o2 /\ m' = m5 /\ r = r5) as (-> & -> & ->) by (split; [|split]; congruence).
        split; [congruence|]. split; [rewrite zlen_app; lia|exact G5].
  - intros E. assert (o = o1 /\ m' = m2 /\ r = Processed DNeedOut) as (-> & -> & ->) by (split; [|split]; congruence).
    split; [congruence|]. split; [exact L1|discriminate].
  - intros E. assert (o = o1 /\ m' = m2 /\ r = Processed DFail) as (-> & -> & ->) by (split; [|split]; congruence).
    split; [congruence|]. split; [exact L1|discriminate].
Qed.

(** ** Consumed input and checksum: [X] is everything consumed so far, header included *)
Definition cinv (header X : list Z) (m : main) : Prop :=
  bytes X /\ btd_ok (to_deser (m_mux m)) /\ (m_trailer m <> [] -> is_done (eof (m_mux m)) = true) /\
  exists W, X = header ++ W ++ m_trailer m /\ (skip = false -> m_crc m = crc32c 0 (header ++ W)).
Lemma cinv_kept header X m m' : kept m' = kept m -> cinv header X m -> cinv header X m'.
Proof.
  unfold kept, cinv. intros E. assert (m_crc m' = m_crc m /\ m_trailer m' = m_trailer m /\ eof (m_mux m') = eof (m_mux m) /\ to_deser (m_mux m') = to_deser (m_mux m))
    as (-> & -> & -> & ->) by (repeat split; congruence). tauto.
Qed.
Lemma crc_extend crc X Y : bytes X -> bytes Y -> crc = crc32c 0 X -> crc32c_update crc Y = crc32c 0 (X ++ Y).
Proof.
  intros BX BY ->. assert (B : bytes (X ++ Y)) by (apply Forall_app; split; assumption).
  rewrite <- !crc_update_ok by (auto; lia). now rewrite crc_update_app by (auto; lia).
Qed.
Lemma input_any header X q m input n q' m' ok : cinv header X m -> bytes input ->
  process_input skip q m input = Some (n, q', m', ok) ->
  0 <= n <= zlen input /\ cinv header (X ++ zfirst n input) m'.
Proof.
  intros (BX & K & T & W & EX & EC) B. unfold process_input.
  destruct (deserialize (m_mux m) input) as [(k, x)|] eqn:E1; cbn [bind]; [|discriminate].
  pose proof (deserialize_any _ _ _ _ _ K B E1) as (RK & K1).
  set (crc := if skip then m_crc m else crc32c_update (m_crc m) (zfirst k input)).
  assert (BW : bytes (header ++ W)).
  { subst X. rewrite app_assoc in BX. apply Forall_app in BX. apply BX. }
  assert (MAIN : exists tr amt, (if is_done (eof x) then read_trailer (m_trailer m) (zskip k input) else (m_trailer m, 0%nat)) = (tr, amt) /\
     0 <= k + Z.of_nat amt <= zlen input /\ (tr <> [] -> is_done (eof x) = true) /\
     exists W', X ++ zfirst (k + Z.of_nat amt) input = header ++ W' ++ tr /\ (skip = false -> crc = crc32c 0 (header ++ W'))).
  { assert (DIE : m_trailer m <> [] -> k = 0 /\ x = m_mux m).
    { intros NE. rewrite (deserialize_done _ _ (T NE)) in E1. split; congruence. }
    destruct (is_done (eof x)) eqn:DN.
    - unfold read_trailer. eexists _, _. split; [reflexivity|].
      set (amt := Nat.min _ _).
      assert (AB : 0 <= k + Z.of_nat amt <= zlen input).
      { pose proof (zlen_skip k input ltac:(lia)) as ZS. unfold zlen in *. lia. }
      split; [exact AB|]. split; [reflexivity|]. rewrite zfirst_plus by lia.
      assert (EA : zfirst (Z.of_nat amt) (zskip k input) = firstn amt (zskip k input)) by (unfold zfirst; now rewrite Nat2Z.id).
      rewrite EA. destruct (m_trailer m) as [|t0 tl] eqn:MT.
      + exists (W ++ zfirst k input). cbn [app]. rewrite app_nil_r in EX. subst X. split; [now rewrite !app_assoc|].
        intros SK. unfold crc. rewrite SK. rewrite app_assoc. apply crc_extend; auto using bytes_zfirst.
      + destruct (DIE ltac:(discriminate)) as (-> & ->). exists W. rewrite zfirst_0. cbn [app]. split.
        * subst X. now rewrite <- !app_assoc.
        * intros SK. unfold crc. rewrite SK. rewrite zfirst_0. rewrite (crc_extend _ (header ++ W) []); auto; [now rewrite app_nil_r|constructor].
    - eexists _, _. split; [reflexivity|]. change (Z.of_nat 0) with 0. rewrite Z.add_0_r. split; [exact RK|].
      assert (TN : m_trailer m = []).
      { destruct (m_trailer m) as [|t0 tl] eqn:MT; [reflexivity|]. destruct (DIE ltac:(discriminate)) as (-> & ->). rewrite T in DN; [discriminate|discriminate]. }
      split; [rewrite TN; congruence|]. exists (W ++ zfirst k input). rewrite TN in *. rewrite app_nil_r in *. subst X.
      split; [now rewrite !app_assoc|]. intros SK. unfold crc. rewrite SK, app_assoc. apply crc_extend; auto using bytes_zfirst. }
  destruct MAIN as (tr & amt & EQ & RN & TD & W' & EX' & EC'). rewrite EQ.
  assert (FIN : forall x' o, eof x' = eof x -> to_deser x' = to_deser x -> cinv header (X ++ zfirst (k + Z.of_nat amt) input) (m_set_in m x' crc tr o)).
  { intros x' o H1 H2. unfold cinv. cbn [m_set_in m_mux m_crc m_trailer]. rewrite H1, H2.
    split; [apply Forall_app; split; [exact BX|now apply bytes_zfirst]|]. split; [exact K1|]. split; [exact TD|].
    exists W'. split; [exact EX'|exact EC']. }
  destruct (negb _).
  - destruct (q_push q (buf0 x)) as [q1|]; intros E;
      match type of E with Some (_, _, ?y, _) = _ => assert (n = k + Z.of_nat amt /\ m' = y) as (-> & ->) by (split; congruence) end;
      (split; [exact RN|apply FIN; reflexivity]).
  - intros E; match type of E with Some (_, _, ?y, _) = _ => assert (n = k + Z.of_nat amt /\ m' = y) as (-> & ->) by (split; congruence) end.
    split; [exact RN|apply FIN; reflexivity].
Qed.
Definition well_ended (p : proc) (r : dres) : Prop :=
  r = DSuccess -> process_eof skip (m_crc (p_m p)) (m_trailer (p_m p)) = EofSuccess.
Lemma process_any header : forall fuel X p input room n o p' r, cinv header X (p_m p) -> bytes input -> 0 <= room ->
  process dict wl D skip fuel p input room = Some (n, o, p', r) ->
  0 <= n <= zlen input /\ zlen o <= room /\ cinv header (X ++ zfirst n input) (p_m p') /\ well_ended p' r.
Proof.
  induction fuel as [|fuel IH]; intros X p input room n o p' r I B R; cbn [process]; [discriminate|].
  destruct (process_input skip (p_q p) (p_m p) input) as [(((k, q1), m1), ok)|] eqn:E1; cbn [bind]; [|discriminate].
  destruct (input_any header X _ _ _ _ _ _ _ I B E1) as (RK & I1). clear E1.
  destruct (negb ok).
  { intros E. assert (n = k /\ o = [] /\ p' = PR (p_w p) q1 m1 /\ r = DNeedIn) as (-> & -> & -> & ->) by (repeat split; congruence).
    split; [exact RK|]. split; [exact R|]. split; [exact I1|discriminate]. }
  destruct (w_run wl D (S fuel) (p_w p) q1) as [((w, q2), wr)|]; cbn [bind]; [|discriminate].
  assert (REST : (if (match wr with WNeedIn => true | _ => false end) && (m_out m1 =? 0) then Some (k, [], PR w q2 m1, DNeedIn) else
          let? '(o, q, m, r) := process_output dict skip (S fuel) q2 m1 room in
          match r with
          | Processed r => Some (k, o, PR w q m, r)
          | Yield =>
              let? '(n2, o2, p, r) := process dict wl D skip fuel (PR w q m) (zskip k input) (room - zlen o) in
              Some (k + n2, o ++ o2, p, r)
          end) = Some (n, o, p', r) -> 0 <= n <= zlen input /\ zlen o <= room /\ cinv header (X ++ zfirst n input) (p_m p') /\ well_ended p' r).
  { destruct (_ && _).
    - intros E. assert (n = k /\ o = [] /\ p' = PR w q2 m1 /\ r = DNeedIn) as (-> & -> & -> & ->) by (repeat split; congruence).
      split; [exact RK|]. split; [exact R|]. split; [exact I1|discriminate].
    - destruct (process_output dict skip (S fuel) q2 m1 room) as [(((o3, q3), m3), r3)|] eqn:E3; cbn [bind]; [|discriminate].
      apply output_any in E3; [|exact R]. destruct E3 as (K3 & L3 & G3).
      pose proof (cinv_kept header _ _ _ K3 I1) as I3. destruct r3 as [r3|].
      + intros E. assert (n = k /\ o = o3 /\ p' = PR w q3 m3 /\ r = r3) as (-> & -> & -> & ->) by (repeat split; congruence).
        split; [exact RK|]. split; [exact L3|]. split; [exact I3|]. intros E5. apply G3. congruence.
      + destruct (process dict wl D skip fuel (PR w q3 m3) (zskip k input) (room - zlen o3)) as [(((n4, o4), p4), r4)|] eqn:E4; cbn [bind]; [|discriminate].
        apply (IH (X ++ zfirst k input)) in E4; [|exact I3|now apply bytes_zskip|lia].
        destruct E4 as (RN & L4 & I4 & G4). rewrite zlen_skip in RN by lia.
        intros E. assert (n = k + n4 /\ o = o3 ++ o4 /\ p' = p4 /\ r = r4) as (-> & -> & -> & ->) by (repeat split; congruence).
        split; [lia|]. split; [rewrite zlen_app; lia|]. split; [|exact G4]. rewrite zfirst_plus by lia. rewrite app_assoc. exact I4. }
  destruct wr; try exact REST.
  intros E. assert (n = k /\ o = [] /\ p' = PR w q2 m1 /\ r = DFail) as (-> & -> & -> & ->) by (repeat split; congruence).
  split; [exact RK|]. split; [exact R|]. split; [exact I1|discriminate].
Qed.

(** ** The whole decompressor *)
Definition dinv (X : list Z) (d : decompressor) : Prop :=
  match d with
  | DHeader h => bytes X /\ hp_inv h X
  | DDecode p => exists header, length header = 16%nat /\ firstn 4 header = [255; 229; 140; 159] /\ 10 <= nth 5 header 0 <= 24 /\ cinv header X (p_m p)
  end.
Lemma dinv_new : dinv [] decompressor_new.
Proof. split; [constructor|apply hp_new_inv]. Qed.
Lemma hp_any h X input : hp_inv h X -> let '(h', n, r) := hp_decode h input in
  (n <= length input)%nat /\
  match r with
  | HOk ws => hp_header h' = X ++ firstn n input /\ length (hp_header h') = 16%nat /\ parse_header (hp_header h') = HOk ws
  | HNeedsMoreInput => hp_inv h' (X ++ firstn n input)
  | HErr _ => True
  end.
Proof.
  intros (L & R & S & F). unfold hp_decode. rewrite L, R.
  destruct (Nat.leb_spec (16 - length X) (length input)) as [H|H].
  - split; [lia|]. set (f := firstn (16 - length X) input).
    assert (Lf : length f = (16 - length X)%nat) by (unfold f; rewrite firstn_length; lia).
    destruct (overwrite_app (hp_header h) X f L F ltac:(lia)) as (L2 & F2).
    cbn [hp_header]. destruct (parse_header _) eqn:P; [| exact Logic.I|].
    + exfalso. clear - P. unfold parse_header in P. cbv zeta in P.
      repeat match type of P with (if ?b then _ else _) = _ => destruct b end; discriminate.
    + split; [|split; [exact L2|reflexivity]].
      rewrite app_length, Lf in F2. replace (length X + (16 - length X))%nat with 16%nat in F2 by lia.
      rewrite <- L2 in F2 at 1. rewrite firstn_all in F2. exact F2.
  - split; [lia|]. rewrite firstn_all.
    destruct (overwrite_app (hp_header h) X input L F ltac:(lia)) as (L2 & F2).
    split; [exact L2|]. split; [cbn [hp_read_offset]; rewrite app_length; lia|]. split; [rewrite app_length; lia|exact F2].
Qed.
Lemma decode_any fuel X d input room n o d' r : dinv X d -> bytes input -> 0 <= room ->
  decode dict wl D skip fuel d input room = Some (n, o, d', r) ->
  0 <= n <= zlen input /\ zlen o <= room /\ (r <> DFail -> dinv (X ++ zfirst n input) d') /\
  (r = DSuccess -> exists p, d' = DDecode p /\ process_eof skip (m_crc (p_m p)) (m_trailer (p_m p)) = EofSuccess).
Proof.
  intros I B R. unfold decode. destruct d as [h|p].
  - destruct I as (BX & I). pose proof (hp_any h X input I) as H.
    destruct (hp_decode h input) as ((h', k), hr). destruct H as (Lk & H).
    assert (EK : zfirst (Z.of_nat k) input = firstn k input) by (unfold zfirst; now rewrite Nat2Z.id).
    assert (BN : bytes (X ++ firstn k input)) by (apply Forall_app; split; [exact BX|now apply bytes_firstn]).
    assert (RK : 0 <= Z.of_nat k <= zlen input) by (unfold zlen; lia).
    destruct hr as [|e|ws].
    + intros E. assert (n = Z.of_nat k /\ o = [] /\ d' = DHeader h' /\ r = DNeedIn) as (-> & -> & -> & ->) by (repeat split; congruence).
      split; [exact RK|]. split; [exact R|]. split; [|discriminate]. intros _. rewrite EK. split; [exact BN|exact H].
    + intros E. assert (n = Z.of_nat k /\ o = [] /\ r = DFail) as (-> & -> & ->) by (repeat split; congruence).
      split; [exact RK|]. split; [exact R|]. split; [congruence|discriminate].
    + destruct H as (H1 & H2 & H3). apply (parse_header_ok _ ws H2) in H3. destruct H3 as (H3 & H4 & H5).
      assert (I0 : cinv (hp_header h') (X ++ firstn k input) (p_m (proc_new D skip (hp_header h') ws))).
      { split; [exact BN|]. split; [exact Logic.I|]. split; [intros NE; now elim NE|]. exists []. split.
        - cbn [p_m proc_new main_new m_trailer app]. now rewrite app_nil_r, H1.
        - intros SK. cbn [p_m proc_new main_new m_crc]. rewrite SK, app_nil_r. apply crc_update_ok; [rewrite H1; exact BN|lia]. }
      destruct (Z.of_nat k <? zlen input).
      * destruct (process dict wl D skip fuel _ (zskip (Z.of_nat k) input) room) as [(((n2, o2), p2), r2)|] eqn:E2; cbn [bind]; [|discriminate].
        apply (process_any (hp_header h') fuel (X ++ firstn k input)) in E2; [|exact I0|now apply bytes_zskip|exact R].
        destruct E2 as (RN & LO & I2 & G2). rewrite zlen_skip in RN by lia.
        intros E. assert (n = Z.of_nat k + n2 /\ o = o2 /\ d' = DDecode p2 /\ r = r2) as (-> & -> & -> & ->) by (repeat split; congruence).
        split; [lia|]. split; [exact LO|]. split.
        -- intros _. exists (hp_header h'). rewrite H4. split; [exact H2|]. split; [exact H3|]. split; [exact H5|].
           rewrite zfirst_plus, EK, app_assoc by lia. exact I2.
        -- intros S. exists p2. split; [reflexivity|exact (G2 S)].
      * intros E. assert (n = Z.of_nat k /\ o = [] /\ d' = DDecode (proc_new D skip (hp_header h') ws) /\ r = DNeedIn) as (-> & -> & -> & ->) by (repeat split; congruence).
        split; [exact RK|]. split; [exact R|]. split; [|discriminate]. intros _.
        exists (hp_header h'). rewrite H4. split; [exact H2|]. split; [exact H3|]. split; [exact H5|]. rewrite EK. exact I0.
  - destruct I as (header & L & M & WS & I).
    destruct (process dict wl D skip fuel p input room) as [(((n2, o2), p2), r2)|] eqn:E2; cbn [bind]; [|discriminate].
    apply (process_any header fuel X) in E2; [|exact I|exact B|exact R]. destruct E2 as (RN & LO & I2 & G2).
    intros E. assert (n = n2 /\ o = o2 /\ d' = DDecode p2 /\ r = r2) as (-> & -> & -> & ->) by (repeat split; congruence).
    split; [exact RN|]. split; [exact LO|]. split.
    + intros _. exists header. split; [exact L|]. split; [exact M|]. split; [exact WS|exact I2].
    + intros S. exists p2. split; [reflexivity|exact (G2 S)].
Qed.
Lemma intact_end X p : dinv X (DDecode p) -> process_eof skip (m_crc (p_m p)) (m_trailer (p_m p)) = EofSuccess -> intact skip X.
Proof.
  intros (header & L & M & WS & (_ & _ & _ & W & EX & EC)) S. apply process_eof_success in S. destruct S as (LT & S).
  exists header, W, (m_trailer (p_m p)). split; [exact EX|]. split; [exact L|]. split; [exact M|]. split; [exact WS|]. split; [exact LT|].
  destruct skip.
  - split; [exact S|discriminate].
  - split; [rewrite S; reflexivity|]. intros _. rewrite <- EC by reflexivity. exact S.
Qed.
Lemma session_any fuel : forall calls d X rest, dinv X d -> bytes rest -> Forall (fun c => bytes (fst c) /\ 0 <= snd c) calls ->
  let t := any_session dict wl D skip fuel d rest calls in
  Forall within t /\ (exists left, rest ++ concat (map fst calls) = taken t ++ left) /\
  ((exists c, In c t /\ c_res c = DSuccess) -> intact skip (X ++ taken t)).
Proof.
  induction calls as [|(piece, room) calls IH]; intros d X rest I B FC; cbn [any_session].
  - split; [constructor|]. split; [exists rest; now rewrite app_nil_r|]. intros (c & [] & _).
  - apply Forall_cons_iff in FC. destruct FC as ((BP & R) & FC). cbn [fst snd] in BP, R.
    assert (BI : bytes (rest ++ piece)) by (apply Forall_app; split; assumption).
    cbn [map concat fst].
    destruct (decode dict wl D skip fuel d (rest ++ piece) room) as [(((n, o), d'), r)|] eqn:E.
    + destruct (decode_any fuel X _ _ _ _ _ _ _ I BI R E) as (RN & LO & ID & G).
      assert (W0 : within (Call (rest ++ piece) room n o r)) by (split; [exact RN|exact LO]).
      assert (STOP : r = DSuccess \/ r = DFail ->
         Forall within [Call (rest ++ piece) room n o r] /\
         (exists left, rest ++ piece ++ concat (map fst calls) = taken [Call (rest ++ piece) room n o r] ++ left) /\
         ((exists c, In c [Call (rest ++ piece) room n o r] /\ c_res c = DSuccess) -> intact skip (X ++ taken [Call (rest ++ piece) room n o r]))).
      { intros _. split; [constructor; [exact W0|constructor]|]. unfold taken. cbn [map concat c_used c_in]. rewrite app_nil_r. split.
        - exists (zskip n (rest ++ piece) ++ concat (map fst calls)). rewrite !app_assoc, zfirst_skip. reflexivity.
        - intros (c & [<-|[]] & C). cbn [c_res] in C. destruct (G C) as (p & -> & PE). eapply intact_end; [|exact PE]. apply ID. congruence. }
      assert (GO : r = DNeedIn \/ r = DNeedOut ->
         let t := Call (rest ++ piece) room n o r :: any_session dict wl D skip fuel d' (zskip n (rest ++ piece)) calls in
         Forall within t /\ (exists left, rest ++ piece ++ concat (map fst calls) = taken t ++ left) /\
         ((exists c, In c t /\ c_res c = DSuccess) -> intact skip (X ++ taken t))).
      { intros HR. destruct (IH d' (X ++ zfirst n (rest ++ piece)) (zskip n (rest ++ piece))) as (T1 & (left & T2) & T3);
          [apply ID; destruct HR; congruence|now apply bytes_zskip|exact FC|].
        cbv zeta. set (t := any_session dict wl D skip fuel d' (zskip n (rest ++ piece)) calls) in *.
        split; [constructor; assumption|]. unfold taken in *. cbn [map concat c_used c_in]. split.
        - exists left. rewrite <- app_assoc, <- T2, !app_assoc, zfirst_skip. reflexivity.
        - intros (c & [<-|C1] & C2); [cbn [c_res] in C2; destruct HR; congruence|].
          rewrite app_assoc. apply T3. exists c. split; assumption. }
      destruct r; [apply STOP; auto|apply GO; auto|apply GO; auto|apply STOP; auto].
    + split; [constructor|]. split; [exists (rest ++ piece ++ concat (map fst calls)); reflexivity|]. intros (c & [] & _).
Qed.
End Any.
