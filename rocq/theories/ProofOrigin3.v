(** The Read adapter, the tool and the C API over the decompressor, on any input. *)
From Verif Require Import Prelude ProofList ProofZlist ModelMux ModelCmd ModelHeader ModelRecode ModelPriors ModelCodec ModelPm ModelTop ModelDec ModelIo ModelTool ModelCapi SpecIo SpecCheck SpecOrigin ProofHeader ProofCheck ProofOrigin ProofOrigin2.

Lemma dres_fail (r : dres) : r = DFail \/ r <> DFail.
Proof. destruct r; (now left) || (right; discriminate). Qed.

Section Any.
Context (dict : dict_fn) (wl : word_len_fn) (D : dims) (skip : bool) (fuel : nat).
Notation pr := (decompressing dict wl D skip fuel).

(** ** The reader.  [F] is the whole file and [flt] whether the source fails in the end;
    [X] has been consumed. *)
Context (cap : Z) (F : list Z) (flt : bool) (BF : bytes F) (NF : ~ false_mark F).
Definition rinv (X : list Z) (g : greader) (avail : Z) : Prop :=
  dinv skip X (g_p g) /\ oinv skip X (g_p g) /\ g_flushed g = true /\ 0 <= g_off g <= zlen (g_data g) /\ avail = zlen (g_data g) - g_off g /\
  F = X ++ zskip (g_off g) (g_data g) ++ (if g_eof g then [] else content (g_src g)) /\
  flt = (if g_eof g then g_err g else faulty (g_src g)) /\ (g_err g = true -> g_eof g = true) /\
  Forall honest (g_src g).
Definition rested (g : greader) (avail : Z) : Prop := 0 < avail -> sealed (g_p g).
Lemma fetch_inv X g avail needs g' avail' needs' again : rinv X g avail -> rested g avail -> (needs = true -> avail = 0) -> fetch cap g avail needs = (g', avail', needs', again) ->
  rinv X g' avail' /\ g_p g' = g_p g /\ (needs' = true -> avail' = 0) /\
  (again = true -> g_eof g' = g_eof g /\ avail' = avail /\ needs' = needs) /\ (g_eof g' = true -> rested g' avail').
Proof.
  intros (DI & OI & FL & OF & AV & EF & EX & EE & NE) RS NA. unfold fetch.
  destruct (Z.ltb_spec (zlen (g_data g)) cap) as [LT|LT]; cbn [andb].
  2: { intros E. assert (g' = g /\ avail' = avail /\ needs' = needs /\ again = false) as (-> & -> & -> & ->) by (repeat split; congruence).
       split; [repeat (split; [assumption|]); assumption|]. split; [reflexivity|]. split; [exact NA|]. split; [discriminate|intros _; exact RS]. }
  destruct (g_eof g) eqn:EO; cbn [negb].
  { intros E. assert (g' = g /\ avail' = avail /\ needs' = needs /\ again = false) as (-> & -> & -> & ->) by (repeat split; congruence).
    split; [unfold rinv; rewrite EO; repeat (split; [assumption|]); assumption|]. split; [reflexivity|]. split; [exact NA|]. split; [discriminate|intros _; exact RS]. }
  assert (EF0 : g_err g = false) by (destruct (g_err g); [discriminate (EE eq_refl)|reflexivity]).
  destruct (g_src g) as [|e src] eqn:SR; [|apply Forall_cons_iff in NE; destruct NE as (HE & NE); destruct e as [l| |]]; cbn [source_read].
  - change (zlen (@nil Z) =? 0) with true. cbn match. intros E.
    match type of E with (?a, ?b, ?c, ?d) = _ => assert (g' = a /\ avail' = b /\ needs' = c /\ again = d) as (-> & -> & -> & ->) by (repeat split; congruence) end.
    unfold rinv, rested. cbn [g_p g_data g_off g_eof g_flushed g_err g_src]. cbn [content faulty] in EF, EX.
    split; [|split; [reflexivity|split; [exact NA|split; [discriminate|intros _; exact RS]]]].
    rewrite EF0. repeat (split; [assumption|]). split; [discriminate|]. constructor.
  - assert (L0 : l <> []) by (intros ->; exact HE).
    assert (LP : 0 < zlen (zfirst (cap - zlen (g_data g)) l)).
    { rewrite zlen_first by lia. destruct l as [|a l]; [congruence|]. rewrite zlen_cons. pose proof (zlen_nonneg l). lia. }
    destruct (Z.eqb_spec (zlen (zfirst (cap - zlen (g_data g)) l)) 0) as [Z0|_]; [lia|]. intros E.
    match type of E with (?a, ?b, ?c, ?d) = _ => assert (g' = a /\ avail' = b /\ needs' = c /\ again = d) as (-> & -> & -> & ->) by (repeat split; congruence) end.
    unfold rinv. cbn [g_p g_data g_off g_eof g_flushed g_err g_src]. cbn [content faulty] in EF, EX.
    split; [|split; [reflexivity|split; [discriminate|split; [discriminate|congruence]]]].
    split; [exact DI|]. split; [exact OI|]. split; [exact FL|]. rewrite zlen_app. split; [lia|]. split; [reflexivity|].
    assert (SK : zskip (g_off g) (g_data g ++ zfirst (cap - zlen (g_data g)) l) = zskip (g_off g) (g_data g) ++ zfirst (cap - zlen (g_data g)) l) by (apply zskip_app_less; lia).
    rewrite SK. rewrite EF0. destruct (Z.ltb_spec (cap - zlen (g_data g)) (zlen l)) as [B|B]; cbn [content faulty].
    + split; [rewrite EF; rewrite <- !app_assoc; f_equal; f_equal; rewrite (app_assoc (zfirst _ l)), zfirst_skip; reflexivity|].
      split; [exact EX|]. split; [discriminate|]. constructor; [|exact NE].
      cbn [honest]. pose proof (zlen_skip (cap - zlen (g_data g)) l ltac:(lia)) as ZK. destruct (zskip (cap - zlen (g_data g)) l); [change (zlen (@nil Z)) with 0 in ZK; lia|exact I].
    + rewrite (zfirst_all _ l) by lia. split; [rewrite EF; now rewrite <- !app_assoc|]. split; [exact EX|]. split; [discriminate|]. exact NE.
  - intros E. match type of E with (?a, ?b, ?c, ?d) = _ => assert (g' = a /\ avail' = b /\ needs' = c /\ again = d) as (-> & -> & -> & ->) by (repeat split; congruence) end.
    unfold rinv, rested. cbn [g_p g_data g_off g_eof g_flushed g_err g_src]. cbn [content faulty] in EF, EX.
    split; [|split; [reflexivity|split; [exact NA|split; [intros _; now split|congruence]]]].
    rewrite EF0. repeat (split; [assumption|]). split; [discriminate|]. exact NE.
  - intros E. match type of E with (?a, ?b, ?c, ?d) = _ => assert (g' = a /\ avail' = b /\ needs' = c /\ again = d) as (-> & -> & -> & ->) by (repeat split; congruence) end.
    unfold rinv, rested. cbn [g_p g_data g_off g_eof g_flushed g_err g_src]. cbn [content faulty] in EF, EX.
    split; [|split; [reflexivity|split; [exact NA|split; [discriminate|intros _; exact RS]]]].
    repeat (split; [assumption|]). split; [reflexivity|]. exact NE.
Qed.
Lemma front_inv X g : rinv X g 0 -> rinv X (copy_to_front cap g) 0 /\ g_p (copy_to_front cap g) = g_p g /\ g_eof (copy_to_front cap g) = g_eof g /\ g_err (copy_to_front cap g) = g_err g.
Proof.
  intros (DI & OI & FL & OF & AV & EF & EX & EE & NE). unfold copy_to_front.
  assert (SK : zskip (g_off g) (g_data g) = []) by (apply zskip_all; lia).
  destruct (_ =? _); [|destruct (_ && _)]; (split; [|repeat split; reflexivity]);
    unfold rinv; cbn [g_p g_data g_off g_eof g_flushed g_err g_src]; rewrite ?SK, ?zskip_0; change (zlen (@nil Z)) with 0;
    repeat (split; [assumption || lia || (rewrite SK in EF; exact EF)|]); assumption.
Qed.
Lemma less_mark X Y V : F = (X ++ Y) ++ V -> ~ false_mark (X ++ Y).
Proof.
  intros E (header & W & EW & L & BM). apply NF. exists header, (W ++ V). rewrite E, EW. split; [now rewrite <- app_assoc|]. split; [exact L|]. now apply broken_more.
Qed.
(** one read: afterwards the invariant holds again, and if no byte was returned the file is
    intact and the source did not fail *)
Lemma read_any : forall k g room avail needs out X o g', rinv X g avail -> rested g avail -> 1 <= room -> zlen out <= room ->
  (needs = true -> avail = 0) -> (out = [] -> needs = true -> g_eof g = false) ->
  read_loop pr cap k g room avail needs out = ROk o g' ->
  (o = [] -> flt = false /\ intact skip F) /\ exists X' avail', rinv X' g' avail' /\ rested g' avail'.
Proof.
  induction k as [|k IH]; intros g room avail needs out X o g' I RS R LO NA NE; cbn [read_loop]; [discriminate|].
  destruct (negb ((room - zlen out =? room) && (negb needs || negb (g_eof g)))) eqn:EXIT.
  { intros E. assert (o = out /\ g' = g) as (-> & ->) by (split; congruence). split; [|now exists X, avail].
    intros ->. exfalso. change (zlen (@nil Z)) with 0 in EXIT. rewrite Z.sub_0_r, Z.eqb_refl in EXIT. cbn [andb] in EXIT.
    destruct needs; cbn [negb orb] in EXIT; [|discriminate]. rewrite (NE eq_refl eq_refl) in EXIT. discriminate. }
  apply negb_false_iff, andb_prop in EXIT. destruct EXIT as (EX & _). apply Z.eqb_eq in EX.
  assert (out = []) as -> by (apply zlen_0_nil; lia). clear EX. change (zlen (@nil Z)) with 0 in *. rewrite Z.sub_0_r.
  destruct (fetch cap g avail needs) as (((g1, av), nd), again) eqn:FE.
  destruct (fetch_inv X g avail needs g1 av nd again I RS NA FE) as (I1 & P1 & NA1 & AG & RS1). clear FE.
  destruct again.
  { destruct (AG eq_refl) as (A1 & -> & ->). intros E. apply (IH _ _ _ _ _ X _ _) in E; try assumption.
    - unfold rested. rewrite P1. exact RS.
    - intros _ H. rewrite A1. exact (NE eq_refl H). }
  clear AG. assert (R0 : 0 <= room) by lia. pose proof I1 as (DI & OI & FL & OF & AV & EF & EX & EE & NEE).
  assert (BS : bytes (zskip (g_off g1) (g_data g1))).
  { rewrite EF in BF. apply Forall_app in BF. destruct BF as (_ & BF'). apply Forall_app in BF'. apply BF'. }
  assert (BX : F = (X ++ zskip (g_off g1) (g_data g1)) ++ (if g_eof g1 then [] else content (g_src g1))) by (now rewrite <- app_assoc).
  destruct (Z.eqb_spec av 0) as [A0|A0].
  - (* no input: close *)
    cbn [close decompressing].
    destruct (decode dict wl D skip fuel (g_p g1) [] room) as [(((n, o1), d), r)|] eqn:DE; cbn [bind]; [|discriminate].
    destruct (decode_any dict wl D skip fuel X _ _ _ _ _ _ _ DI (Forall_nil _) R0 DE) as (RN & LO1 & DI2 & GS).
    assert (n = 0) as -> by (change (zlen (@nil Z)) with 0 in RN; lia).
    rewrite zfirst_0, app_nil_r in DI2.
    assert (SK : zskip (g_off g1) (g_data g1) = []) by (apply zskip_all; lia).
    rewrite A0. change (0 <? 0) with false. cbn [orb]. destruct (Z.ltb_spec room (zlen o1)); [lia|]. change (0 - 0) with 0. change (0 =? 0) with true. cbn [andb app].
    cbn [g_err]. destruct (g_err g1) eqn:ER; [discriminate|].
    set (g2 := GR d (g_data g1) (g_off g1) (g_eof g1) true false (g_src g1)).
    destruct r.
    + (* success *)
      destruct (GS eq_refl) as (p & -> & PE). specialize (DI2 ltac:(discriminate)).
      destruct (decode_more dict wl D skip fuel X _ [] room _ _ _ _ OI (Forall_nil _) (less_mark X [] (if g_eof g1 then [] else content (g_src g1)) ltac:(rewrite app_nil_r, BX, SK, app_nil_r; reflexivity)) R0 DE ltac:(discriminate)) as (OI2 & _).
      rewrite zfirst_0, app_nil_r in OI2.
      assert (I2 : rinv X g2 0).
      { unfold rinv, g2. cbn [g_p g_data g_off g_eof g_flushed g_err g_src].  repeat (split; [assumption || lia || reflexivity|]); assumption. }
      destruct (front_inv X g2 I2) as (I3 & P3 & E3 & R3).
      cbn [dec_pres]. destruct (g_eof (copy_to_front cap g2)) eqn:EO.
      * assert (FL3 : g_flushed (copy_to_front cap g2) = true) by apply I3. rewrite FL3. cbn [andb].
        intros E. assert (o = o1 /\ g' = copy_to_front cap g2) as (-> & ->) by (split; congruence). split.
        -- intros _. assert (EO1 : g_eof g1 = true) by (symmetry; exact E3). rewrite EO1, SK in EF. rewrite EO1 in EX. rewrite app_nil_r in EF.
           split; [exact EX|]. rewrite EF. exact (intact_end skip X p DI2 PE).
        -- exists X, 0. split; [exact I3|]. intros HH. lia.
      * cbn [andb]. intros E. apply (IH _ _ _ _ _ X _ _) in E; [exact E|exact I3|intros HH; lia|exact R|exact LO1|reflexivity|intros _ _; exact EO].
    + (* more input wanted at the end: an error *) discriminate.
    + (* space wanted: some was used *)
      specialize (DI2 ltac:(discriminate)).
      destruct (decode_more dict wl D skip fuel X _ [] room _ _ _ _ OI (Forall_nil _) (less_mark X [] (if g_eof g1 then [] else content (g_src g1)) ltac:(rewrite app_nil_r, BX, SK, app_nil_r; reflexivity)) R0 DE ltac:(discriminate)) as (OI2 & _ & _ & FULL).
      rewrite zfirst_0, app_nil_r in OI2. specialize (FULL eq_refl).
      assert (I2 : rinv X g2 0).
      { unfold rinv, g2. cbn [g_p g_data g_off g_eof g_flushed g_err g_src]. repeat (split; [assumption || lia || reflexivity|]); assumption. }
      destruct (front_inv X g2 I2) as (I3 & P3 & E3 & R3).
      cbn [dec_pres]. intros E. apply (IH _ _ _ _ _ X _ _) in E; [exact E|exact I3|intros HH; lia|exact R|exact LO1|reflexivity|].
      intros -> _. change (zlen (@nil Z)) with 0 in FULL. lia.
    + discriminate.
  - (* some input: process *)
    assert (AP : 0 < av) by (pose proof OF; lia).
    rewrite (zfirst_all av) by (rewrite zlen_skip by lia; lia).
    cbn [ModelIo.process decompressing].
    destruct (decode dict wl D skip fuel (g_p g1) (zskip (g_off g1) (g_data g1)) room) as [(((n, o1), d), r)|] eqn:DE; cbn [bind]; [|discriminate].
    destruct (decode_any dict wl D skip fuel X _ _ _ _ _ _ _ DI BS R0 DE) as (RN & LO1 & DI2 & GS).
    assert (LA : zlen (zskip (g_off g1) (g_data g1)) = av) by (rewrite zlen_skip by lia; lia). rewrite LA in RN.
    destruct (Z.ltb_spec av n); [lia|]. cbn [orb]. destruct (Z.ltb_spec room (zlen o1)); [lia|]. cbn [app].
    destruct (dres_fail r) as [->|NFL].
    { cbn [dec_pres]. destruct (_ && _); discriminate. }
    specialize (DI2 NFL).
    destruct (decode_more dict wl D skip fuel X _ _ room _ _ _ _ OI BS (less_mark X _ _ BX) R0 DE NFL) as (OI2 & TOOK & SEAL & FULL).
    rewrite LA in TOOK.
    set (g2 := GR d (g_data g1) (g_off g1 + n) (g_eof g1) (g_flushed g1) (g_err g1) (g_src g1)).
    set (X2 := X ++ zfirst n (zskip (g_off g1) (g_data g1))) in *.
    assert (I2 : rinv X2 g2 (av - n)).
    { unfold rinv, g2, X2. cbn [g_p g_data g_off g_eof g_flushed g_err g_src]. split; [exact DI2|]. split; [exact OI2|]. split; [exact FL|]. split; [lia|]. split; [lia|].
      split; [|split; [exact EX|split; [exact EE|exact NEE]]]. rewrite BX. rewrite (split_at X _ n), <- !app_assoc. rewrite zskip_zskip by lia. reflexivity. }
    assert (RS2 : rested g2 (av - n)).
    { intros H1. cbn [g2 g_p]. destruct TOOK as [->|TK]; [lia|exact TK]. }
    change (g_err g2) with (g_err g1). destruct (Z.eqb_spec (av - n) 0) as [AZ|AZ]; cbn [andb].
    + destruct (g_err g1) eqn:ER; [discriminate|].
      rewrite AZ in I2. destruct (front_inv X2 g2 I2) as (I3 & P3 & E3 & R3). change (g_eof g2) with (g_eof g1) in E3.
      assert (NOEOF : g_eof g1 = false).
      { destruct (g_eof g1) eqn:EO; [|reflexivity]. exfalso. pose proof (RS1 eq_refl AP) as SL. destruct (SEAL SL) as (-> & _). lia. }
      rewrite E3, NOEOF. cbn [andb]. rewrite AZ.
      assert (GO : read_loop pr cap k (copy_to_front cap g2) room 0 true o1 = ROk o g' -> (o = [] -> flt = false /\ intact skip F) /\ exists X' avail', rinv X' g' avail' /\ rested g' avail').
      { intros E. apply (IH _ _ _ _ _ X2 _ _) in E; [exact E|exact I3|intros HH; lia|exact R|exact LO1|reflexivity|]. intros _ _. rewrite E3. exact NOEOF. }
      destruct (dec_pres r); [exact GO|exact GO|exact GO|discriminate].
    + rewrite andb_false_r. cbn [andb].
      assert (ND : nd = false) by (destruct nd; [exfalso; apply A0; now apply NA1|reflexivity]). rewrite ND.
      assert (GO : read_loop pr cap k g2 room (av - n) false o1 = ROk o g' -> (o = [] -> flt = false /\ intact skip F) /\ exists X' avail', rinv X' g' avail' /\ rested g' avail').
      { intros E. apply (IH _ _ _ _ _ X2 _ _) in E; [exact E|exact I2|exact RS2|exact R|exact LO1|discriminate|discriminate]. }
      destruct (dec_pres r); [exact GO|exact GO|exact GO|discriminate].
Qed.
End Any.
