(** The C program's session with a decompressor with two threads. *)
From Verif Require Import Prelude ProofList ModelAns SpecAns ModelCdf SpecCdf ModelRecode SpecLz ProofRecode ProofRecode2 ProofAns ProofAnsRt ProofAnsDec ThmCdf ModelMux SpecMux ProofZlist ProofMux ProofMuxR ModelCmd ModelCrc SpecCrc ProofCrc ModelHeader SpecHeader ProofHeader ModelPriors ModelCodec ModelLit ModelPm ModelTop SpecCodec SpecReplay SpecFile ModelEnc ProofSim ModelDec SpecEnc SpecDec ProofDec1 ProofDec2 ProofDec3 ProofDec4 ProofDec5 ProofDec6 ProofDec7 ModelThread SpecThread ProofThread1 ProofThread2 ProofThread3 ProofThread4 ModelRawEnc ProofThread5 ModelTool ModelToolThread SpecTool ProofTool.
From Verif Require ModelIo SpecIo ProofIo.
From Verif Require Import ModelFfi ModelRawEnc ModelHybrid ModelToolThread ModelCapi SpecHybrid SpecCapi ProofCapi ProofToolThread.

Section Run.
Context (dict : dict_fn) (wl : word_len_fn) (D : dims) (skip : bool) (ws : Z) (WS : 10 <= ws <= 24).
Context (W Tr out : list Z) (N : nat) (TRE : Tr = trailer (crc32c 0 (make_header ws ++ W))).
Context (START : starts dict wl D skip ws W Tr out N).
Notation T := (make_header ws ++ W ++ Tr).
Context (BTT : bytes T) (tail : list Z) (BT : bytes tail).
Notation PINV := (pinv dict wl D skip ws W Tr out N).
Lemma cpsession_spec future : forall calls p x o rest, PINV (length calls) p x o -> rest ++ c_offered calls ++ future = x ++ tail -> Forall sensible calls ->
  exists o2 left v p', cpsession dict wl D skip p rest calls = Some (o2, left, v, p') /\ v <> Broken /\ (exists more, out = o ++ o2 ++ more) /\
    (v = Finished -> o ++ o2 = out /\ rest ++ c_offered calls = x ++ left /\ pfin p') /\
    (forall calls1 calls2 y, calls = calls1 ++ calls2 -> rest ++ c_offered calls1 = x ++ y -> Forall (fun c => 1 <= c_room c) calls2 -> zlen out - zlen o < zlen calls2 -> v = Finished).
Proof.
  induction calls as [|c calls IH]; intros p x o rest I EX SE.
  - cbn [cpsession]. exists [], rest, Waiting, p. split; [reflexivity|]. split; [discriminate|]. destruct (pinv_part dict wl D skip ws W Tr out N START tail _ _ _ _ I) as (m & M). split; [exists m; exact M|]. split; [discriminate|].
    intros c1 c2 y E _ _ L. exfalso. symmetry in E. apply app_eq_nil in E. destruct E as (_ & ->). change (zlen (@nil ccall)) with 0 in L. rewrite M, zlen_app in L. pose proof (zlen_nonneg m). lia.
  - cbn [cpsession length] in *. apply Forall_cons_iff in SE. destruct SE as (S1 & S2). unfold c_decode_parallel. rewrite skip_front. unfold sensible in S1.
    set (input := rest ++ c_piece c). assert (OE : c_offered (c :: calls) = c_piece c ++ c_offered calls) by reflexivity. rewrite OE in *.
    assert (EX1 : input ++ (c_offered calls ++ future) = x ++ tail) by (unfold input; rewrite <- EX, <- !app_assoc; reflexivity).
    destruct (call_good dict wl D skip ws WS W Tr out N TRE START BTT tail BT (length calls) p x o input _ (zlen (c_buf c) - c_at c) I EX1 ltac:(lia)) as (pre & suf & o2 & p' & r & x' & E & EI & XX & LO & K).
    pose proof (zlen_nonneg (c_front c)) as FN. pose proof (zlen_nonneg input) as IN. assert (ZI : zlen input = zlen pre + zlen suf) by (rewrite EI, zlen_app; reflexivity). pose proof (zlen_nonneg pre). pose proof (zlen_nonneg suf).
    rewrite E. unfold assert. rewrite zlen_app. destruct (Z.leb_spec 0 (zlen (c_front c))); [|lia].
    destruct (Z.leb_spec (zlen (c_front c)) (zlen (c_front c) + zlen input)); [|lia].
    destruct (Z.leb_spec 0 (c_at c)); [|lia]. destruct (Z.leb_spec (c_at c) (zlen (c_buf c))); [|lia]. cbn [andb bind].
    destruct (Z.leb_spec (c_at c + zlen o2) (zlen (c_buf c))); [|lia].
    destruct (put_at_facts (c_buf c) (c_at c) o2 ltac:(lia) ltac:(lia)) as (U & BW & L). cbn [bind]. rewrite U, BW, L.
    destruct (Z.leb_spec (zlen (c_front c)) (zlen (c_front c) + zlen pre)); [|lia].
    destruct (Z.leb_spec (zlen (c_front c) + zlen pre) (zlen (c_front c) + zlen input)); [|lia]. cbn [andb negb].
    rewrite skip_front_plus by lia. assert (SK : zskip (zlen pre) input = suf) by (rewrite EI; apply zskip_app_exact; reflexivity). rewrite SK.
    assert (EX2 : suf ++ c_offered calls ++ future = x' ++ tail). { rewrite EI, XX, <- !app_assoc in EX1. apply app_inv_head in EX1. exact EX1. }
    assert (GO : forall c1 c2 y, c :: calls = c1 ++ c2 -> rest ++ c_offered c1 = x ++ y -> (exists c1' y', calls = c1' ++ c2 /\ suf ++ c_offered c1' = x' ++ y') \/ (c1 = [] /\ c2 = c :: calls /\ rest = x ++ y)).
    { intros c1 c2 y Q1 Q2. destruct c1 as [|q c1]; [right; split; [reflexivity|]; split; [symmetry; exact Q1|]; rewrite <- Q2; unfold c_offered; cbn [map concat]; rewrite app_nil_r; reflexivity|]. left. cbn [app] in Q1. assert (q = c /\ calls = c1 ++ c2) as (-> & Q3) by (split; congruence). exists c1, y. split; [exact Q3|].
      change (c_offered (c :: c1)) with (c_piece c ++ c_offered c1) in Q2. rewrite app_assoc in Q2. fold input in Q2. rewrite EI, XX, <- !app_assoc in Q2. apply app_inv_head in Q2. exact Q2. }
    destruct r; cbn [pres_code ModelFfi.code].
    + destruct K as (-> & OUT & FI & _). change (DIVANS_SUCCESS =? 0) with true. cbv iota. exists o2, (suf ++ c_offered calls), Finished, p'. split; [reflexivity|]. split; [discriminate|]. split; [exists []; rewrite app_nil_r; symmetry; exact OUT|]. split; [|reflexivity]. intros _. split; [exact OUT|]. split; [|exact FI]. rewrite XX, app_nil_r, app_assoc. fold input. rewrite EI, <- !app_assoc. reflexivity.
    + destruct K as (-> & NX & I'). change (DIVANS_NEEDS_MORE_INPUT =? 0) with false. change (DIVANS_NEEDS_MORE_INPUT =? 1) with true. change (zlen (@nil Z)) with 0 in *. destruct (Z.eqb_spec (zlen (c_front c) + zlen pre) (zlen (c_front c) + zlen input)); [|lia]. cbn [andb orb].
      destruct (IH p' x' (o ++ o2) [] I' EX2 S2) as (o3 & left & v & p2 & E3 & NB & (m & M) & F & LV). rewrite E3. cbn [bind]. exists (o2 ++ o3), left, v, p2. split; [reflexivity|]. split; [exact NB|]. split; [exists m; rewrite M, <- !app_assoc; reflexivity|]. split.
      * intros Q. destruct (F Q) as (F1 & F2 & F3). rewrite app_assoc. split; [exact F1|]. split; [|exact F3]. rewrite app_assoc. fold input. cbn [app] in F2. rewrite EI, app_nil_r, F2, XX, <- !app_assoc. reflexivity.
      * intros c1 c2 y Q1 Q2 Q3 Q4. destruct (GO c1 c2 y Q1 Q2) as [(c1' & y' & R1 & R2)|(_ & -> & R)].
        -- apply (LV c1' c2 y' R1 R2 Q3). rewrite zlen_app. pose proof (zlen_nonneg o2). lia.
        -- exfalso. apply NX. rewrite app_nil_r in EI. unfold input in EI. rewrite R, XX, <- !app_assoc in EI. rewrite <- (app_nil_r pre) in EI at 2. apply app_inv_head in EI. apply app_eq_nil in EI. apply EI.
    + destruct K as (LE & I' & _). change (DIVANS_NEEDS_MORE_OUTPUT =? 0) with false. change (DIVANS_NEEDS_MORE_OUTPUT =? 1) with false. change (DIVANS_NEEDS_MORE_OUTPUT =? 2) with true. destruct (Z.eqb_spec (c_at c + zlen o2) (zlen (c_buf c))); [|lia]. cbn [andb orb].
      destruct (IH p' x' (o ++ o2) suf I' EX2 S2) as (o3 & left & v & p2 & E3 & NB & (m & M) & F & LV). rewrite E3. cbn [bind]. exists (o2 ++ o3), left, v, p2. split; [reflexivity|]. split; [exact NB|]. split; [exists m; rewrite M, <- !app_assoc; reflexivity|]. split.
      * intros Q. destruct (F Q) as (F1 & F2 & F3). rewrite app_assoc. split; [exact F1|]. split; [|exact F3]. rewrite app_assoc. fold input. rewrite EI, <- app_assoc, F2, XX, <- !app_assoc. reflexivity.
      * intros c1 c2 y Q1 Q2 Q3 Q4. destruct (GO c1 c2 y Q1 Q2) as [(c1' & y' & R1 & R2)|(_ & -> & R)].
        -- apply (LV c1' c2 y' R1 R2 Q3). rewrite zlen_app. pose proof (zlen_nonneg o2). lia.
        -- apply Forall_cons_iff in Q3. destruct Q3 as (Q3 & Q5). apply (LV [] calls (y ++ c_piece c) eq_refl); [|exact Q5|rewrite zlen_app; rewrite zlen_cons in Q4; unfold c_room in Q3; lia].
           change (c_offered []) with (@nil Z). rewrite app_nil_r. unfold input in EI. rewrite R, XX, <- !app_assoc in EI. apply app_inv_head in EI. symmetry. exact EI.
    + contradiction K.
Qed.
End Run.
