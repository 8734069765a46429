(** The tool's compression loop over the default compressor. *)
From Verif Require Import Prelude ProofList ModelAns SpecAns ProofAnsRt ModelCdf SpecCdf ModelMux SpecMux ProofZlist ProofMux ProofMuxW ProofMuxR ModelCmd ModelCrc SpecCrc ProofCrc ModelHeader SpecHeader ProofHeader ThmHeader ModelRecode SpecLz ModelPriors ModelCodec ModelLit ModelPm ModelTop SpecCodec SpecReplay ProofCodecInv ProofCodecInv2 ProofRun ProofCopy ProofTop ThmCodec ModelEnc SpecEnc SpecDec SpecFile ProofEnc ProofEnc2 ProofEnc3 ProofEnc4 ModelIo SpecIo ModelHybrid SpecHybrid ProofHybrid ProofHybrid2 ModelTool SpecTool ProofTool.

Local Opaque codec_flush codec_encode.
Section T.
Context (dict : dict_fn) (wl : word_len_fn) (D : dims) (g : cfg) (ws : Z).
Context {B : Type} (fe : frontend B) (optimize : metablock -> option metablock) (b0 : B) (GF : good_frontend dict wl D g ws fe optimize b0).
Notation RE := (reaches fe optimize b0).

Section Close.
Context (es : list ev) (a b1 H : list Z) (fuel F n : nat) (W : world es a b1 H fuel F n).
Notation PR := (hybrid_processor dict wl D g fe optimize n F).
(** all input is taken: nothing flushed yet beyond the header, or all is in the buffer *)
Definition hclosing (p : @hybrid B) (O : list Z) : Prop :=
  (exists b bsize bcap later nE cm data cap, p = HY b cm bsize bcap data cap 0 /\ driven dict wl D g fe optimize b bsize bcap later nE /\ (nE <= n)%nat /\
     running dict wl D g es a b1 H fuel later cm (O ++ data) /\ (cm_hdr cm <> 16%nat -> data = []) /\ capok (zlen data) cap) \/
  closed fe a b1 H p O.
Lemma complete_bound X : complete a b1 H X -> zlen X <= bound a b1 + 16.
Proof.
  destruct W as (WR & EA & EB & BH & HL & LE & LN). intros (V & FR & ->). pose proof (proj2 (framed_bounds es a b1 H WR EA EB HL V FR)) as Q. rewrite !zlen_app. assert (ZH : zlen H = 16) by (unfold zlen; rewrite HL; reflexivity). rewrite ZH.
  assert (Z8 : zlen (checksum_bytes (crc0 (H ++ V))) = 8) by reflexivity. rewrite Z8. unfold bound. lia.
Qed.
Lemma hclosing_bound p O : hclosing p O -> zlen O <= bound a b1 + 16.
Proof.
  destruct W as (WR & EA & EB & BH & HL & LE & LN). intros [(b & bsize & bcap & later & nE & cm & data & cap & -> & _ & _ & I & _)|(_ & _ & CP & _)].
  - pose proof (sinv_bounds dict wl D g es a b1 H WR EA EB HL fuel _ _ _ (proj1 I)) as BD. rewrite zlen_app in BD. pose proof (zlen_nonneg data). lia.
  - apply complete_bound in CP. rewrite zlen_app in CP. pose proof (zlen_nonneg (remaining p)). lia.
Qed.
Lemma hclosing_close p O room : hclosing p O -> 0 <= room ->
  exists o2 p' r, close PR p room = Some (o2, p', r) /\ zlen o2 <= room /\ ((r = PSuccess /\ complete a b1 H (O ++ o2)) \/ (r = PNeedOut /\ zlen o2 = room /\ hclosing p' (O ++ o2))).
Proof.
  intros HC R1. destruct HC as [(b & bsize & bcap & later & nE & cm & data & cap & -> & DR & LE2 & I & HN & CD)|C].
  - destruct W as (WR & EA & EB & BH & HL & LE & LN). cbn [close hybrid_processor]. unfold hybrid_flush. cbn [h_b h_cm h_bsize h_bcap h_data h_cap h_off].
    destruct I as (I & P). destruct (start_spec dict wl D g es a b1 H BH HL fuel _ _ _ room I R1 ltac:(congruence)) as (h & cm' & ok & E & L & I1 & T1 & F1 & P1). rewrite E.
    assert (HN1 : data = [] \/ (h = [] /\ cm' = cm)). { destruct (Nat.eq_dec (cm_hdr cm) 16) as [Q|Q]; [right|left; apply HN, Q]. rewrite (start_none _ _ Q) in E. split; congruence. }
    assert (EO : (O ++ data) ++ h = (O ++ h) ++ data) by (destruct HN1 as [->|(-> & _)]; rewrite ?app_nil_r; reflexivity).
    destruct ok; cbn [negb].
    + specialize (T1 eq_refl). destruct (DR es a b1 H fuel F n W n cm' ((O ++ data) ++ h) data cap 0 LE2 (conj I1 (eq_trans P1 P)) T1 CD) as (b' & cm2 & bs' & bc' & o & cap' & E2 & F2 & C2 & H2).
      rewrite E2. cbn [bind negb]. rewrite EO, <- app_assoc in C2.
      set (s2 := HY b' cm2 bs' bc' (data ++ o) cap' 0) in *. assert (CL : closed fe a b1 H s2 (O ++ h)). { split; [exact F2|]. split; [exact H2|]. split; [exact C2|]. cbn [s2 h_off h_data]. pose proof (zlen_nonneg (data ++ o)). lia. }
      destruct (copy_spec fe a b1 H s2 h room O CL ltac:(lia)) as (LO & K). cbv zeta in LO, K. fold (remaining s2). set (len := Z.min (zlen (remaining s2)) (room - zlen h)) in *.
      destruct K as [(-> & CP)|(-> & LO2 & C' & _)]; eexists _, _, _; (split; [reflexivity|]); (split; [exact LO|]); [left|right]; (split; [reflexivity|]); [exact CP|]. split; [exact LO2|right; exact C'].
    + specialize (F1 eq_refl). eexists _, _, _. split; [reflexivity|]. split; [lia|]. right. split; [reflexivity|]. split; [exact F1|]. left. exists b, bsize, bcap, later, nE, cm', data, cap. split; [reflexivity|]. split; [exact DR|]. split; [exact LE2|]. split; [rewrite <- EO; exact (conj I1 (eq_trans P1 P))|]. split; [|exact CD].
      intros Q. destruct HN1 as [Q1|(_ & Q1)]; [exact Q1|]. subst cm'. apply HN, Q.
  - rewrite (closed_flush dict wl D g fe optimize es a b1 H fuel F n W) by apply C. rewrite <- (app_nil_r O) in C. destruct (copy_spec fe a b1 H p [] room O C ltac:(change (zlen (@nil Z)) with 0; lia)) as (L & K). cbv zeta in *.
    set (len := Z.min (zlen (remaining p)) (room - zlen [])) in *.
    destruct K as [(-> & CP)|(-> & LO2 & C' & _)]; eexists _, _, _; (split; [reflexivity|]); (split; [exact L|]); [left|right]; (split; [reflexivity|]); [exact CP|]. split; [exact LO2|right; exact C'].
Qed.
Lemma hflush_spec bsize src : 1 <= bsize -> faulty src = false -> forall N p f, hclosing p (f_got f) -> (Z.to_nat (bound a b1 + 16 - zlen (f_got f)) < N)%nat -> cpost (complete a b1 H) f src (cflush PR bsize N p [] f).
Proof.
  intros BS FA N p f C L. apply (cflush_spec PR bsize BS (fun _ _ _ => False) hclosing (complete a b1 H) (bound a b1 + 16)); auto; try (intros; contradiction).
  - intros p' o room. apply hclosing_close.
  - apply hclosing_bound.
Qed.
Lemma hloop_eq bsize N p extra data idec src f : (zlen extra = 0 \/ data = extra) ->
  cloop PR bsize (S N) p extra data idec src [] f =
  (let over := negb (zlen extra =? 0) && (idec =? zlen extra) in
   let extra := if over then [] else extra in
   let data := if over then [] else data in
   let idec := if over then 0 else idec in
   if idec =? zlen data then
     match source_read src bsize with
     | FErr _ => (f, TError)
     | FIntr src => cloop PR bsize N p extra data 0 src [] f
     | FData [] src => cflush PR bsize N p [] f
     | FData l src => step PR bsize N extra l 0 p src f
     end
   else step PR bsize N extra data idec p src f).
Proof.
  intros Q. apply (cloop_eq PR bsize (fun _ _ _ => False) hclosing (complete a b1 H) (bound a b1 + 16)); auto; try (intros; contradiction).
  - intros p' o room. apply hclosing_close.
  - apply hclosing_bound.
Qed.
End Close.

(** how many turns the loop can take before the source is exhausted, at most *)
Definition turns (bsize : Z) (data : list Z) (idec : Z) (src : list event) : nat :=
  (Z.to_nat (zlen data - idec) + (Z.to_nat bsize + 2) * length src)%nat.


(** the loop entered with [src] and this state of the buffers; [T]: turns enough to
    reach the flush *)
Definition loops (bsize : Z) (extra data : list Z) (idec : Z) (src : list event) (b : B) (bs bc : Z) (later : list command) (nE T : nat) (single : bool) : Prop :=
  forall es a b1 H fuel F n, world es a b1 H fuel F n -> (nE <= n)%nat -> forall N cm dataH cap f,
    running dict wl D g es a b1 H fuel later cm dataH -> (cm_hdr cm <> 16%nat -> dataH = []) -> capok (zlen dataH) cap -> f_got f = [] -> (T + Z.to_nat (bound a b1 + 16) + 1 < N)%nat ->
    cpost (complete a b1 H) f src
      (if single then step (hybrid_processor dict wl D g fe optimize n F) bsize N extra data idec (HY b cm bs bc dataH cap 0) src f
       else cloop (hybrid_processor dict wl D g fe optimize n F) bsize N (HY b cm bs bc dataH cap 0) extra data idec src [] f).
Lemma hcloop_spec bsize : hungry fe optimize b0 -> 1 <= bsize -> forall m extra data idec src b x cs bs bc,
  (turns bsize data idec src < m)%nat -> (zlen extra = 0 /\ zlen data <= bsize \/ data = extra) -> 0 <= idec <= zlen data ->
  RE b x cs -> b_finished fe b = false -> capok bs bc -> bytes (zskip idec data ++ heard (if zlen extra =? 0 then data else []) src) -> Forall honest src -> Forall (at_most bsize) src ->
  exists later nE T b' x', RE b' x' (cs ++ later) /\ (faulty src = false -> x' = x ++ zskip idec data ++ heard (if zlen extra =? 0 then data else []) src /\ b_finished fe b' = true) /\
    loops bsize extra data idec src b bs bc later nE T false.
Proof.
  intros HG BS. induction m as [|m IH]; intros extra data idec src b x cs bs bc LM EX IR R NF CO BX HO AM; [lia|].
  (* calls of the library until it consumes something *)
  assert (STEPS : forall e d i s, (turns bsize d i s <= m)%nat -> (zlen e = 0 /\ zlen d <= bsize \/ d = e) -> 0 <= i < zlen d -> bytes (zskip i d ++ heard (if zlen e =? 0 then d else []) s) -> Forall honest s -> Forall (at_most bsize) s ->
    forall t b x cs bs bc, takes fe t b (zskip i d) -> RE b x cs -> b_finished fe b = false -> capok bs bc ->
    exists later nE T b' x', RE b' x' (cs ++ later) /\ (faulty s = false -> x' = x ++ zskip i d ++ heard (if zlen e =? 0 then d else []) s /\ b_finished fe b' = true) /\
      loops bsize e d i s b bs bc later nE T true).
  { clear extra data idec src b x cs bs bc LM EX IR R NF CO BX HO AM. intros e d i s LM ED IR BX HO AM. pose proof (proj1 (proj1 (Forall_app _ _ _) BX)) as BI. pose proof (proj2 (proj1 (Forall_app _ _ _) BX)) as BH.
    assert (ZU : zlen (zskip i d) = zlen d - i) by (rewrite zlen_skip by lia; lia).
    induction t as [|t IHt]; intros b x cs bs bc TK R NF CO; [contradiction TK|]. cbn [takes] in TK.
    destruct (grown_ok _ _ 256 CO ltac:(lia)) as (_ & GR & _).
    destruct (encode_step dict wl D g ws fe optimize b0 GF b x cs bs bc (zskip i d) R NF CO BI) as (k & w & ms & b' & bs' & bc' & CO' & R' & NF' & K & ST & KS).
    destruct (Z.eq_dec k 0) as [K0|K0].
    - subst k. destruct (TK (grown bs bc 256 - bs) 0 w ms b' ltac:(lia) ST) as [Q|TK']; [lia|].
      destruct (IHt b' _ _ bs' bc' TK' R' NF' CO') as (later & nE & T & b2 & x2 & R2 & X2 & K2).
      exists (concat (map (block optimize) ms) ++ later), nE, (S T), b2, x2. rewrite app_assoc. split; [exact R2|]. split; [change (zfirst 0 (zskip i d)) with (@nil Z) in X2; rewrite app_nil_r in X2; exact X2|].
      intros es a b1 H fuel F n W LE N cm dataH cap f I HD CD GE LN. unfold step. change (zlen (@nil Z)) with 0. rewrite Z.sub_0_r.
      destruct (KS es a b1 H fuel F n W later cm dataH dataH cap bsize I HD CD) as (cm' & o & cap' & CD' & HD' & E & I'). rewrite E. change (zlen (@nil Z)) with 0.
      destruct (Z.ltb_spec (zlen d - i) 0); [lia|]. destruct (Z.ltb_spec bsize 0); [lia|]. cbn [orb app]. destruct (put f []) as (f', ok) eqn:PU. destruct (put_spec _ _ _ _ PU) as (_ & U1 & U2 & U3).
      destruct ok; [|right; cbn [snd]; auto]. specialize (U1 eq_refl). rewrite GE in U1. apply (cpost_later _ f f' s s); [exact U3|reflexivity|]. rewrite Z.add_0_r. destruct N as [|N]; [lia|].
      rewrite (hloop_eq es a b1 H fuel F n W) by (destruct ED as [(ED & _)|ED]; auto). cbv zeta.
      assert (NO : negb (zlen e =? 0) && (i =? zlen e) = false). { destruct ED as [(-> & _)|ED]; [reflexivity|]. rewrite <- ED. destruct (Z.eqb_spec i (zlen d)); [lia|]. apply andb_false_r. }
      rewrite NO. destruct (Z.eqb_spec i (zlen d)); [lia|]. apply (K2 es a b1 H fuel F n W LE); auto. lia.
    - assert (SK : zskip (i + k) d = zskip k (zskip i d)) by (rewrite zskip_zskip by lia; reflexivity).
      destruct (IH e d (i + k) s b' (x ++ zfirst k (zskip i d)) (cs ++ concat (map (block optimize) ms)) bs' bc') as (later & nE & T & b2 & x2 & R2 & X2 & K2); try assumption.
      + unfold turns in *. lia.
      + lia.
      + rewrite SK. apply Forall_app. split; [|exact BH]. rewrite <- (zfirst_skip k (zskip i d)) in BI. exact (proj2 (proj1 (Forall_app _ _ _) BI)).
      + exists (concat (map (block optimize) ms) ++ later), nE, T, b2, x2. rewrite app_assoc. split; [exact R2|]. split.
        { intros Q. destruct (X2 Q) as (-> & F2). split; [|exact F2]. rewrite <- app_assoc. f_equal. rewrite SK, app_assoc, zfirst_skip. reflexivity. }
        intros es a b1 H fuel F n W LE N cm dataH cap f I HD CD GE LN. unfold step. change (zlen (@nil Z)) with 0. rewrite Z.sub_0_r.
        destruct (KS es a b1 H fuel F n W later cm dataH dataH cap bsize I HD CD) as (cm' & o & cap' & CD' & HD' & E & I'). rewrite E. change (zlen (@nil Z)) with 0.
        destruct (Z.ltb_spec (zlen d - i) k); [lia|]. destruct (Z.ltb_spec bsize 0); [lia|]. cbn [orb app]. destruct (put f []) as (f', ok) eqn:PU. destruct (put_spec _ _ _ _ PU) as (_ & U1 & U2 & U3).
        destruct ok; [|right; cbn [snd]; auto]. specialize (U1 eq_refl). rewrite GE in U1. apply (cpost_later _ f f' s s); [exact U3|reflexivity|]. apply (K2 es a b1 H fuel F n W LE); auto. }
  assert (STEP : forall e d i s, (turns bsize d i s <= m)%nat -> (zlen e = 0 /\ zlen d <= bsize \/ d = e) -> 0 <= i < zlen d -> bytes (zskip i d ++ heard (if zlen e =? 0 then d else []) s) -> Forall honest s -> Forall (at_most bsize) s ->
    exists later nE T b' x', RE b' x' (cs ++ later) /\ (faulty s = false -> x' = x ++ zskip i d ++ heard (if zlen e =? 0 then d else []) s /\ b_finished fe b' = true) /\
      loops bsize e d i s b bs bc later nE T true).
  { intros e d i s LM' ED' IR' BX' HO' AM'. destruct (HG b x cs (zskip i d) R NF) as (t & TK).
    - intros Q. assert (ZU : zlen (zskip i d) = zlen d - i) by (rewrite zlen_skip by lia; lia). rewrite Q in ZU. change (zlen (@nil Z)) with 0 in ZU. lia.
    - exact (proj1 (proj1 (Forall_app _ _ _) BX')).
    - exact (STEPS e d i s LM' ED' IR' BX' HO' AM' t b x cs bs bc TK R NF CO). }
  assert (OV : forall es a b1 H fuel F n, world es a b1 H fuel F n -> forall N p f, let over := negb (zlen extra =? 0) && (idec =? zlen extra) in
     cloop (hybrid_processor dict wl D g fe optimize n F) bsize (S N) p extra data idec src [] f = 
     (if (if over then 0 else idec) =? zlen (if over then [] else data) then
     match source_read src bsize with
     | FErr _ => (f, TError)
     | FIntr src => cloop (hybrid_processor dict wl D g fe optimize n F) bsize N p (if over then [] else extra) (if over then [] else data) 0 src [] f
     | FData [] src => cflush (hybrid_processor dict wl D g fe optimize n F) bsize N p [] f
     | FData l src => step (hybrid_processor dict wl D g fe optimize n F) bsize N (if over then [] else extra) l 0 p src f
     end
   else step (hybrid_processor dict wl D g fe optimize n F) bsize N (if over then [] else extra) (if over then [] else data) (if over then 0 else idec) p src f)).
  { intros es a b1 H fuel F n W N p f. apply (hloop_eq es a b1 H fuel F n W). destruct EX as [(EX & _)|EX]; auto. }
  cbv zeta in OV. set (over := negb (zlen extra =? 0) && (idec =? zlen extra)) in *. set (e := if over then [] else extra) in *. set (d := if over then [] else data) in *. set (i := if over then 0 else idec) in *.
  assert (S1 : (zlen e = 0 /\ zlen d <= bsize \/ d = e) /\ 0 <= i <= zlen d /\ zskip idec data ++ heard (if zlen extra =? 0 then data else []) src = zskip i d ++ heard (if zlen e =? 0 then d else []) src /\ (i = zlen d -> zlen e = 0 /\ zlen d <= bsize) /\ turns bsize data idec src = turns bsize d i src).
  { unfold e, d, i. destruct over eqn:OE; unfold over in OE.
    - change (zlen (@nil Z)) with 0. change (0 =? 0) with true. split; [left; lia|]. split; [lia|]. apply andb_prop in OE. destruct OE as (O1 & O2). destruct (Z.eqb_spec (zlen extra) 0) as [Q|Q]; [discriminate O1|]. destruct EX as [(EX & _)|EX]; [lia|]. subst extra. apply Z.eqb_eq in O2.
      rewrite zskip_all by lia. change (zskip 0 (@nil Z)) with (@nil Z). split; [reflexivity|]. split; [intros _; lia|]. unfold turns. change (zlen (@nil Z)) with 0. lia.
    - split; [exact EX|]. split; [exact IR|]. split; [reflexivity|]. split; [|reflexivity]. intros Q. destruct EX as [EX|EX]; [exact EX|]. subst extra. destruct (Z.eqb_spec (zlen data) 0) as [N|N]; [lia|]. rewrite Q, Z.eqb_refl in OE. discriminate OE. }
  clearbody e d i over. destruct S1 as (ED & IR' & EQ & EZ & ET). rewrite ET in LM. rewrite EQ in BX. rewrite EQ. clear EX IR EQ ET.
  destruct (Z.eq_dec i (zlen d)) as [Q|Q]; [rewrite (proj2 (Z.eqb_eq _ _) Q) in OV|rewrite (proj2 (Z.eqb_neq _ _) Q) in OV].
  - destruct (EZ Q) as (EZ1 & LD). rewrite EZ1 in *. change (0 =? 0) with true in *. rewrite zskip_all in * by lia. cbn [app] in *.
    destruct src as [|[l| |] src].
    + destruct (gf_ends _ _ _ _ _ _ _ _ GF b x cs R) as (N & EN). destruct (drive_spec dict wl D g ws fe optimize b0 GF N b x cs bs bc R NF EN CO) as (later & nE & (b' & R' & F') & DR).
      exists later, nE, O, b', x. split; [exact R'|]. split; [intros _; cbn [heard]; rewrite app_nil_r; auto|]. intros es a b1 H fuel F n W LE [|N'] cm dataH cap f I HD CD GE LN; [lia|].
      rewrite (OV es a b1 H fuel F n W). cbn [source_read]. apply (hflush_spec es a b1 H fuel F n W bsize []); [exact BS|reflexivity| |rewrite GE; change (zlen (@nil Z)) with 0; lia].
      left. exists b, bs, bc, later, nE, cm, dataH, cap. rewrite GE. auto 8.
    + apply Forall_cons_iff in HO. destruct HO as (HE & HO). apply Forall_cons_iff in AM. destruct AM as (AE & AM). cbn [at_most] in AE.
      destruct l as [|z l]; [contradiction HE|]. set (l0 := z :: l) in *. assert (L0 : 0 < zlen l0) by (unfold l0; rewrite zlen_cons; pose proof (zlen_nonneg l); lia).
      destruct (STEP e l0 0 src) as (later & nE & T & b' & x' & R' & X' & K); auto.
      { unfold turns in *. cbn [length] in LM. nia. }
      { lia. }
      { rewrite EZ1. exact BX. }
      exists later, nE, (S T), b', x'. split; [exact R'|]. split; [intros FA; rewrite EZ1 in X'; exact (X' FA)|]. intros es a b1 H fuel F n W LE [|N'] cm dataH cap f I HD CD GE LN; [lia|].
      rewrite (OV es a b1 H fuel F n W). cbn [source_read]. destruct (Z.ltb_spec bsize (zlen l0)); [lia|]. rewrite zfirst_all by lia. unfold l0 at 1. fold l0. apply (cpost_later _ f f (SData l0 :: src) src); [auto|reflexivity|]. apply (K es a b1 H fuel F n W LE); auto. lia.
    + apply Forall_cons_iff in HO. destruct HO as (HE & HO). apply Forall_cons_iff in AM. destruct AM as (AE & AM). cbn [heard] in *.
      destruct (IH e d 0 src b x cs bs bc) as (later & nE & T & b' & x' & R' & X' & K); auto.
      { unfold turns in *. cbn [length] in LM. nia. }
      { pose proof (zlen_nonneg d). lia. }
      { rewrite EZ1. exact BX. }
      exists later, nE, (S T), b', x'. split; [exact R'|]. split; [intros FA; rewrite EZ1 in X'; exact (X' FA)|]. intros es a b1 H fuel F n W LE [|N'] cm dataH cap f I HD CD GE LN; [lia|].
      rewrite (OV es a b1 H fuel F n W). cbn [source_read]. apply (cpost_later _ f f (SIntr :: src) src); [auto|reflexivity|]. apply (K es a b1 H fuel F n W LE); auto. lia.
    + exists [], O, O, b, x. rewrite app_nil_r. split; [exact R|]. split; [discriminate|]. intros es a b1 H fuel F n W LE [|N'] cm dataH cap f I HD CD GE LN; [lia|].
      rewrite (OV es a b1 H fuel F n W). cbn [source_read]. right. cbn [snd faulty]. auto.
  - destruct (STEP e d i src) as (later & nE & T & b' & x' & R' & X' & K); auto; [lia|lia|]. exists later, nE, (S T), b', x'. split; [exact R'|]. split; [exact X'|]. intros es a b1 H fuel F n W LE [|N'] cm dataH cap f I HD CD GE LN; [lia|].
    rewrite (OV es a b1 H fuel F n W). apply (K es a b1 H fuel F n W LE); auto. lia.
Qed.
End T.
