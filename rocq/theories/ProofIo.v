(** The adapters over any processor that keeps a simple contract. *)
From Verif Require Import Prelude ProofList ModelMux ProofZlist ModelIo SpecIo.
From Coq Require Import Lia.

Section Contract.
Context {P : Type} (pr : processor P) (cap : Z) (CAP : 1 <= cap).
(** [inv p x o]: [x] is still to be read, [o] has been put out; [cinv p x o]: the same,
    from the first [close] on; [done p o]: everything is out. *)
Context (inv cinv : P -> list Z -> list Z -> Prop) (done : P -> list Z -> Prop) (owes : P -> Prop) (good part : list Z -> Prop) (bound : Z) (short rd : bool).
Record contract : Prop := CT {
  ct_proc : forall p x o i f room, inv p x o -> x = i ++ f -> 1 <= room -> exists pre suf o2 p' r, process pr p i room = Some (zlen pre, o2, p', r) /\ i = pre ++ suf /\ zlen o2 <= room /\
    inv p' (suf ++ f) (o ++ o2) /\
    match r with PSuccess => suf = [] /\ f = [] /\ done p' (o ++ o2) | PNeedIn => suf = [] | PNeedOut => zlen o2 = room /\ (rd = true -> owes p') /\ (short = true -> suf <> [] -> f = []) | PFail => False end /\
    (owes p -> suf = [] -> f = [] -> o2 = [] -> done p' o);
  ct_turn : forall p x o, inv p x o -> x = [] \/ short = true -> cinv p x o;
  ct_close : forall p x o room, cinv p x o -> 1 <= room -> exists o2 p' r, close pr p room = Some (o2, p', r) /\ zlen o2 <= room /\ cinv p' x (o ++ o2) /\
    match r with PSuccess => x = [] /\ done p' (o ++ o2) | PNeedOut => zlen o2 = room | PNeedIn => False | PFail => x <> [] end;
  ct_done : forall p o room, done p o -> 1 <= room -> exists p', close pr p room = Some ([], p', PSuccess) /\ done p' o;
  ct_part : forall p x o, inv p x o \/ cinv p x o -> part o /\ zlen o <= bound;
  ct_good : forall p o, done p o -> good o /\ part o /\ zlen o <= bound }.
Context (C : contract).

(** ** The reader *)
Notation avail g := (zlen (g_data g) - g_off g).
Notation unread g := (zskip (g_off g) (g_data g)).
Context (RD : rd = true) (miss : list Z) (flt : bool) (MS : miss = [] \/ short = true).
Fixpoint weight (src : list event) : nat := match src with [] => 0 | SData l :: src => 2 * length l + 2 + weight src | _ :: src => 2 + weight src end.
Context (W0 : nat).
Definition shape (g : @greader P) : Prop := 0 <= g_off g <= zlen (g_data g) /\ zlen (g_data g) <= cap /\ (weight (g_src g) <= W0)%nat.
Definition opened (g : @greader P) (o : list Z) : Prop :=
  g_eof g = false /\ g_err g = false /\ inv (g_p g) (unread g ++ content (g_src g) ++ miss) o /\ Forall honest (g_src g) /\ faulty (g_src g) = flt /\ (avail g = 0 -> zlen (g_data g) < cap).
Definition ending (g : @greader P) (o : list Z) : Prop :=
  g_eof g = true /\ avail g <> 0 /\ inv (g_p g) (unread g ++ miss) o /\ owes (g_p g) /\ miss = [] /\ g_err g = flt.
Definition closing (g : @greader P) (o : list Z) : Prop := g_eof g = true /\ avail g = 0 /\ g_err g = flt /\ cinv (g_p g) miss o.
Definition ended (g : @greader P) (o : list Z) : Prop := g_eof g = true /\ avail g = 0 /\ g_err g = false /\ done (g_p g) o /\ miss = [] /\ flt = false.
Definition RI (g : @greader P) (o : list Z) : Prop :=
  shape g /\ ((opened g o /\ (avail g <> 0 -> owes (g_p g) /\ miss = [])) \/ ending g o \/ (closing g o /\ g_err g = false) \/ ended g o).
Definition post (room : Z) (o : list Z) (res : @rout P) : Prop :=
  match res with
  | ROk o2 g => zlen o2 <= room /\ RI g (o ++ o2) /\ (o2 = [] -> ended g o)
  | RErr _ => miss <> [] \/ flt = true
  | RSpin | RPanic => False
  end.

Definition after (fuel : nat) (g : @greader P) (room av : Z) (needs : bool) (out : list Z) : @rout P :=
      match (if av =? 0 then
               match close pr (g_p g) (room - zlen out) with
               | None => None
               | Some (o, p, r) => Some (0, o, GR p (g_data g) (g_off g) (g_eof g) true (g_err g) (g_src g), r)
               end
             else
               match process pr (g_p g) (zfirst av (zskip (g_off g) (g_data g))) (room - zlen out) with
               | None => None
               | Some (n, o, p, r) => Some (n, o, GR p (g_data g) (g_off g + n) (g_eof g) (g_flushed g) (g_err g) (g_src g), r)
               end) with
      | None => RPanic
      | Some (n, o, g, r) =>
          if (av <? n) || (room - zlen out <? zlen o) then RPanic else
          let av := av - n in
          let out := out ++ o in
          if (av =? 0) && g_err g then RErr (GR (g_p g) (g_data g) (g_off g) (g_eof g) (g_flushed g) false (g_src g)) else
          let needs := if av =? 0 then true else needs in
          let g := if av =? 0 then copy_to_front cap g else g in
          match r with
          | PFail => RErr g
          | PSuccess => if g_eof g && (av =? 0) && g_flushed g then ROk out g else read_loop pr cap fuel g room av needs out
          | _ => read_loop pr cap fuel g room av needs out
          end
      end.
Lemma read_loop_eq n g room av needs out : read_loop pr cap (S n) g room av needs out =
  if negb ((room - zlen out =? room) && (negb needs || negb (g_eof g))) then ROk out g else
  let '(g, av, needs, again) := fetch cap g av needs in
  if again then read_loop pr cap n g room av needs out else after n g room av needs out.
Proof. reflexivity. Qed.
Lemma loop_exit n g room av needs out : out <> [] \/ (needs = true /\ g_eof g = true) -> read_loop pr cap (S n) g room av needs out = ROk out g.
Proof.
  intros K. rewrite read_loop_eq. destruct K as [K|(-> & ->)]; [|rewrite andb_false_r; reflexivity].
  assert (0 < zlen out) by (destruct out; [contradiction|unfold zlen; cbn [length]; lia]). destruct (Z.eqb_spec (room - zlen out) room); [lia|reflexivity].
Qed.
Lemma front_empty g : shape g -> avail g = 0 -> let g' := copy_to_front cap g in
  shape g' /\ avail g' = 0 /\ zlen (g_data g') < cap /\ unread g' = [] /\ g_p g' = g_p g /\ g_eof g' = g_eof g /\ g_err g' = g_err g /\ g_src g' = g_src g /\ g_flushed g' = g_flushed g.
Proof.
  intros (S1 & S2) A. cbv zeta. unfold copy_to_front. rewrite A.
  destruct (Z.eqb_spec (g_off g) cap) as [E|E].
  - unfold shape. cbn [g_data g_off g_p g_eof g_err g_src g_flushed]. change (zlen (@nil Z)) with 0. repeat split; lia.
  - destruct ((cap <? g_off g + 256) && (0 <? g_off g)).
    + unfold shape. cbn [g_data g_off g_p g_eof g_err g_src g_flushed]. replace (zskip (g_off g) (g_data g)) with (@nil Z) by (symmetry; apply zlen_0_nil; rewrite zlen_skip by lia; lia).
      change (zlen (@nil Z)) with 0. repeat split; lia.
    + unfold shape. repeat split; try lia. apply zlen_0_nil. rewrite zlen_skip by lia. lia.
Qed.
Lemma closing_step n g room needs o : shape g -> closing g o -> 1 <= room -> post room o (after (S n) g room 0 needs []).
Proof.
  intros SH (E & A & ER & CI) R. unfold after. change (0 =? 0) with true. cbn match. change (zlen (@nil Z)) with 0. rewrite Z.sub_0_r.
  destruct (ct_close C _ _ _ room CI R) as (o2 & p' & r & -> & LO & CI' & K). change (0 <? 0) with false. destruct (Z.ltb_spec room (zlen o2)); [lia|]. cbn [orb app]. change (0 - 0) with 0. change (0 =? 0) with true. cbn [andb g_err].
  destruct (g_err g) eqn:GE; [cbn [post]; right; symmetry; exact ER|].
  set (g1 := GR p' (g_data g) (g_off g) (g_eof g) true false (g_src g)).
  destruct (front_empty g1 SH A) as (SH2 & A2 & LC & U & EP & EE & EER & ES & EF). set (g2 := copy_to_front cap g1) in *. cbn [g_p g_eof g_err g_src g_flushed g1] in EP, EE, EER, ES, EF.
  rewrite EE, E, EF. cbn [andb].
  assert (RC : closing g2 (o ++ o2)). { split; [rewrite EE; exact E|]. split; [exact A2|]. split; [rewrite EER; exact ER|]. rewrite EP. exact CI'. }
  destruct r.
  - destruct K as (M0 & DN). cbn [post]. assert (EN : ended g2 (o ++ o2)). { split; [rewrite EE; exact E|]. split; [exact A2|]. split; [exact EER|]. rewrite EP. auto. }
    split; [exact LO|]. split; [split; [exact SH2|right; right; right; exact EN]|]. intros ->. rewrite app_nil_r in EN. exact EN.
  - contradiction.
  - rewrite loop_exit by (left; destruct o2; [change (zlen (@nil Z)) with 0 in K; lia|discriminate]). cbn [post]. split; [exact LO|]. split; [split; [exact SH2|right; right; left; auto]|].
    intros ->. change (zlen (@nil Z)) with 0 in K. lia.
  - cbn [post]. left. exact K.
Qed.
Lemma ended_stays n g room needs o : shape g -> ended g o -> 1 <= room -> exists g', after n g room 0 needs [] = ROk [] g' /\ shape g' /\ ended g' o.
Proof.
  intros SH (E & A & ER & DN & M0 & F0) R. unfold after. change (0 =? 0) with true. cbn match. change (zlen (@nil Z)) with 0. rewrite Z.sub_0_r.
  destruct (ct_done C _ _ room DN R) as (p' & -> & DN'). change (0 <? 0) with false. change (zlen (@nil Z)) with 0. destruct (Z.ltb_spec room 0); [lia|]. cbn [orb app]. change (0 - 0) with 0. change (0 =? 0) with true. cbn [andb g_err]. rewrite ER.
  set (g1 := GR p' (g_data g) (g_off g) (g_eof g) true false (g_src g)).
  destruct (front_empty g1 SH A) as (SH2 & A2 & LC & U & EP & EE & EER & ES & EF). set (g2 := copy_to_front cap g1) in *. cbn [g_p g_eof g_err g_src g_flushed g1] in EP, EE, EER, ES, EF.
  rewrite EE, E, EF. cbn [andb]. exists g2. split; [reflexivity|]. split; [exact SH2|].
  split; [rewrite EE; exact E|]. split; [exact A2|]. split; [exact EER|]. rewrite EP. auto.
Qed.
Lemma ended_step n g room needs o : shape g -> ended g o -> 1 <= room -> post room o (after n g room 0 needs []).
Proof.
  intros SH EN R. destruct (ended_stays n g room needs o SH EN R) as (g' & -> & SH' & EN'). cbn [post]. rewrite app_nil_r. change (zlen (@nil Z)) with 0.
  split; [lia|]. split; [split; [exact SH'|right; right; right; exact EN']|]. intros _. exact EN'.
Qed.
Lemma whole_unread g : shape g -> zfirst (avail g) (unread g) = unread g.
Proof. intros ((S1 & S2) & S3). assert (Q : zlen (unread g) = avail g) by (rewrite zlen_skip by lia; lia). rewrite <- Q. rewrite <- (app_nil_r (unread g)) at 2. apply zfirst_app_exact; reflexivity. Qed.
Lemma moved g (pre suf : list Z) : shape g -> unread g = pre ++ suf -> zskip (g_off g + zlen pre) (g_data g) = suf /\ zlen (g_data g) - (g_off g + zlen pre) = zlen suf.
Proof.
  intros ((S1 & S2) & S3) U. pose proof (zlen_nonneg pre) as NP. assert (LU : zlen (unread g) = avail g) by (rewrite zlen_skip by lia; lia). pose proof LU as LU2. rewrite U, zlen_app in LU.
  split; [|lia]. pose proof (zskip_app_exact (zlen pre) pre suf eq_refl) as Q. rewrite <- U in Q. rewrite <- Q. unfold zskip. rewrite skipn_skipn. f_equal. lia.
Qed.
(** processing at the end of the source *)
Lemma ending_step n g room o needs : shape g -> ending g o -> 1 <= room -> post room o (after (S n) g room (avail g) needs []).
Proof.
  intros SH (E & A & I & OW & M0 & ER) R. unfold after. destruct (Z.eqb_spec (avail g) 0) as [Q|_]; [contradiction|]. change (zlen (@nil Z)) with 0. rewrite Z.sub_0_r, whole_unread by exact SH.
  destruct (ct_proc C _ _ _ (unread g) miss room I eq_refl R) as (pre & suf & o2 & p' & r & -> & U & LO & I' & K & EARLY).
  destruct (moved g pre suf SH U) as (U' & A'). pose proof (zlen_nonneg pre) as NP. pose proof (zlen_nonneg suf) as NS. destruct SH as ((S1 & S2) & S3).
  destruct (Z.ltb_spec (avail g) (zlen pre)); [lia|]. destruct (Z.ltb_spec room (zlen o2)); [lia|]. cbn [orb app g_err]. replace (avail g - zlen pre) with (zlen suf) by lia.
  set (g1 := GR p' (g_data g) (g_off g + zlen pre) (g_eof g) (g_flushed g) (g_err g) (g_src g)).
  assert (SH1 : shape g1) by (unfold shape, g1; cbn [g_off g_data g_src]; lia).
  destruct (Z.eqb_spec (zlen suf) 0) as [Z0|NZ].
  - cbn [andb]. destruct (g_err g) eqn:GE; [cbn [post]; right; symmetry; exact ER|]. assert (S0 : suf = []) by (apply zlen_0_nil; exact Z0). rewrite S0 in *. cbn [app] in I'.
    destruct (front_empty g1 SH1 ltac:(unfold g1; cbn [g_off g_data]; lia)) as (SH2 & A2 & LC & U2 & EP & EE & EER & ES & EF). set (g2 := copy_to_front cap g1) in *. cbn [g_p g_eof g_err g_src g_flushed g1] in EP, EE, EER, ES, EF.
    rewrite EE, E, EF. cbn [andb].
    assert (RG : zlen o2 <= room /\ RI g2 (o ++ o2) /\ (o2 = [] -> ended g2 o)).
    { split; [exact LO|]. split.
      - split; [exact SH2|]. right. right. left. split; [|exact EER]. split; [rewrite EE; exact E|]. split; [exact A2|]. split; [rewrite EER; exact ER|]. rewrite EP. exact (ct_turn C _ _ _ I' MS).
      - intros ->. split; [rewrite EE; exact E|]. split; [exact A2|]. split; [exact EER|]. split; [|split; [exact M0|symmetry; exact ER]]. rewrite EP. apply EARLY; auto. }
    assert (EX : forall m, post room o (read_loop pr cap (S m) g2 room 0 true o2)) by (intros m; rewrite loop_exit by (right; rewrite EE; auto); exact RG).
    change (zlen (@nil Z)) with 0. destruct r; [destruct (g_flushed g); [exact RG|apply EX]|apply EX|apply EX|contradiction].
  - cbn [andb]. destruct r; [destruct K as (K & _); rewrite K in NZ; exfalso; apply NZ; reflexivity|rewrite K in NZ; exfalso; apply NZ; reflexivity| |contradiction].
    destruct K as (ZL & OW' & SHF). specialize (OW' RD). rewrite loop_exit by (left; destruct o2; [change (zlen (@nil Z)) with 0 in ZL; lia|discriminate]). cbn [post]. split; [exact LO|].
    split; [split; [exact SH1|]|intros ->; change (zlen (@nil Z)) with 0 in ZL; lia].
    right. left. split; [exact E|]. unfold g1. cbn [g_data g_off g_p g_err]. split; [lia|]. rewrite U'. auto.
Qed.
Definition size (g : @greader P) : nat := weight (g_src g) + (if avail g =? 0 then 0 else 1).

(** processing while the source is open *)
Lemma open_step n g room o needs : shape g -> opened g o -> avail g <> 0 -> 1 <= room ->
  (forall g', (weight (g_src g') <= weight (g_src g))%nat -> avail g' = 0 -> shape g' -> opened g' o -> post room o (read_loop pr cap (S n) g' room 0 true [])) ->
  post room o (after (S n) g room (avail g) needs []).
Proof.
  intros SH (E & GE & I & HO & FA & _) A R IH. unfold after. destruct (Z.eqb_spec (avail g) 0) as [Q|_]; [contradiction|]. change (zlen (@nil Z)) with 0. rewrite Z.sub_0_r, whole_unread by exact SH.
  destruct (ct_proc C _ _ _ (unread g) (content (g_src g) ++ miss) room I eq_refl R) as (pre & suf & o2 & p' & r & -> & U & LO & I' & K & _).
  destruct (moved g pre suf SH U) as (U' & A'). pose proof (zlen_nonneg pre) as NP. pose proof (zlen_nonneg suf) as NS. destruct SH as ((S1 & S2) & S3).
  destruct (Z.ltb_spec (avail g) (zlen pre)); [lia|]. destruct (Z.ltb_spec room (zlen o2)); [lia|]. cbn [orb app g_err]. rewrite GE, andb_false_r. replace (avail g - zlen pre) with (zlen suf) by lia.
  set (g1 := GR p' (g_data g) (g_off g + zlen pre) (g_eof g) (g_flushed g) false (g_src g)).
  assert (SH1 : shape g1) by (unfold shape, g1; cbn [g_off g_data g_src]; lia).
  destruct (Z.eqb_spec (zlen suf) 0) as [Z0|NZ].
  - assert (S0 : suf = []) by (apply zlen_0_nil; exact Z0). rewrite S0 in *. cbn [app] in I'.
    destruct (front_empty g1 SH1 ltac:(unfold g1; cbn [g_off g_data]; lia)) as (SH2 & A2 & LC & U2 & EP & EE & EER & ES & EF). set (g2 := copy_to_front cap g1) in *. cbn [g_p g_eof g_err g_src g_flushed g1] in EP, EE, EER, ES, EF.
    rewrite EE, E. cbn [andb]. change (zlen (@nil Z)) with 0.
    assert (OP : opened g2 (o ++ o2)). { split; [rewrite EE; exact E|]. split; [exact EER|]. rewrite EP, ES, U2. auto. }
    assert (EX : post room o (read_loop pr cap (S n) g2 room 0 true o2)).
    { destruct o2 as [|z o2]; [rewrite app_nil_r in OP; apply IH; [rewrite ES; lia|exact A2|exact SH2|exact OP]|]. rewrite loop_exit by (left; discriminate). cbn [post]. split; [exact LO|]. split; [|discriminate].
      split; [exact SH2|]. left. split; [exact OP|]. intros Q. contradiction. }
    destruct r; [exact EX|exact EX|exact EX|contradiction].
  - destruct r; [destruct K as (K & _); rewrite K in NZ; exfalso; apply NZ; reflexivity|rewrite K in NZ; exfalso; apply NZ; reflexivity| |contradiction].
    destruct K as (ZL & OW' & SHF). specialize (OW' RD). rewrite loop_exit by (left; destruct o2; [change (zlen (@nil Z)) with 0 in ZL; lia|discriminate]). cbn [post]. split; [exact LO|].
    split; [split; [exact SH1|]|intros ->; change (zlen (@nil Z)) with 0 in ZL; lia].
    left. split; [|intros _; split; [exact OW'|]; destruct MS as [M0|SHT]; [exact M0|]; apply app_eq_nil with (l := content (g_src g)); apply SHF; [exact SHT|]; intros Q; rewrite Q in NZ; apply NZ; reflexivity]. split; [exact E|]. unfold g1. cbn [g_data g_off g_p g_err g_src]. rewrite U'. split; [reflexivity|]. split; [exact I'|]. split; [exact HO|]. split; [exact FA|]. intros Q. lia.
Qed.
Lemma open_loop : forall n g room needs o, shape g -> opened g o -> (avail g <> 0 -> owes (g_p g) /\ miss = []) -> 1 <= room -> (size g + 2 <= n)%nat -> post room o (read_loop pr cap n g room (avail g) needs []).
Proof.
  induction n as [|n IH]; intros g room needs o SH OP OW R LE; [lia|]. destruct n as [|n]; [lia|].
  assert (IH' : forall g', (weight (g_src g') < size g)%nat -> avail g' = 0 -> shape g' -> opened g' o -> post room o (read_loop pr cap (S n) g' room 0 true [])).
  { intros g' W A' SH' OP'. rewrite <- A'. apply IH; [exact SH'|exact OP'|intros Q; contradiction|exact R|]. unfold size at 1. rewrite A'. change (0 =? 0) with true. cbn iota. lia. }
  rewrite read_loop_eq. pose proof OP as (E & GE & I & HO & FA & LC). rewrite E. change (zlen (@nil Z)) with 0. rewrite Z.sub_0_r, Z.eqb_refl, orb_true_r. cbn [andb negb].
  unfold fetch. rewrite E. cbn [negb]. rewrite andb_true_r. pose proof SH as ((S1 & S2) & S3).
  destruct (Z.ltb_spec (zlen (g_data g)) cap) as [ROOM|FULL]; cycle 1.
  { cbn beta iota. assert (A : avail g <> 0) by (intros Q; specialize (LC Q); lia). apply open_step; auto. intros g' W A' SH' OP'. apply IH'; auto. unfold size. destruct (Z.eqb_spec (avail g) 0); [contradiction|]. lia. }
  destruct (g_src g) as [|ev src] eqn:ES.
  - (* the source has ended *)
    cbn [source_read]. change (zlen (@nil Z)) with 0. change (0 =? 0) with true. cbn beta iota. set (g1 := GR (g_p g) (g_data g) (g_off g) true (g_flushed g) (g_err g) []).
    destruct (Z.eq_dec (avail g) 0) as [A|A].
    + rewrite A. apply closing_step; [unfold shape, g1; cbn [g_off g_data g_src weight]; cbn [weight] in S3; lia| |exact R]. split; [reflexivity|]. split; [exact A|]. split; [cbn [g_err g1]; rewrite GE; exact FA|]. cbn [g_p g1]. apply (ct_turn C); [|exact MS].
      cbn [content app] in I. replace (unread g) with (@nil Z) in I by (symmetry; apply zlen_0_nil; rewrite zlen_skip by lia; lia). exact I.
    + change (avail g) with (avail g1). apply ending_step; [unfold shape, g1; cbn [g_off g_data g_src weight]; cbn [weight] in S3; lia| |exact R]. split; [reflexivity|]. split; [exact A|]. split; [exact I|]. split; [exact (proj1 (OW A))|]. split; [exact (proj2 (OW A))|]. cbn [g_err g1]. rewrite GE. exact FA.
  - destruct ev as [l| |]; cbn [source_read].
    + (* data *)
      apply Forall_cons_iff in HO. destruct HO as (HL & HO). assert (LL : 0 < zlen l) by (destruct l; [contradiction HL|unfold zlen; cbn [length]; lia]).
      set (k := cap - zlen (g_data g)) in *. assert (K0 : 0 < k) by (unfold k; lia).
      set (src' := if k <? zlen l then SData (zskip k l) :: src else src). set (d := zfirst k l).
      assert (DD : 0 < zlen d /\ zlen d <= k /\ d ++ content src' = l ++ content src /\ (weight src' + 2 <= weight (SData l :: src))%nat /\ Forall honest src' /\ faulty src' = faulty src).
      { unfold d, src'. destruct (Z.ltb_spec k (zlen l)) as [LT|GE2].
        - rewrite zlen_first by lia. split; [lia|]. split; [lia|]. cbn [content weight faulty]. split; [rewrite app_assoc; f_equal; apply zfirst_skip|].
          assert (zlen (zskip k l) = zlen l - k) by (rewrite zlen_skip by lia; lia).
          split; [unfold zlen in *; lia|]. split; [|reflexivity]. apply Forall_cons; [|exact HO]. unfold honest. destruct (zskip k l); [change (zlen (@nil Z)) with 0 in *; lia|exact Logic.I].
        - replace (zfirst k l) with l by (unfold zfirst; symmetry; apply firstn_all2; unfold zlen in *; lia). cbn [weight]. repeat split; try lia. exact HO. }
      destruct DD as (D1 & D2 & D3 & D4 & D5 & D6). destruct (Z.eqb_spec (zlen d) 0) as [Q|_]; [lia|]. cbn beta iota.
      set (g1 := GR (g_p g) (g_data g ++ d) (g_off g) false (g_flushed g) (g_err g) src').
      assert (SH1 : shape g1) by (unfold shape, g1; cbn [g_off g_data g_src]; rewrite zlen_app; unfold k in *; lia).
      assert (U1 : unread g1 = unread g ++ d) by (unfold g1; cbn [g_off g_data]; apply zskip_app_less; lia).
      replace (zlen (g_data g) + zlen d - g_off g) with (avail g1) by (unfold g1; cbn [g_off g_data]; rewrite zlen_app; lia).
      apply open_step; [exact SH1| |unfold g1; cbn [g_off g_data]; rewrite zlen_app; lia|exact R|].
      * split; [reflexivity|]. split; [exact GE|]. cbn [g_p g_src g1]. rewrite U1. split; [|split; [exact D5|split; [rewrite D6; exact FA|]]].
        -- cbn [content] in I. replace ((unread g ++ d) ++ content src' ++ miss) with (unread g ++ (l ++ content src) ++ miss); [exact I|]. rewrite <- D3. rewrite <- !app_assoc. reflexivity.
        -- intros Q. exfalso. unfold g1 in Q. cbn [g_off g_data] in Q. rewrite zlen_app in Q. lia.
      * intros g' W A' SH' OP'. apply IH'; auto. unfold size. rewrite ES. cbn [g_src g1] in W. destruct (avail g =? 0); lia.
    + (* interrupted *)
      cbn beta iota. set (g1 := GR (g_p g) (g_data g) (g_off g) false (g_flushed g) (g_err g) src).
      change (avail g) with (avail g1). apply IH; [unfold shape, g1; cbn [g_off g_data g_src weight]; cbn [weight] in S3; lia| |exact OW|exact R|].
      * apply Forall_cons_iff in HO. destruct HO as (_ & HO). split; [reflexivity|]. split; [exact GE|]. split; [exact I|]. split; [exact HO|]. split; [exact FA|exact LC].
      * unfold size in *. rewrite ES in LE. cbn [weight] in LE. cbn [g_src g_data g_off g1]. lia.
    + (* failed *)
      cbn beta iota. cbn [faulty] in FA. set (g1 := GR (g_p g) (g_data g) (g_off g) true (g_flushed g) true src).
      destruct (Z.eq_dec (avail g) 0) as [A|A].
      * rewrite A. apply closing_step; [unfold shape, g1; cbn [g_off g_data g_src weight]; cbn [weight] in S3; lia| |exact R]. split; [reflexivity|]. split; [exact A|]. split; [exact FA|]. cbn [g_p g1]. apply (ct_turn C); [|exact MS].
        cbn [content app] in I. replace (unread g) with (@nil Z) in I by (symmetry; apply zlen_0_nil; rewrite zlen_skip by lia; lia). exact I.
      * change (avail g) with (avail g1). apply ending_step; [unfold shape, g1; cbn [g_off g_data g_src weight]; cbn [weight] in S3; lia| |exact R]. split; [reflexivity|]. split; [exact A|]. split; [exact I|]. split; [exact (proj1 (OW A))|]. split; [exact (proj2 (OW A))|]. exact FA.
Qed.
Lemma gread_spec fuel g room o : RI g o -> 1 <= room -> (size g + 2 <= fuel)%nat -> post room o (gread pr cap fuel g room).
Proof.
  intros (SH & K) R LE. unfold gread. destruct K as [(OP & OW)|K]; [apply open_loop; assumption|].
  destruct fuel as [|[|n]]; [lia|lia|]. rewrite read_loop_eq. cbn [negb orb]. change (zlen (@nil Z)) with 0. rewrite Z.sub_0_r, Z.eqb_refl. cbn [andb negb].
  assert (EO : g_eof g = true) by (destruct K as [(E & _)|[((E & _) & _)|(E & _)]]; exact E). unfold fetch. rewrite EO. cbn [negb]. rewrite andb_false_r. cbn beta iota.
  destruct K as [EN|[(CL & ER)|EN]]; [apply ending_step; assumption| |].
  - destruct CL as (E & A & K). rewrite A. apply closing_step; [exact SH| |exact R]. split; auto.
  - destruct EN as (E & A & K). rewrite A. apply ended_step; [exact SH| |exact R]. split; auto.
Qed.
Lemma RI_part g o : RI g o -> part o /\ zlen o <= bound.
Proof.
  intros (_ & [((_ & _ & I & _) & _)|[(_ & _ & I & _)|[((_ & _ & _ & I) & _)|(_ & _ & _ & D & _)]]]).
  - exact (ct_part C _ _ _ (or_introl I)).
  - exact (ct_part C _ _ _ (or_introl I)).
  - exact (ct_part C _ _ _ (or_intror I)).
  - destruct (ct_good C _ _ D) as (_ & K). exact K.
Qed.
Lemma gread_ended fuel g room o : shape g -> ended g o -> 1 <= room -> (1 <= fuel)%nat -> exists g', gread pr cap fuel g room = ROk [] g' /\ shape g' /\ ended g' o.
Proof.
  intros SH EN R LE. unfold gread. destruct fuel as [|n]; [lia|]. rewrite read_loop_eq. cbn [negb orb]. change (zlen (@nil Z)) with 0. rewrite Z.sub_0_r, Z.eqb_refl. cbn [andb negb].
  pose proof EN as (E & A & K). unfold fetch. rewrite E. cbn [negb]. rewrite andb_false_r. cbn beta iota. rewrite A. apply ended_stays; assumption.
Qed.
Lemma reads_ended fuel : (1 <= fuel)%nat -> forall rooms g o, shape g -> ended g o -> Forall (fun r => 1 <= r) rooms -> exists cs, reads pr cap fuel g rooms = (cs, Fine) /\ concat cs = [].
Proof.
  intros LE. induction rooms as [|room rooms IH]; intros g o SH EN RM; cbn [reads]; [exists []; auto|]. apply Forall_cons_iff in RM. destruct RM as (R & RM).
  destruct (gread_ended fuel g room o SH EN R LE) as (g' & -> & SH' & EN'). destruct (IH g' o SH' EN' RM) as (cs & -> & CC). exists ([] :: cs). auto.
Qed.
Lemma reads_spec fuel : (W0 + 3 <= fuel)%nat -> forall rooms g o, RI g o -> Forall (fun r => 1 <= r) rooms ->
  exists cs h, reads pr cap fuel g rooms = (cs, h) /\ part (o ++ concat cs) /\ (h = Fine \/ (h = Failed /\ (miss <> [] \/ flt = true))) /\ (reached_end cs -> flt = false /\ miss = []) /\
    (forall c1 c2, cs = c1 ++ [] :: c2 -> good (o ++ concat c1) /\ concat c2 = []) /\
    (bound - zlen o < zlen rooms -> reached_end cs \/ h = Failed).
Proof.
  intros LE. induction rooms as [|room rooms IH]; intros g o RG RM; cbn [reads].
  - exists [], Fine. split; [reflexivity|]. cbn [concat]. rewrite app_nil_r. destruct (RI_part _ _ RG) as (PA & BD). split; [exact PA|]. split; [auto|]. split; [intros ([|? ?] & ? & Q); discriminate|]. split; [intros [|? ?] c2 E; discriminate|].
    change (zlen (@nil Z)) with 0. lia.
  - apply Forall_cons_iff in RM. destruct RM as (R & RM). assert (SZ : (size g + 2 <= fuel)%nat) by (destruct RG as (((_ & _) & _ & W) & _); unfold size; destruct (avail g =? 0); lia).
    pose proof (gread_spec fuel g room o RG R SZ) as PO. destruct (gread pr cap fuel g room) as [o2 g'|g'| |]; cbn [post] in PO; [| |contradiction|contradiction].
    + destruct PO as (LO & RG' & EN). destruct (RI_part _ _ RG) as (_ & BD0). destruct (RI_part _ _ RG') as (_ & BD).
      destruct (IH g' (o ++ o2) RG' RM) as (cs & h & E & PA & HH & FF & GO & LV). rewrite E. exists (o2 :: cs), h. split; [reflexivity|]. cbn [concat]. rewrite app_assoc. split; [exact PA|]. split; [exact HH|]. split; [intros ([|c c1] & c2 & EC); injection EC as EC1 EC2; [destruct (EN EC1) as (_ & _ & _ & _ & K1 & K2); auto|apply FF; exists c1, c2; exact EC2]|]. split.
      * intros [|c c1] c2 EC; injection EC as EC1 EC2.
        -- subst o2 cs. specialize (EN eq_refl). cbn [concat]. rewrite app_nil_r in *. split; [destruct EN as (_ & _ & _ & D & _); destruct (ct_good C _ _ D); assumption|].
           destruct (reads_ended fuel ltac:(lia) rooms g' o (proj1 RG') EN RM) as (cs2 & E2 & CC). rewrite E2 in E. injection E as <- _. exact CC.
        -- subst c. cbn [concat]. rewrite app_assoc. apply (GO c1 c2 EC2).
      * intros LL. destruct o2 as [|z o2]; [left; exists [], cs; reflexivity|]. destruct LV as [(c1 & c2 & ->)| ->]; [|left; exists ((z :: o2) :: c1), c2; reflexivity|right; reflexivity].
        rewrite zlen_app in *. unfold zlen in *. cbn [length] in *. lia.
    + exists [], Failed. cbn [concat]. rewrite app_nil_r. split; [reflexivity|]. destruct (RI_part _ _ RG) as (PA & _). split; [exact PA|]. split; [auto|]. split; [intros ([|? ?] & ? & Q); discriminate|]. split; [intros [|? ?] c2 EC; discriminate|]. auto.
Qed.

(** ** The writer *)
Lemma write_all_spec k o : exists k' ok, write_all k o = (k', ok) /\ (ok = true -> k_got k' = k_got k ++ o) /\ (k_faults k = [] -> ok = true /\ k_faults k' = []) /\
  exists a b, o = a ++ b /\ k_got k' = k_got k ++ a.
Proof.
  unfold write_all. destruct o as [|z o].
  { exists k, true. split; [reflexivity|]. split; [intros _; rewrite app_nil_r; reflexivity|]. split; [auto|]. exists [], []. split; [reflexivity|rewrite app_nil_r; reflexivity]. }
  destruct (k_faults k) as [|[n|] fs]; do 2 eexists; (split; [reflexivity|]); cbn [k_got k_faults].
  - repeat split. exists (z :: o), []. rewrite app_nil_r. auto.
  - split; [discriminate|]. split; [discriminate|]. exists (zfirst n (z :: o)), (zskip n (z :: o)). rewrite zfirst_skip. auto.
  - split; [reflexivity|]. split; [discriminate|]. exists (z :: o), []. rewrite app_nil_r. auto.
Qed.
(** [self]: the processor tells the end of its input by itself *)
Context (self : bool) (SELF : self = true -> forall p x o i f room n o2 p', inv p x o -> x = i ++ f -> 1 <= room -> process pr p i room = Some (n, o2, p', PNeedIn) -> f <> []).
Definition stopped (g g' : @gwriter P) : Prop := k_faults (gw_sink g) <> [] /\ exists a b, k_got (gw_sink g') = a /\ part (a ++ b).
Definition written (g g' : @gwriter P) (f o : list Z) (o2 : list Z) : Prop :=
  inv (gw_p g') f (o ++ o2) /\ k_got (gw_sink g') = o ++ o2 /\ gw_flushed g' = gw_flushed g /\ (k_faults (gw_sink g) = [] -> k_faults (gw_sink g') = []).
Lemma write_loop_spec total f : forall fuel g buf o, inv (gw_p g) (buf ++ f) o -> k_got (gw_sink g) = o -> (Z.to_nat (bound - zlen o) < fuel)%nat ->
  match write_loop pr cap fuel g total buf with
  | WOk n g' => n = total /\ exists o2, written g g' f o o2 /\ (self = true -> f = [] -> done (gw_p g') (o ++ o2))
  | WErr g' => stopped g g'
  | WSpin | WPanic => False
  end.
Proof.
  induction fuel as [|fuel IH]; intros g buf o I G LE; [lia|]. cbn [write_loop].
  destruct (ct_proc C _ _ _ buf f cap I eq_refl CAP) as (pre & suf & o2 & p' & r & PE & EB & LO & I' & K & _). rewrite PE.
  pose proof (zlen_nonneg suf) as NS. assert (LB : zlen buf = zlen pre + zlen suf) by (rewrite EB, zlen_app; reflexivity). destruct (Z.ltb_spec (zlen buf) (zlen pre)); [lia|]. destruct (Z.ltb_spec cap (zlen o2)); [lia|]. cbn [orb].
  replace (zskip (zlen pre) buf) with suf by (rewrite EB; symmetry; apply zskip_app_exact; reflexivity).
  destruct (write_all_spec (gw_sink g) o2) as (k & ok & -> & W1 & W2 & a & b & EO & W3). destruct (ct_part C _ _ _ (or_introl I')) as (PA & BD).
  destruct ok; cbn [negb]; cycle 1.
  { split; [intros Q; destruct (W2 Q); discriminate|]. cbn [gw_sink]. exists (o ++ a), b. rewrite W3, G. split; [reflexivity|]. rewrite <- app_assoc, <- EO. exact PA. }
  specialize (W1 eq_refl). rewrite G in W1.
  assert (WR : forall x, suf = [] -> x = suf ++ f -> inv p' x (o ++ o2) -> written g (GW p' (gw_flushed g) k) f o o2).
  { intros x -> -> Q. split; [exact Q|]. cbn [gw_sink gw_flushed]. split; [exact W1|]. split; [reflexivity|]. intros Q2. apply (W2 Q2). }
  destruct r.
  - destruct K as (S0 & F0 & DN). split; [reflexivity|]. exists o2. split; [apply (WR (suf ++ f) S0 eq_refl I')|]. intros _ _. exact DN.
  - subst suf. change (zlen (@nil Z)) with 0. change (0 =? 0) with true. cbn [negb]. split; [reflexivity|]. exists o2. split; [apply (WR ([] ++ f) eq_refl eq_refl I')|]. intros SE F0. exfalso. exact (SELF SE _ _ _ _ _ _ _ _ _ I eq_refl CAP PE F0).
  - destruct K as (ZL & _). rewrite zlen_app in BD. specialize (IH (GW p' (gw_flushed g) k) suf (o ++ o2) I' W1 ltac:(rewrite zlen_app; lia)).
    destruct (write_loop pr cap fuel (GW p' (gw_flushed g) k) total suf) as [n g'|g'| |]; [| |exact IH|exact IH].
    + destruct IH as (-> & o3 & (I3 & G3 & FL3 & FA3) & DN3). split; [reflexivity|]. exists (o2 ++ o3). unfold written. rewrite app_assoc. cbn [gw_flushed gw_sink] in FL3, FA3. split; [|exact DN3]. split; [exact I3|]. split; [exact G3|]. split; [exact FL3|].
      intros Q. apply FA3. apply (W2 Q).
    + destruct IH as (Q & a2 & b2 & Q2 & Q3). cbn [gw_sink] in Q. split; [intros Q4; apply Q; apply (W2 Q4)|]. eauto.
  - contradiction.
Qed.
Lemma writes_spec f fuel : (Z.to_nat bound < fuel)%nat -> forall bufs g o, inv (gw_p g) (concat bufs ++ f) o -> k_got (gw_sink g) = o ->
  exists g' h, writes pr cap fuel g bufs = (g', h) /\
    ((h = Fine /\ exists o2, written g g' f o o2 /\ (self = true -> f = [] -> bufs <> [] -> done (gw_p g') (o ++ o2))) \/ (h = Failed /\ stopped g g')).
Proof.
  intros LE. induction bufs as [|buf bufs IH]; intros g o I G; cbn [writes].
  - exists g, Fine. split; [reflexivity|]. left. split; [reflexivity|]. exists []. unfold written. rewrite app_nil_r. split; [|intros _ _ Q; contradiction]. split; [exact I|]. auto.
  - cbn [concat] in I. rewrite <- app_assoc in I. pose proof (write_loop_spec (zlen buf) (concat bufs ++ f) fuel g buf o I G) as WL. unfold gwrite. pose proof (zlen_nonneg o) as NO. specialize (WL ltac:(lia)).
    destruct (write_loop pr cap fuel g (zlen buf) buf) as [n g'|g'| |]; [| |contradiction|contradiction].
    + destruct WL as (-> & o2 & (I2 & G2 & FL2 & FA2) & DN). rewrite Z.eqb_refl. destruct (IH g' (o ++ o2) I2 G2) as (g3 & h & E & K). rewrite E. exists g3, h. split; [reflexivity|].
      destruct K as [(-> & o3 & (I3 & G3 & FL3 & FA3) & DN3)|(-> & Q & Q2)].
      * left. split; [reflexivity|]. exists (o2 ++ o3). unfold written. rewrite app_assoc. split; [split; [exact I3|split; [exact G3|split; [congruence|auto]]]|].
        intros SE F0 _. destruct bufs as [|b bufs]; [|apply DN3; [exact SE|exact F0|discriminate]]. cbn [writes] in E. injection E as <-. subst f. cbn [concat app] in DN. rewrite G2 in G3. rewrite <- G3. apply DN; auto.
      * right. split; [reflexivity|]. split; [intros Q3; apply Q; auto|exact Q2].
    + exists g', Failed. split; [reflexivity|]. right. auto.
Qed.
Lemma gflush_done fuel g : gw_flushed g = true -> gflush pr cap fuel g = WOk 0 g.
Proof. intros E. destruct fuel; cbn [gflush]; rewrite E; reflexivity. Qed.
Lemma gflush_spec : forall fuel g o, cinv (gw_p g) [] o -> k_got (gw_sink g) = o -> gw_flushed g = false -> (Z.to_nat (bound - zlen o) < fuel)%nat ->
  match gflush pr cap fuel g with
  | WOk _ g' => good (k_got (gw_sink g')) /\ gw_flushed g' = true /\ done (gw_p g') (k_got (gw_sink g'))
  | WErr g' => stopped g g'
  | WSpin | WPanic => False
  end.
Proof.
  induction fuel as [|fuel IH]; intros g o I G FL LE; [lia|]. cbn [gflush]. rewrite FL.
  destruct (ct_close C _ _ _ cap I CAP) as (o2 & p' & r & -> & LO & I' & K). destruct (Z.ltb_spec cap (zlen o2)); [lia|].
  destruct (write_all_spec (gw_sink g) o2) as (k & ok & -> & W1 & W2 & a & b & EO & W3). destruct (ct_part C _ _ _ (or_intror I')) as (PA & BD).
  destruct ok; cbn [negb]; cycle 1.
  { split; [intros Q; destruct (W2 Q); discriminate|]. cbn [gw_sink]. exists (o ++ a), b. rewrite W3, G. split; [reflexivity|]. rewrite <- app_assoc, <- EO. exact PA. }
  specialize (W1 eq_refl). rewrite G in W1. destruct r.
  - destruct K as (_ & DN). rewrite gflush_done by reflexivity. cbn [gw_sink gw_flushed gw_p]. rewrite W1. split; [destruct (ct_good C _ _ DN); assumption|]. auto.
  - contradiction.
  - rewrite zlen_app in BD. specialize (IH (GW p' false k) (o ++ o2) I' W1 eq_refl ltac:(rewrite zlen_app; lia)).
    destruct (gflush pr cap fuel (GW p' false k)) as [n g'|g'| |]; [exact IH| |exact IH|exact IH]. destruct IH as (Q & Q2). cbn [gw_sink] in Q. split; [intros Q4; apply Q; apply (W2 Q4)|exact Q2].
  - contradiction.
Qed.
End Contract.
