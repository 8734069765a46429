(** The loops of the command line tool. *)
From Verif Require Import Prelude ProofList ModelMux ProofZlist ModelIo SpecIo ModelTool SpecTool ProofIo.
From Coq Require Import Lia.

Lemma put_out_spec : forall evs o got evs' ok, put_out o evs = (got, evs', ok) ->
  (exists rest, o = got ++ rest) /\ (ok = true -> got = o) /\ (ok = false -> In WFault evs) /\ (In WFault evs' -> In WFault evs).
Proof.
  induction evs as [|e evs IH]; intros o got evs' ok E.
  - destruct o; injection E as <- <- <-; (split; [exists []; rewrite ?app_nil_r; reflexivity|auto]); (split; [auto|]); (split; [discriminate|auto]).
  - destruct o as [|z o]; [injection E as <- <- <-; split; [exists []; reflexivity|]; split; [auto|]; split; [discriminate|auto]|].
    cbn [put_out] in E. set (oo := z :: o) in *. destruct e.
    + destruct (put_out (zskip n oo) evs) as ((g2, e2), k2) eqn:E2. assert (got = zfirst n oo ++ g2 /\ evs' = e2 /\ ok = k2) as (-> & -> & ->) by (repeat split; congruence).
      destruct (IH _ _ _ _ E2) as ((rest & R) & H1 & H2 & H3). split; [exists rest; rewrite <- app_assoc, <- R; symmetry; apply zfirst_skip|].
      split; [intros Q; rewrite (H1 Q); apply zfirst_skip|]. split; [intros Q; right; auto|intros Q; right; auto].
    + destruct (IH _ _ _ _ E) as (H0 & H1 & H2 & H3). split; [exact H0|]. split; [exact H1|]. split; [intros Q; right; auto|intros Q; right; auto].
    + injection E as <- <- <-. split; [exists oo; reflexivity|]. split; [discriminate|]. split; [intros _; left; reflexivity|intros Q; right; exact Q].
Qed.
Lemma put_spec f o f' ok : put f o = (f', ok) ->
  (exists a b, f_got f' = f_got f ++ a /\ o = a ++ b) /\ (ok = true -> f_got f' = f_got f ++ o) /\ (ok = false -> In WFault (f_evs f)) /\ (In WFault (f_evs f') -> In WFault (f_evs f)).
Proof.
  unfold put. destruct (put_out o (f_evs f)) as ((got, evs), k) eqn:E. intros Q. injection Q as <- <-. destruct (put_out_spec _ _ _ _ _ E) as ((rest & R) & H1 & H2 & H3). cbn [f_got f_evs].
  split; [exists got, rest; auto|]. split; [intros K; rewrite (H1 K); reflexivity|]. auto.
Qed.

Lemma read_more_spec : forall src space, Forall honest src -> 1 <= space ->
  match read_more src space with
  | None => faulty src = true
  | Some ([], _) => content src = [] /\ faulty src = false
  | Some (l, src') => content src = l ++ content src' /\ faulty src' = faulty src /\ Forall honest src' /\ (weight src' < weight src)%nat /\ zlen l <= space
  end.
Proof.
  induction src as [|e src IH]; intros space HO SP; [split; reflexivity|]. apply Forall_cons_iff in HO. destruct HO as (HE & HO).
  destruct e as [l| |]; cbn [read_more].
  - cbn [source_read]. destruct l as [|z l]; [contradiction HE|]. set (l0 := z :: l) in *. assert (L0 : 1 <= zlen l0) by (unfold l0; rewrite zlen_cons; pose proof (zlen_nonneg l); lia).
    assert (NE : zfirst space l0 <> []). { intros Q. apply (f_equal zlen) in Q. rewrite zlen_first in Q by lia. change (zlen (@nil Z)) with 0 in Q. lia. }
    destruct (zfirst space l0) as [|y t] eqn:F; [contradiction NE; reflexivity|]. rewrite <- F. destruct (Z.ltb_spec space (zlen l0)) as [LT|GE].
    + cbn [content faulty weight]. split; [rewrite app_assoc, zfirst_skip; reflexivity|]. split; [reflexivity|]. split; [constructor; [|exact HO]|].
      * cbn [honest]. destruct (zskip space l0) eqn:S; [|exact Logic.I]. apply (f_equal zlen) in S. rewrite zlen_skip in S by lia. change (zlen (@nil Z)) with 0 in S. lia.
      * split; [|rewrite zlen_first by lia; lia]. assert (length (zskip space l0) < length l0)%nat; [|lia]. pose proof (zlen_skip space l0 ltac:(lia)) as Z. unfold zlen in *. lia.
    + rewrite zfirst_all by lia. cbn [content faulty weight]. split; [reflexivity|]. split; [reflexivity|]. split; [exact HO|]. split; [lia|lia].
  - specialize (IH space HO SP). destruct (read_more src space) as [([|y t], s)|]; cbn [content faulty weight]; [exact IH| |exact IH]. destruct IH as (A & B & C & D & E). repeat split; auto; lia.
  - reflexivity.
Qed.

(** ** decompress_generic *)
Section Dec.
Context {P : Type} (pr : processor P) (bsize cap : Z) (BS : 1 <= bsize) (CAP : 1 <= cap).
Context (inv : P -> list Z -> list Z -> Prop) (out tail missing : list Z).
(** [inv p x o]: [x] is what is left of the file, [o] has been put out *)
Context (CALL : forall p x o i f room, inv p x o -> i ++ f = x ++ tail -> bytes i -> 0 <= room ->
  exists pre suf o2 p' r x', process pr p i room = Some (zlen pre, o2, p', r) /\ i = pre ++ suf /\ x = pre ++ x' /\ zlen o2 <= room /\ inv p' x' (o ++ o2) /\
    match r with PSuccess => x' = [] /\ o ++ o2 = out | PNeedIn => suf = [] /\ x' <> [] | PNeedOut => zlen o2 = room | PFail => False end).
Context (PART : forall p x o, inv p x o -> exists more, out = o ++ more).
Definition dpost (f : outfile) (src : list event) (res : outfile * tend) : Prop :=
  (snd res = TDone /\ f_got (fst res) = out /\ zlen missing <= zlen tail) \/
  (snd res = TError /\ (exists more, out = f_got (fst res) ++ more) /\ (In WFault (f_evs f) \/ faulty src = true \/ zlen tail < zlen missing)).
Lemma dloop_spec : forall n p data off src pend f x,
  inv p x (f_got f ++ pend) -> zskip off data ++ content src ++ missing = x ++ tail -> bytes (zskip off data ++ content src) ->
  0 <= off <= zlen data -> zlen data <= cap -> zlen pend <= bsize -> Forall honest src ->
  (weight src + Z.to_nat (zlen out - zlen (f_got f)) < n)%nat -> dpost f src (dloop pr bsize cap n p data off src pend f).
Proof.
  induction n as [|n IH]; intros p data off src pend f x I EX BX OF DC PB HO LN; [lia|]. cbn [dloop].
  apply Forall_app in BX. destruct BX as (BU & BC).
  destruct (CALL p x _ (zskip off data) (content src ++ missing) (bsize - zlen pend) I EX BU ltac:(lia)) as (pre & suf & o2 & p' & r & x' & E & EI & XX & LO & I' & K). rewrite E.
  assert (ZU : zlen (zskip off data) = zlen data - off) by (rewrite zlen_skip by lia; lia). assert (ZP : zlen pre + zlen suf = zlen data - off) by (rewrite <- ZU, EI, zlen_app; reflexivity). pose proof (zlen_nonneg pre). pose proof (zlen_nonneg suf).
  destruct (Z.ltb_spec (zlen data - off) (zlen pre)); [lia|]. destruct (Z.ltb_spec (bsize - zlen pend) (zlen o2)); [lia|]. cbn [orb].
  assert (EX' : suf ++ content src ++ missing = x' ++ tail). { rewrite EI, XX, <- !app_assoc in EX. apply app_inv_head in EX. exact EX. }
  assert (SK : zskip (off + zlen pre) data = suf). { rewrite <- zskip_zskip by lia. rewrite EI. apply zskip_app_exact. reflexivity. }
  assert (PF : forall a b, f_got f ++ pend ++ o2 = a ++ b -> exists more, out = a ++ more).
  { intros a b Q. destruct (PART _ _ _ I') as (m & M). exists (b ++ m). rewrite M. rewrite <- (app_assoc (f_got f)), Q, <- app_assoc. reflexivity. }
  destruct r.
  - destruct K as (-> & OUT). destruct (put f (pend ++ o2)) as (f', ok) eqn:PU. destruct (put_spec _ _ _ _ PU) as ((a & b & GA & AB) & U1 & U2 & U3). destruct ok.
    + left. cbn [fst snd]. split; [reflexivity|]. rewrite (U1 eq_refl), app_assoc. split; [exact OUT|]. cbn [app] in EX'. rewrite <- EX', !zlen_app. pose proof (zlen_nonneg (content src)). lia.
    + right. cbn [fst snd]. split; [reflexivity|]. split; [|left; auto]. rewrite GA. apply (PF _ b). rewrite AB, <- app_assoc. reflexivity.
  - destruct K as (-> & NX). change (zlen (@nil Z)) with 0 in *. destruct (Z.eqb_spec (off + zlen pre) (zlen data)) as [_|Q]; [|lia]. change (zlen (@nil Z)) with 0. destruct (Z.eqb_spec 0 cap); [lia|]. rewrite Z.sub_0_r.
    pose proof (read_more_spec src cap HO CAP) as RM. destruct (read_more src cap) as [([|y t], src')|].
    + right. cbn [fst snd]. split; [reflexivity|]. split; [apply (PF _ (pend ++ o2)); reflexivity|]. right. right. destruct RM as (CE & _). rewrite CE in EX'. cbn [app] in EX'. rewrite EX', zlen_app. destruct x'; [contradiction NX; reflexivity|]. rewrite zlen_cons. pose proof (zlen_nonneg x'). lia.
    + destruct RM as (CE & FE & HO' & WT & LL). cbn [app]. set (l := y :: t) in *.
      assert (G : dpost f src' (dloop pr bsize cap n p' l 0 src' (pend ++ o2) f)).
      { apply (IH p' l 0 src' (pend ++ o2) f x').
        - rewrite app_assoc. exact I'.
        - change (zskip 0 l) with l. rewrite app_assoc, <- CE. exact EX'.
        - change (zskip 0 l) with l. rewrite <- CE. exact BC.
        - pose proof (zlen_nonneg l). lia.
        - exact LL.
        - rewrite zlen_app. lia.
        - exact HO'.
        - lia. }
      unfold dpost in *. rewrite FE in G. exact G.
    + right. cbn [fst snd]. split; [reflexivity|]. split; [apply (PF _ (pend ++ o2)); reflexivity|]. auto.
  - destruct (put f (pend ++ o2)) as (f', ok) eqn:PU. destruct (put_spec _ _ _ _ PU) as ((a & b & GA & AB) & U1 & U2 & U3). destruct ok.
    + assert (G : dpost f' src (dloop pr bsize cap n p' data (off + zlen pre) src [] f')).
      { specialize (U1 eq_refl). destruct (PART _ _ _ I') as (m & M). apply (f_equal zlen) in M. rewrite !zlen_app in M. pose proof (zlen_nonneg m).
        apply (IH p' data (off + zlen pre) src [] f' x').
        - rewrite app_nil_r, U1, app_assoc. exact I'.
        - rewrite SK. exact EX'.
        - rewrite SK. apply Forall_app. split; [|exact BC]. rewrite EI in BU. apply Forall_app in BU. apply BU.
        - lia.
        - exact DC.
        - change (zlen (@nil Z)) with 0. lia.
        - exact HO.
        - rewrite U1, !zlen_app. lia. }
      destruct G as [G|(G1 & G2 & G3)]; [left; exact G|right]. split; [exact G1|]. split; [exact G2|]. destruct G3 as [G3|G3]; [left; auto|right; exact G3].
    + right. cbn [fst snd]. split; [reflexivity|]. split; [|left; auto]. rewrite GA. apply (PF _ b). rewrite AB, <- app_assoc. reflexivity.
  - contradiction.
Qed.
End Dec.

(** ** compress_raw_inner *)
Section Enc.
Context {P : Type} (pr : processor P) (bsize : Z) (BS : 1 <= bsize).
(** [inv p x o]: [x] is still to be compressed, [o] has been put out; [cinv]: all taken *)
Context (inv : P -> list Z -> list Z -> Prop) (cinv : P -> list Z -> Prop) (good : list Z -> Prop) (bound : Z).
Context (CALL : forall p x o i f room, inv p x o -> x = i ++ f -> 0 <= room ->
  exists pre suf o2 p' r, process pr p i room = Some (zlen pre, o2, p', r) /\ i = pre ++ suf /\ zlen o2 <= room /\ inv p' (suf ++ f) (o ++ o2) /\
    ((r = PNeedIn /\ suf = []) \/ (r = PNeedOut /\ zlen o2 = room))).
Context (TURN : forall p o, inv p [] o -> cinv p o).
Context (CLOSE : forall p o room, cinv p o -> 0 <= room ->
  exists o2 p' r, close pr p room = Some (o2, p', r) /\ zlen o2 <= room /\ ((r = PSuccess /\ good (o ++ o2)) \/ (r = PNeedOut /\ zlen o2 = room /\ cinv p' (o ++ o2)))).
Context (BI : forall p x o, inv p x o -> zlen o <= bound) (BC : forall p o, cinv p o -> zlen o <= bound).
Definition cpost (f : outfile) (src : list event) (res : outfile * tend) : Prop :=
  (snd res = TDone /\ good (f_got (fst res)) /\ faulty src = false) \/
  (snd res = TError /\ (In WFault (f_evs f) \/ faulty src = true)).
Lemma cpost_later f f' src src' res : (In WFault (f_evs f') -> In WFault (f_evs f)) -> faulty src' = faulty src -> cpost f' src' res -> cpost f src res.
Proof. intros A B. unfold cpost. rewrite B. tauto. Qed.

Lemma cflush_spec src : faulty src = false -> forall n p f, cinv p (f_got f) -> (Z.to_nat (bound - zlen (f_got f)) < n)%nat -> cpost f src (cflush pr bsize n p [] f).
Proof.
  intros FA. induction n as [|n IH]; intros p f I LN; [lia|]. cbn [cflush]. change (zlen (@nil Z)) with 0. rewrite Z.sub_0_r.
  destruct (CLOSE p _ bsize I ltac:(lia)) as (o2 & p' & r & E & LO & K). rewrite E. destruct (Z.ltb_spec bsize (zlen o2)); [lia|]. cbn [app].
  destruct (put f o2) as (f', ok) eqn:PU. destruct (put_spec _ _ _ _ PU) as (_ & U1 & U2 & U3).
  assert (BAD : forall t, ok = false -> cpost f src (f', match t with Some t => t | None => TError end) \/ t <> None) by (intros [t|] Q; [right; discriminate|left; right; cbn [snd]; auto]).
  destruct K as [(-> & G)|(-> & LE & CI)]; destruct ok; cbn [negb].
  - left. cbn [fst snd]. rewrite (U1 eq_refl). auto.
  - destruct (BAD None eq_refl) as [Q|Q]; [exact Q|contradiction Q; reflexivity].
  - specialize (U1 eq_refl). rewrite <- U1 in CI. apply (cpost_later f f' src src); [exact U3|reflexivity|]. apply IH; [exact CI|]. pose proof (BC _ _ CI). rewrite U1, zlen_app in *. lia.
  - destruct (BAD None eq_refl) as [Q|Q]; [exact Q|contradiction Q; reflexivity].
Qed.

Definition step (n : nat) (extra data : list Z) (idec : Z) (p : P) (src : list event) (f : outfile) : outfile * tend :=
  match process pr p (zskip idec data) (bsize - zlen (@nil Z)) with
  | None => (f, TPanic)
  | Some (m, o, p, r) =>
      if (zlen data - idec <? m) || (bsize - zlen (@nil Z) <? zlen o) then (f, TPanic) else
      match r with
      | PSuccess => cloop pr bsize n p extra data (idec + m) src ([] ++ o) f
      | PFail => (f, TError)
      | PNeedIn | PNeedOut =>
          let '(f, ok) := put f ([] ++ o) in
          if ok then cloop pr bsize n p extra data (idec + m) src [] f else (f, TError)
      end
  end.
Lemma cloop_eq n p extra data idec src f : (zlen extra = 0 \/ data = extra) ->
  cloop pr bsize (S n) p extra data idec src [] f =
  (let over := negb (zlen extra =? 0) && (idec =? zlen extra) in
   let extra := if over then [] else extra in
   let data := if over then [] else data in
   let idec := if over then 0 else idec in
   if idec =? zlen data then
     match source_read src bsize with
     | FErr _ => (f, TError)
     | FIntr src => cloop pr bsize n p extra data 0 src [] f
     | FData [] src => cflush pr bsize n p [] f
     | FData l src => step n extra l 0 p src f
     end
   else step n extra data idec p src f).
Proof.
  intros H. cbn [cloop]. assert (ENC : forall e d i s, (i =? zlen d) = false -> (if i =? zlen d then let '(f, ok) := put f [] in if ok then cloop pr bsize n p e d i s [] f else (f, TError)
     else match process pr p (zskip i d) (bsize - zlen (@nil Z)) with
          | None => (f, TPanic)
          | Some (n0, o, p, r) => if (zlen d - i <? n0) || (bsize - zlen (@nil Z) <? zlen o) then (f, TPanic) else
              match r with PSuccess => cloop pr bsize n p e d (i + n0) s ([] ++ o) f | PFail => (f, TError) | PNeedIn | PNeedOut => let '(f, ok) := put f ([] ++ o) in if ok then cloop pr bsize n p e d (i + n0) s [] f else (f, TError) end
          end) = step n e d i p s f) by (intros e d i s Q; rewrite Q; reflexivity).
  assert (L0 : forall (z : Z) l, (0 =? zlen (z :: l)) = false) by (intros z l; apply Z.eqb_neq; rewrite zlen_cons; pose proof (zlen_nonneg l); lia).
  assert (MAIN : forall e d i, (if i =? zlen d then
        match source_read src bsize with
        | FErr _ => (f, TError)
        | FIntr src => cloop pr bsize n p e d 0 src [] f
        | FData [] src => cflush pr bsize n p [] f
        | FData ((z :: l) as l0) src => (if 0 =? zlen l0 then let '(f, ok) := put f [] in if ok then cloop pr bsize n p e l0 0 src [] f else (f, TError)
           else match process pr p (zskip 0 l0) (bsize - zlen (@nil Z)) with
          | None => (f, TPanic)
          | Some (n0, o, p, r) => if (zlen l0 - 0 <? n0) || (bsize - zlen (@nil Z) <? zlen o) then (f, TPanic) else
              match r with PSuccess => cloop pr bsize n p e l0 (0 + n0) src ([] ++ o) f | PFail => (f, TError) | PNeedIn | PNeedOut => let '(f, ok) := put f ([] ++ o) in if ok then cloop pr bsize n p e l0 (0 + n0) src [] f else (f, TError) end
          end)
        end
      else (if i =? zlen d then let '(f, ok) := put f [] in if ok then cloop pr bsize n p e d i src [] f else (f, TError)
     else match process pr p (zskip i d) (bsize - zlen (@nil Z)) with
          | None => (f, TPanic)
          | Some (n0, o, p, r) => if (zlen d - i <? n0) || (bsize - zlen (@nil Z) <? zlen o) then (f, TPanic) else
              match r with PSuccess => cloop pr bsize n p e d (i + n0) src ([] ++ o) f | PFail => (f, TError) | PNeedIn | PNeedOut => let '(f, ok) := put f ([] ++ o) in if ok then cloop pr bsize n p e d (i + n0) src [] f else (f, TError) end
          end)) = (if i =? zlen d then
     match source_read src bsize with
     | FErr _ => (f, TError)
     | FIntr src => cloop pr bsize n p e d 0 src [] f
     | FData [] src => cflush pr bsize n p [] f
     | FData l src => step n e l 0 p src f
     end
   else step n e d i p src f)).
  { intros e d i. destruct (i =? zlen d) eqn:Q; [|reflexivity]. destruct (source_read src bsize) as [[|z l] s|s|s]; reflexivity. }
  destruct (Z.eqb_spec (zlen extra) 0) as [Q|Q]; cbn [negb andb]; [apply MAIN|].
  destruct H as [H|H]; [lia|]. destruct (idec =? zlen extra); [apply MAIN|]. rewrite H. apply MAIN.
Qed.

Lemma cloop_spec : forall n p extra data idec src f,
  (zlen extra = 0 \/ data = extra) -> 0 <= idec <= zlen data ->
  inv p (zskip idec data ++ heard (if zlen extra =? 0 then data else []) src) (f_got f) ->
  Forall honest src -> Forall (at_most bsize) src ->
  (2 * length src + (if (idec =? zlen data)%Z then 0 else 1) + Z.to_nat (bound - zlen (f_got f)) + 1 < n)%nat ->
  cpost f src (cloop pr bsize n p extra data idec src [] f).
Proof.
  induction n as [|n IH]; intros p extra data idec src f EX IR I HO AM LN; [lia|]. rewrite cloop_eq by exact EX. cbv zeta.
  (* one call of the library *)
  assert (STEP : forall e d i s, (zlen e = 0 \/ d = e) -> 0 <= i <= zlen d -> i <> zlen d -> faulty s = faulty src -> inv p (zskip i d ++ heard (if zlen e =? 0 then d else []) s) (f_got f) ->
    Forall honest s -> Forall (at_most bsize) s -> (2 * length s + 1 + Z.to_nat (bound - zlen (f_got f)) < n)%nat -> cpost f src (step n e d i p s f)).
  { intros e d i s ED IR' NE FS I' HO' AM' LN'. unfold step. change (zlen (@nil Z)) with 0. rewrite Z.sub_0_r.
    destruct (CALL p _ _ (zskip i d) _ bsize I' eq_refl ltac:(lia)) as (pre & suf & o2 & p' & r & E & EI & LO & I2 & K). rewrite E.
    assert (ZU : zlen (zskip i d) = zlen d - i) by (rewrite zlen_skip by lia; lia). assert (ZP : zlen pre + zlen suf = zlen d - i) by (rewrite <- ZU, EI, zlen_app; reflexivity). pose proof (zlen_nonneg pre). pose proof (zlen_nonneg suf).
    assert (SK : zskip (i + zlen pre) d = suf). { rewrite <- zskip_zskip by lia. rewrite EI. apply zskip_app_exact. reflexivity. }
    destruct (Z.ltb_spec (zlen d - i) (zlen pre)); [lia|]. destruct (Z.ltb_spec bsize (zlen o2)); [lia|]. cbn [orb app].
    assert (GO : cpost f src (let '(f, ok) := put f o2 in if ok then cloop pr bsize n p' e d (i + zlen pre) s [] f else (f, TError))).
    { destruct (put f o2) as (f', ok) eqn:PU. destruct (put_spec _ _ _ _ PU) as (_ & U1 & U2 & U3). destruct ok; [|right; cbn [snd]; auto]. specialize (U1 eq_refl). rewrite <- U1 in I2.
      apply (cpost_later f f' src s); [exact U3|exact FS|]. apply IH; auto; [lia|rewrite SK; exact I2|]. pose proof (BI _ _ _ I2). rewrite U1, zlen_app in *. pose proof (zlen_nonneg o2).
      destruct K as [(_ & ->)|(_ & K)].
      - change (zlen (@nil Z)) with 0 in *. destruct (Z.eqb_spec (i + zlen pre) (zlen d)); lia.
      - destruct (i + zlen pre =? zlen d); lia. }
    destruct K as [(-> & _)|(-> & _)]; exact GO. }
  set (over := negb (zlen extra =? 0) && (idec =? zlen extra)). set (e := if over then [] else extra). set (d := if over then [] else data). set (i := if over then 0 else idec).
  assert (S1 : (zlen e = 0 \/ d = e) /\ 0 <= i <= zlen d /\ inv p (zskip i d ++ heard (if zlen e =? 0 then d else []) src) (f_got f) /\ (i = zlen d -> zlen e = 0) /\ (over = true -> i = zlen d) /\ (over = false -> i = idec /\ d = data)).
  { unfold e, d, i. destruct over eqn:OV; unfold over in OV.
    - change (zlen (@nil Z)) with 0. change (0 =? 0) with true. split; [auto|]. split; [lia|]. apply andb_prop in OV. destruct OV as (O1 & O2). destruct (Z.eqb_spec (zlen extra) 0) as [Q|Q]; [discriminate O1|]. destruct EX as [EX|EX]; [lia|]. subst extra. apply Z.eqb_eq in O2.
      rewrite zskip_all in I by lia. cbn [app] in I. change (zskip 0 (@nil Z)) with (@nil Z). split; [exact I|]. split; [auto|]. split; [auto|]. discriminate.
    - split; [exact EX|]. split; [exact IR|]. split; [exact I|]. split; [|split; [discriminate|auto]]. intros Q. destruct (Z.eqb_spec (zlen extra) 0) as [|N]; [assumption|]. destruct EX as [EX|EX]; [lia|]. subst extra. rewrite Q, Z.eqb_refl in OV. discriminate OV. }
  clearbody e d i. clear EX IR I. destruct S1 as (ED & IR & I & EZ & OV1 & OV0).
  destruct (Z.eqb_spec i (zlen d)) as [Q|Q].
  - specialize (EZ Q). rewrite EZ in I. change (0 =? 0) with true in I. rewrite zskip_all in I by lia. cbn [app] in I.
    destruct src as [|[l| |] src].
    + cbn [source_read heard] in *. apply cflush_spec; [reflexivity|apply TURN; exact I|]. cbn [length] in LN. lia.
    + apply Forall_cons_iff in HO. destruct HO as (HE & HO). apply Forall_cons_iff in AM. destruct AM as (AE & AM). cbn [at_most] in AE. cbn [source_read].
      destruct (Z.ltb_spec bsize (zlen l)); [lia|]. rewrite zfirst_all by lia. destruct l as [|z l]; [contradiction HE|]. set (l0 := z :: l) in *. assert (L0 : 0 < zlen l0) by (unfold l0; rewrite zlen_cons; pose proof (zlen_nonneg l); lia).
      apply STEP; auto; [lia|lia| |cbn [length] in LN; lia]. rewrite EZ. change (0 =? 0) with true. change (zskip 0 l0) with l0. exact I.
    + apply Forall_cons_iff in HO. destruct HO as (HE & HO). apply Forall_cons_iff in AM. destruct AM as (AE & AM). cbn [source_read]. cbn [heard] in I.
      apply (cpost_later f f (SIntr :: src) src); [auto|reflexivity|]. apply IH; auto; [pose proof (zlen_nonneg d); lia| |].
      * rewrite EZ. change (0 =? 0) with true. change (zskip 0 d) with d. exact I.
      * cbn [length] in LN. destruct (0 =? zlen d); lia.
    + cbn [source_read]. right. cbn [snd faulty]. auto.
  - assert (OVF : over = false) by (destruct over; [specialize (OV1 eq_refl); lia|reflexivity]). destruct (OV0 OVF) as (-> & ->). destruct (Z.eqb_spec idec (zlen data)) as [Q2|_]; [lia|]. apply STEP; auto. lia.
Qed.
End Enc.
