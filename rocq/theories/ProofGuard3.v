(** Any bytes in the decompressor: the worker always stops, and says why. *)
From Verif Require Import Prelude ProofList ModelAns SpecAns ModelCdf SpecCdf ProofCdf ProofAns ProofAnsRt ProofAnsDec ThmCdf ModelMux ProofZlist ProofMux ModelCmd ModelRecode SpecLz ModelPriors ModelCodec ModelLit ModelPm ModelTop SpecCodec ModelEnc ModelDec ModelContextLut ThmPriors ProofCodecInv ProofCodecInv2 ProofRun ProofTop ProofDec2 ProofDec3 SpecHostile ProofHostile SpecGuard ProofGuard1 ProofGuard2.

Section Worker.
Context (wl : word_len_fn) (D : dims) (BIG : big D).
Definition okcmd (c : command) : Prop := match c with PredictionMode _ => True | c => sane_command D c end.
Record winvH (cM : nat) (w : worker) (q : squeue) : Prop := {
  hv_c : exists P, wok D (wk_c w) P;
  hv_dec : dsane (wk_dec w);
  hv_slice : bok (wk_slice w);
  hv_data : Forall full (q_data q);
  hv_data2 : zlen (q_data q) <= 2;
  hv_rdata2 : zlen (q_rdata q) <= 2;
  hv_res : zlen (q_res q) <= NUM_BUFFERED;
  hv_eof : q_eof q = wk_done w;
  hv_tok : (hs (k_pm (wk_c w)) + pop_pm (k_st (wk_c w)) + cpm (q_res q) + cM + length (q_cm q) = 1)%nat;
  hv_tq : has_speeds (fst (q_rcm q)) = Nat.eqb (cpm (q_res q)) 1;
  hv_tq2 : has_speeds (fst (q_rcm q)) = true -> pm_ok D (fst (q_rcm q));
  hv_ts : has_speeds (snd (q_rcm q)) = false;
  hv_tc : Forall (pm_ok D) (q_cm q);
  hv_cmds : Forall okcmd (q_res q) }.
Definition H (w : worker) (q : squeue) : Z := zlen (q_rdata q) + (if zlen (mem (wk_slice w)) =? 0 then 0 else 1).
Definition LW (w : worker) (q : squeue) : Z := Z.of_nat (left_w w q).
Definition W (w : worker) (q : squeue) : Z :=
  15 * pot (wk_dec w) (LW w q) + 6 * Z.of_nat (wrank (k_st (wk_c w))) + 3 * (1 - Z.of_nat (hs (k_pm (wk_c w)))) + 4 * LW w q + 4 * zlen (q_res q) + H w q.

Lemma fills_any t w q : dsane (wk_dec w) -> bok (wk_slice w) -> Forall full (q_data q) -> zlen (q_data q) <= 2 -> zlen (q_rdata q) <= 2 ->
  exists d s q1 ok,
    (if w_fills t then
      if num_push_bytes_avail (wk_dec w) =? 0 then Some (wk_dec w, wk_slice w, q, true)
      else let '(s, q) := pull_slice (wk_slice w) q in let? '(d, s, ok) := fill_from (wk_dec w) s in Some (d, s, q, ok)
     else Some (wk_dec w, wk_slice w, q, true)) = Some (d, s, q1, ok) /\
    (if w_fills t then
      if num_push_bytes_avail (wk_dec w) =? 0 then Some (wk_dec w, true)
      else let? '(d, _, ok) := fill_from (wk_dec w) (fst (pull_slice (wk_slice w) q)) in Some (d, ok)
     else Some (wk_dec w, true)) = Some (d, ok) /\
    dsane d /\ bok s /\ Forall full (q_data q1) /\ zlen (q_data q1) <= 2 /\ zlen (q_rdata q1) <= 2 /\
    q_cm q1 = q_cm q /\ q_res q1 = q_res q /\ q_rcm q1 = q_rcm q /\ q_eof q1 = q_eof q /\
    held (WK (wk_c w) d s false) q1 = held w q /\ pot d (LW (WK (wk_c w) d s false) q1) = pot (wk_dec w) (LW w q) /\
    4 * LW (WK (wk_c w) d s false) q1 + H (WK (wk_c w) d s false) q1 <= 4 * LW w q + H w q /\
    (ok = true -> need d = 0%nat \/ w_fills t = false) /\
    (ok = false -> need d <> 0%nat /\ (4 * LW (WK (wk_c w) d s false) q1 + H (WK (wk_c w) d s false) q1 < 4 * LW w q + H w q \/ (q_data q1 = [] /\ zlen (mem s) = 0) \/ zlen (q_rdata q1) = 2)).
Proof.
  intros DS BS FD D2 R2. destruct w as [c d s dn]. destruct q as [qd qc qr qrd qrc qe].
  cbn [wk_c wk_dec wk_slice wk_done q_data q_cm q_res q_rdata q_rcm q_eof] in *.
  assert (STAY : need d = 0%nat \/ w_fills t = false ->
    exists d0 s0 q1 ok0, Some (d, s, SQ qd qc qr qrd qrc qe, true) = Some (d0, s0, q1, ok0) /\ Some (d, true) = Some (d0, ok0) /\
    dsane d0 /\ bok s0 /\ Forall full (q_data q1) /\ zlen (q_data q1) <= 2 /\ zlen (q_rdata q1) <= 2 /\
    q_cm q1 = qc /\ q_res q1 = qr /\ q_rcm q1 = qrc /\ q_eof q1 = qe /\
    held (WK c d0 s0 false) q1 = held (WK c d s dn) (SQ qd qc qr qrd qrc qe) /\ pot d0 (LW (WK c d0 s0 false) q1) = pot d (LW (WK c d s dn) (SQ qd qc qr qrd qrc qe)) /\
    4 * LW (WK c d0 s0 false) q1 + H (WK c d0 s0 false) q1 <= 4 * LW (WK c d s dn) (SQ qd qc qr qrd qrc qe) + H (WK c d s dn) (SQ qd qc qr qrd qrc qe) /\
    (ok0 = true -> need d0 = 0%nat \/ w_fills t = false) /\
    (ok0 = false -> need d0 <> 0%nat /\ (4 * LW (WK c d0 s0 false) q1 + H (WK c d0 s0 false) q1 < 4 * LW (WK c d s dn) (SQ qd qc qr qrd qrc qe) + H (WK c d s dn) (SQ qd qc qr qrd qrc qe) \/ (q_data q1 = [] /\ zlen (mem s0) = 0) \/ zlen (q_rdata q1) = 2))).
  { intros X. exists d, s, (SQ qd qc qr qrd qrc qe), true. split; [reflexivity|]. split; [reflexivity|]. do 9 (split; [first [assumption|reflexivity]|]).
    split; [reflexivity|]. split; [reflexivity|]. split; [reflexivity|]. split; [auto|discriminate]. }
  destruct (w_fills t) eqn:WF; [|apply STAY; auto].
  rewrite (avail_need _ DS). destruct (Z.eqb_spec (Z.of_nat (need d)) 0) as [Z0|Z0]; [apply STAY; left; lia|]. clear STAY.
  assert (PULL : exists s1 qd1 qrd1, pull_slice s (SQ qd qc qr qrd qrc qe) = (s1, SQ qd1 qc qr qrd1 qrc qe) /\ bok s1 /\ Forall full qd1 /\ zlen qd1 <= 2 /\ zlen qrd1 <= 2 /\
    mb_data s1 ++ concat (map mb_data qd1) = mb_data s ++ concat (map mb_data qd) /\
    zlen qd1 + zlen qrd1 + (if zlen (mem s1) =? 0 then 0 else 1) = zlen qd + zlen qrd + (if zlen (mem s) =? 0 then 0 else 1) /\
    zlen qrd1 + (if zlen (mem s1) =? 0 then 0 else 1) <= zlen qrd + (if zlen (mem s) =? 0 then 0 else 1) + (match mb_data s1 with [] => 0 | _ => 1 end) /\
    (mb_data s1 = [] -> (qd1 = [] /\ zlen (mem s1) = 0) \/ zlen qrd1 = 2)).
  { unfold pull_slice. destruct (Z.eqb_spec (zlen (mb_data s)) 0) as [E|E]; cbn [negb].
    2:{ exists s, qd, qrd. split; [reflexivity|]. repeat (split; [first [assumption|reflexivity]|]). split; [destruct (mb_data s); lia|]. intros X. rewrite X in E. contradiction E. reflexivity. }
    assert (E0 : mb_data s = []) by (destruct (mb_data s); [reflexivity|]; exfalso; rewrite zlen_cons in E; pose proof (zlen_nonneg l); lia).
    rewrite E0. cbn [app q_data q_rdata q_set_rdata q_set_data q_cm q_res q_rcm q_eof].
    destruct (Z.eqb_spec (zlen (mem s)) 0) as [M|M].
    - destruct qd as [|b bs].
      + exists s, [], qrd. split; [reflexivity|]. rewrite E0, M. repeat (split; [first [assumption|reflexivity]|]). split; [change (0 =? 0) with true; cbn iota; lia|]. auto.
      + exists b, bs, qrd. inversion FD as [|? ? (Bb & Nb) FD']; subst. split; [reflexivity|]. split; [exact Bb|]. split; [exact FD'|]. rewrite zlen_cons in *. split; [lia|]. split; [exact R2|]. split; [reflexivity|].
        pose proof (mem_data b Bb Nb). split; [destruct (Z.eqb_spec (zlen (mem b)) 0); lia|]. split; [destruct (mb_data b); [contradiction|]; destruct (Z.eqb_spec (zlen (mem b)) 0); lia|intros X; contradiction].
    - destruct (Z.ltb_spec (zlen qrd) 2) as [RR|RR].
      + destruct qd as [|b bs].
        * exists mb_empty, [], (qrd ++ [s]). split; [reflexivity|]. split; [unfold bok, mb_empty; cbn [rd wr mem]; change (zlen (@nil Z)) with 0; lia|]. split; [constructor|]. change (zlen (@nil mbuf)) with 0. split; [lia|].
          rewrite zlen_app. change (zlen [s]) with 1. split; [lia|]. split; [reflexivity|]. change (zlen (mem mb_empty) =? 0) with true. cbn iota. split; [lia|]. split; [change (mb_data mb_empty) with (@nil Z); cbn iota; lia|]. intros _. left. auto.
        * exists b, bs, (qrd ++ [s]). inversion FD as [|? ? (Bb & Nb) FD']; subst. split; [reflexivity|]. split; [exact Bb|]. split; [exact FD'|]. rewrite zlen_cons in *. split; [lia|].
          rewrite zlen_app. change (zlen [s]) with 1. split; [lia|]. split; [reflexivity|]. pose proof (mem_data b Bb Nb). split; [destruct (Z.eqb_spec (zlen (mem b)) 0); lia|]. split; [destruct (mb_data b); [contradiction|]; destruct (Z.eqb_spec (zlen (mem b)) 0); lia|intros X; contradiction].
      + exists s, qd, qrd. split; [reflexivity|]. rewrite E0. destruct (Z.eqb_spec (zlen (mem s)) 0); [contradiction|]. repeat (split; [first [assumption|reflexivity]|]). split; [lia|]. intros _. right. lia. }
  destruct PULL as (s1 & qd1 & qrd1 & -> & B1 & F1 & D1 & R1 & DT & HL & HH & EM). cbn [fst].
  destruct (fill_sane d s1 DS B1) as (d' & s2 & -> & S2 & C2 & _ & B2 & M2 & DD & ND & _). cbn [bind].
  exists d', s2, (SQ qd1 qc qr qrd1 qrc qe), (Nat.eqb (need d') 0). split; [reflexivity|]. split; [reflexivity|].
  unfold held, LW, H, left_w, qbytes in *. cbn [wk_c wk_dec wk_slice wk_done q_data q_cm q_res q_rdata q_rcm q_eof] in *.
  do 9 (split; [first [assumption|reflexivity]|]). rewrite M2. split; [exact HL|]. rewrite <- DT, !app_length, DD, skipn_length.
  split; [unfold pot; rewrite ND, C2; lia|].
  assert (HK : zlen qrd1 + (if zlen (mem s1) =? 0 then 0 else 1) <= zlen qrd + (if zlen (mem s) =? 0 then 0 else 1) + (match length (mb_data s1) with O => 0 | S _ => 1 end)) by (destruct (mb_data s1); exact HH).
  assert (EK : length (mb_data s1) = 0%nat -> (qd1 = [] /\ zlen (mem s1) = 0) \/ zlen qrd1 = 2) by (intros X; apply EM; destruct (mb_data s1); [reflexivity|discriminate X]).
  clear - HK EK Z0 ND. generalize dependent (length (mb_data s1)). intros k.
  generalize dependent (zlen qrd + (if zlen (mem s) =? 0 then 0 else 1)). intros h0.
  generalize (if zlen (mem s1) =? 0 then 0 else 1). intros h1.
  split; [destruct k; lia|]. split.
  - intros X. apply Nat.eqb_eq in X. auto.
  - intros X. apply Nat.eqb_neq in X. split; [exact X|]. destruct k as [|k]; [right; apply EK; reflexivity|left; lia].
Qed.

Definition stopH (b0 : Z) (w' : worker) (q' : squeue) (r : wres) : Prop :=
  match r with
  | WSuccess => wk_done w' = true
  | WNeedOut => NUM_BUFFERED <= zlen (q_res q') \/ (has_speeds (k_pm (wk_c w')) = false /\ q_cm q' = [] /\ pop_pm (k_st (wk_c w')) = 0%nat)
  | WNeedIn => W w' q' < b0 \/ (q_data q' = [] /\ zlen (mem (wk_slice w')) = 0) \/ zlen (q_rdata q') = 2
  | WFail _ => True
  end.
Definition w_after (cM : nat) (w : worker) (q : squeue) (x : worker * squeue * option wres) : Prop :=
  let '(w', q', r) := x in
  match r with
  | Some (WFail _) => True
  | _ => winvH cM w' q' /\ held w' q' = held w q /\ W w' q' <= W w q /\
      match r with None => W w' q' < W w q | Some r => stopH (W w q) w' q' r end
  end.
Lemma okdown c : okcmd c -> okcmd (downcast c).
Proof.
  destruct c; cbn; auto. intros (_ & L). split; [apply Forall_forall; intros y Y; apply repeat_spec in Y; subst y; unfold byte; lia|].
  unfold zlen in *. rewrite repeat_length. exact L.
Qed.
Lemma W_push w q c rcm : pop_pm (k_st (wk_c w)) = pop_pm (k_st (wk_c w)) -> (exists cmd, k_st (wk_c w) = TPop cmd) ->
  W (wk_set_c w (kset (wk_c w) (k_bk (wk_c w)) TBegin)) (SQ (q_data q) (q_cm q) (q_res q ++ [c]) (q_rdata q) rcm (q_eof q)) < W w q.
Proof.
  intros _ (cmd & E). unfold W, LW, H, left_w, qbytes. cbn [wk_c wk_set_c wk_dec wk_slice q_data q_res q_rdata kset k_st k_pm]. rewrite E, zlen_app. cbn [wrank rank]. change (zlen [c]) with 1. lia.
Qed.
Lemma w_step_any cM w q : winvH cM w q -> w_danger wl D w q = None -> exists x, w_step wl D w q = Some x /\ w_after cM w q x.
Proof.
  intros V HD. pose proof V as [(P & VC) VD VS VDA VD2 VR2 VRES VE VT VTQ VTQ2 VTS VTC VCM].
  unfold w_step. unfold w_danger in HD.
  destruct (wk_done w) eqn:DO.
  { eexists. split; [reflexivity|]. cbn [w_after]. split; [exact V|]. split; [reflexivity|]. split; [lia|exact DO]. }
  assert (MAIN : match k_st (wk_c w) with TPop _ | TEnd => False | _ => True end -> 
    (if (match k_st (wk_c w) with TPm _ => negb (has_speeds (k_pm (wk_c w))) | _ => false end) then None else
      match (if w_fills (k_st (wk_c w)) then
          if num_push_bytes_avail (wk_dec w) =? 0 then Some (wk_dec w, true)
          else let? '(d, _, ok) := fill_from (wk_dec w) (fst (pull_slice (wk_slice w) q)) in Some (d, ok)
        else Some (wk_dec w, true)), w_node wl D (wk_c w) with
      | Some (d, true), NCode _ cdf _ =>
          if underflows d cdf then Some StateUnderflow else
          match get_sym d (ref_lookup cdf) with
          | Some (v, _) => match hazard (wk_c w) v with Some s => Some (of_hazard s) | None => None end
          | None => None
          end
      | _, _ => None
      end) = None -> exists x,
    (if match k_st (wk_c w) with TPm _ => negb (has_speeds (k_pm (wk_c w))) | _ => false end then
        match q_cm q with
        | [] => Some (w, q, Some WNeedOut)
        | p :: ps => Some (wk_set_c w (kset_pm (wk_c w) p (k_st (wk_c w))), q_set_cm q ps, None)
        end
      else
        let? '(d, s, q, ok) :=
          if w_fills (k_st (wk_c w)) then
            if num_push_bytes_avail (wk_dec w) =? 0 then Some (wk_dec w, wk_slice w, q, true)
            else let '(s, q) := pull_slice (wk_slice w) q in
                 let? '(d, s, ok) := fill_from (wk_dec w) s in Some (d, s, q, ok)
          else Some (wk_dec w, wk_slice w, q, true) in
        if negb ok then Some (WK (wk_c w) d s false, q, Some WNeedIn) else
        match w_node wl D (wk_c w) with
        | NCode _ cdf k =>
            let? '(v, d) := get_sym d (ref_lookup cdf) in
            match k v with
            | Next c => Some (WK c d s false, q, None)
            | Err e => Some (WK (wk_c w) d s false, q, Some (WFail e))
            | Panic => None
            end
        | NSilent (Next c) => Some (WK c d s false, q, None)
        | NSilent (Err e) => Some (WK (wk_c w) d s false, q, Some (WFail e))
        | NSilent Panic => None
        | NAdvance c _ => Some (WK c d s false, q, None)
        | NEnd => None
        end) = Some x /\ w_after cM w q x).
  { intros NP HD'. clear HD.
    assert (P0 : pop_pm (k_st (wk_c w)) = 0%nat) by (destruct (k_st (wk_c w)) as [| | | | | | | |[]|]; try reflexivity; contradiction NP).
    destruct (match k_st (wk_c w) with TPm _ => negb (has_speeds (k_pm (wk_c w))) | _ => false end) eqn:WM.
    - assert (HP : has_speeds (k_pm (wk_c w)) = false) by (destruct (k_st (wk_c w)); try discriminate WM; destruct (has_speeds (k_pm (wk_c w))); [discriminate WM|reflexivity]).
      destruct (q_cm q) as [|p ps] eqn:QC.
      + eexists. split; [reflexivity|]. cbn [w_after]. split; [exact V|]. split; [reflexivity|]. split; [lia|]. right. auto.
      + eexists. split; [reflexivity|]. cbn [w_after]. inversion VTC as [|? ? PO VTC']; subst. pose proof PO as (PI & PN & PH).
        assert (LT : W (wk_set_c w (kset_pm (wk_c w) p (k_st (wk_c w)))) (q_set_cm q ps) < W w q).
        { unfold W, LW, H, left_w, qbytes. cbn [wk_c wk_set_c wk_dec wk_slice q_data q_res q_rdata q_set_cm kset_pm k_st k_pm]. unfold hs. rewrite PH, HP. clear. lia. }
        split; [|split; [reflexivity|split; [lia|exact LT]]].
        constructor; try assumption; cbn [wk_c wk_set_c wk_dec wk_slice wk_done q_data q_res q_rdata q_eof q_rcm q_cm q_set_cm kset_pm k_st k_pm].
        * exists p. destruct VC as [I B N T PW]. constructor; cbn [kset_pm k_bk k_st k_pm wpm]; try assumption; [|reflexivity].
          destruct I as [I1 I2 I3 I4 I5]. constructor; cbn [wpm kset_pm k_bk k_lbk k_mix k_pm k_rec k_st] in *; assumption.
        * rewrite VE, DO. reflexivity.
        * unfold hs in *. rewrite HP in VT. rewrite PH. cbn [length] in VT. lia.
    - pose proof (wants_cases _ _ WM) as IP. pose proof (w_round wl D BIG _ P VC NP IP) as WR.
      pose proof (w_quiet wl D (wk_c w) ltac:(destruct (k_st (wk_c w)); auto)) as WQ. pose proof (no_fill wl D (wk_c w)) as NF.
      destruct (fills_any (k_st (wk_c w)) w q VD VS VDA VD2 VR2) as (d & s & q1 & ok & -> & FE & DS1 & BS1 & FD1 & D21 & R21 & QC1 & QR1 & QRC1 & QE1 & HL1 & PT1 & LF1 & OK1 & NK1). cbn [bind].
      rewrite FE in HD'. clear FE.
      (* the invariant after the step, given the new coder *)
      assert (INV : forall c' d', dsane d' -> wnext D (wk_c w) c' -> winvH cM (WK c' d' s false) q1).
      { intros c' d' DS' WN. constructor; cbn [wk_c wk_dec wk_slice wk_done]; rewrite ?QC1, ?QR1, ?QRC1, ?QE1; try assumption.
        - destruct WN as [(_ & _ & X)|(_ & _ & _ & X)]; [exact X|eexists; exact X].
        - unfold hs in *. destruct WN as [(W1 & W2 & _)|(W1 & W2 & W3 & _)]; [rewrite W1, W2|rewrite W1 in VT; rewrite W2, W3]; lia. }
      assert (HELD : forall c' d', held (WK c' d' s false) q1 = held w q) by (intros c' d'; exact HL1).
      destruct ok; cbn [negb].
      2:{ destruct (NK1 eq_refl) as (N1 & N2). eexists. split; [reflexivity|]. cbn [w_after].
          assert (WW : forall x, 4 * LW (WK (wk_c w) d s false) q1 + H (WK (wk_c w) d s false) q1 + x = 4 * LW w q + H w q -> W (WK (wk_c w) d s false) q1 + x = W w q).
          { intros x X. unfold W. cbn [wk_c wk_dec]. rewrite PT1, QR1. clear - X. lia. }
          pose proof (WW _ (Zplus_minus _ _)) as WW'.
          split; [|split; [exact HL1|split; [clear - WW' LF1; lia|]]].
          - constructor; cbn [wk_c wk_dec wk_slice wk_done]; rewrite ?QC1, ?QR1, ?QRC1, ?QE1; try assumption. exists P. exact VC.
          - cbn [stopH wk_slice]. destruct N2 as [N2|N2]; [left; clear - N2 WW'; lia|right; exact N2]. }
      pose proof (OK1 eq_refl) as N1. clear NK1 OK1.
      assert (GO : forall c' d', dsane d' -> wnext D (wk_c w) c' ->
        15 * pot d' (LW (WK (wk_c w) d s false) q1) + 6 * Z.of_nat (wrank (k_st c')) + 3 * (1 - Z.of_nat (hs (k_pm c'))) < 15 * pot d (LW (WK (wk_c w) d s false) q1) + 6 * Z.of_nat (wrank (k_st (wk_c w))) + 3 * (1 - Z.of_nat (hs (k_pm (wk_c w)))) ->
        exists x, Some (WK c' d' s false, q1, None) = Some x /\ w_after cM w q x).
      { intros c' d' DS' WN LT. eexists. split; [reflexivity|]. cbn [w_after].
        assert (WW : W (WK c' d' s false) q1 < W w q).
        { unfold W. cbn [wk_c wk_dec]. rewrite QR1. change (LW (WK c' d' s false) q1) with (LW (WK (wk_c w) d s false) q1). change (H (WK c' d' s false) q1) with (H (WK (wk_c w) d s false) q1). rewrite <- PT1. clear - LT LF1. lia. }
        split; [apply INV; assumption|]. split; [apply HELD|]. split; [clear - WW; lia|exact WW]. }
      destruct (w_node wl D (wk_c w)) as [st cdf k|[c'|e|]|c' x|]; cbn [wround] in WR; try contradiction.
      + destruct WR as (CD & KV). destruct N1 as [N1|N1]; [|contradiction (NF N1)].
        destruct (underflows d cdf) eqn:UF; [discriminate HD'|].
        destruct (sym_any d cdf DS1 N1 CD UF) as (v & d2 & E2 & NV & DS2 & SC2 & ND2 & _). rewrite E2 in HD' |- *. cbn [bind].
        assert (HZ : hazard (wk_c w) v = None) by (destruct (hazard (wk_c w) v); [discriminate HD'|reflexivity]).
        specialize (KV v NV HZ). destruct (k v) as [c'|e|]; [|eexists; split; [reflexivity|exact Logic.I]|contradiction].
        destruct KV as (WN & HSE). apply GO; [exact DS2|exact WN|].
        pose proof (pot_sym d d2 (LW (WK (wk_c w) d s false) q1) DS1 N1 SC2 ND2) as PS. pose proof (wrank_le (k_st c')) as RK. unfold hs. rewrite HSE. clear - PS RK. lia.
      + apply GO; [exact DS1|exact WR|]. cbn [wquiet] in WQ. unfold hs. clear - WQ. destruct (has_speeds (k_pm c')), (has_speeds (k_pm (wk_c w))); lia.
      + eexists. split; [reflexivity|exact Logic.I].
      + apply GO; [exact DS1|exact WR|]. cbn [wquiet] in WQ. unfold hs. clear - WQ. destruct (has_speeds (k_pm c')), (has_speeds (k_pm (wk_c w))); lia. }
  destruct (k_st (wk_c w)) as [|s|s|s|s|s|s|u|cmd|] eqn:ST; try (apply MAIN; [exact Logic.I|exact HD]).
  - clear MAIN HD. unfold q_push_cmd. destruct (Z.ltb_spec (zlen (q_res q)) NUM_BUFFERED) as [L|L].
    2:{ eexists. split; [reflexivity|]. cbn [w_after]. split; [exact V|]. split; [reflexivity|]. split; [lia|left; exact L]. }
    pose proof (wo_top _ _ _ VC) as TOP. rewrite ST in TOP. cbn [wtop top_sane] in TOP.
    assert (WO : wok D (kset (wk_c w) (k_bk (wk_c w)) TBegin) P).
    { destruct VC as [I B N T PW]. constructor; cbn [kset k_bk k_st k_pm wpm]; try assumption; [|exact Logic.I].
      destruct I as [I1 I2 I3 I4 I5]. constructor; cbn [wpm kset k_bk k_lbk k_mix k_pm k_rec k_st] in *; try assumption. exact Logic.I. }
    assert (GO : forall rcm', (match cmd with PredictionMode p => has_speeds (fst (q_rcm q)) = false /\ rcm' = (p, snd (q_rcm q)) | _ => rcm' = q_rcm q end) ->
      exists x, Some (wk_set_c w (kset (wk_c w) (k_bk (wk_c w)) TBegin), SQ (q_data q) (q_cm q) (q_res q ++ [downcast cmd]) (q_rdata q) rcm' (q_eof q), None) = Some x /\ w_after cM w q x).
    { intros rcm' RC. eexists. split; [reflexivity|]. cbn [w_after].
      assert (WW : W (wk_set_c w (kset (wk_c w) (k_bk (wk_c w)) TBegin)) (SQ (q_data q) (q_cm q) (q_res q ++ [downcast cmd]) (q_rdata q) rcm' (q_eof q)) < W w q) by (apply W_push; eauto).
      split; [|split; [reflexivity|split; [lia|exact WW]]].
      assert (OKC : okcmd (downcast cmd)) by (apply okdown; destruct cmd; cbn; auto).
      assert (PMC : (exists p, cmd = PredictionMode p) \/ (pop_pm (TPop cmd) = 0%nat /\ cpm [downcast cmd] = 0%nat /\ rcm' = q_rcm q)).
      { destruct cmd; cbn in RC |- *; eauto. }
      assert (L1 : zlen (q_res q ++ [downcast cmd]) <= NUM_BUFFERED) by (rewrite zlen_app; change (zlen [downcast cmd]) with 1; lia).
      assert (F1 : Forall okcmd (q_res q ++ [downcast cmd])) by (apply Forall_app; split; [exact VCM|apply Forall_cons; [exact OKC|apply Forall_nil]]).
      destruct PMC as [(p & ->)|(PC & PD & ->)].
      - destruct RC as (RC & ->). cbn [pop_pm downcast] in *. pose proof TOP as (_ & _ & PH).
        rewrite RC in VTQ. symmetry in VTQ. apply Nat.eqb_neq in VTQ.
        constructor; cbn [q_data q_cm q_res q_rdata q_rcm q_eof wk_c wk_dec wk_slice wk_done wk_set_c fst snd k_st kset k_pm pop_pm]; try assumption; try (rewrite VE, DO; reflexivity); rewrite ?cpm_app; cbn [cpm].
        + exists P. exact WO.
        + lia.
        + replace (cpm (q_res q) + 1)%nat with 1%nat by lia. rewrite PH. reflexivity.
        + intros _. exact TOP.
      - constructor; cbn [q_data q_cm q_res q_rdata q_rcm q_eof wk_c wk_dec wk_slice wk_done wk_set_c k_st kset k_pm pop_pm]; try assumption; try (rewrite VE, DO; reflexivity); rewrite ?cpm_app, ?PD, ?Nat.add_0_r.
        + exists P. exact WO.
        + rewrite PC in VT. lia.
        + exact VTQ. }
    destruct cmd; try (apply GO; reflexivity).
    cbn [pop_pm] in VT. assert (C0 : cpm (q_res q) = 0%nat) by lia. rewrite C0 in VTQ. rewrite VTQ. change (0 =? 1)%nat with false. cbn iota. apply GO. split; [exact VTQ|reflexivity].
  - eexists. split; [reflexivity|]. cbn [w_after].
    assert (WW : W (WK (wk_c w) (wk_dec w) (wk_slice w) true) (q_set_eof q true) = W w q) by reflexivity.
    split; [|split; [reflexivity|split; [rewrite WW; lia|reflexivity]]].
    constructor; cbn [q_data q_cm q_res q_rdata q_rcm q_eof wk_c wk_dec wk_slice wk_done q_set_eof]; try assumption; try reflexivity; [exists P; exact VC|rewrite ST; exact VT].
Qed.
Lemma W_pos cM w q : winvH cM w q -> 0 < W w q.
Proof.
  intros V. pose proof (pot_pos (wk_dec w) (LW w q) (hv_dec _ _ _ V) ltac:(unfold LW; lia)) as PP. unfold W, H. pose proof (zlen_nonneg (q_res q)). pose proof (zlen_nonneg (q_rdata q)).
  assert (Z.of_nat (hs (k_pm (wk_c w))) <= 1) by (unfold hs; destruct (has_speeds _); lia). assert (0 <= LW w q) by (unfold LW; lia). destruct (_ =? 0); lia.
Qed.
(** ** The worker stops *)
Lemma gw_run_any cM : forall fuel w q, winvH cM w q -> W w q < Z.of_nat fuel ->
  (exists h, gw_run wl D fuel w q = Unsafe h) \/
  exists w' q' r, gw_run wl D fuel w q = Fine (w', q', r) /\
    match r with
    | WFail _ => True
    | _ => winvH cM w' q' /\ held w' q' = held w q /\ W w' q' <= W w q /\ stopH (W w q) w' q' r
    end.
Proof.
  induction fuel as [|fuel IH]; intros w q V L; [pose proof (W_pos _ _ _ V); lia|]. cbn [gw_run].
  destruct (w_danger wl D w q) as [h|] eqn:HD; cbn [unless gbind]; [left; eexists; reflexivity|].
  destruct (w_step_any cM w q V HD) as (((w' & q') & r) & -> & A). cbn [of_opt gbind]. cbn [w_after] in A.
  destruct r as [r|].
  - right. exists w', q', r. split; [reflexivity|]. destruct r; exact A.
  - destruct A as (V' & HE & LE & LT). destruct (IH w' q' V' ltac:(lia)) as [U|(w2 & q2 & r & -> & A)]; [left; exact U|]. right. exists w2, q2, r. split; [reflexivity|].
    destruct r; try exact Logic.I; destruct A as (V2 & HE2 & LE2 & ST2); (split; [exact V2|]; split; [congruence|]; split; [lia|]; cbn [stopH] in *; try exact ST2).
    destruct ST2 as [ST2|ST2]; [left; lia|right; exact ST2].
Qed.
(** the guarded worker is the worker *)
Lemma gw_run_real : forall fuel w q x, gw_run wl D fuel w q = Fine x -> w_run wl D fuel w q = Some x.
Proof.
  induction fuel as [|fuel IH]; intros w q x E; [discriminate E|]. cbn [gw_run w_run] in *.
  destruct (w_danger wl D w q); cbn [unless gbind] in E; [discriminate E|]. destruct (w_step wl D w q) as [((w' & q') & r)|]; cbn [of_opt gbind] in E; [|discriminate E]. cbn [bind].
  destruct r as [r|]; [congruence|]. apply IH, E.
Qed.
Lemma winvH_new : winvH 0 (worker_new D) squeue_new.
Proof.
  constructor; cbn [worker_new squeue_new wk_c wk_dec wk_slice wk_done q_data q_res q_rdata q_eof q_rcm q_cm fst snd]; try reflexivity; try apply Forall_nil; try (change (zlen (@nil mbuf)) with 0; lia); try discriminate.
  - exists (k_pm (codec_new D tt)). apply sane_wok; [rewrite wpm_same; apply (sane_new no_replayer D BIG (SAFE0 D))|exact Logic.I|reflexivity].
  - apply dsane_new.
  - unfold bok, mb_empty; cbn [rd wr mem]; change (zlen (@nil Z)) with 0; lia.
Qed.
End Worker.
