(** Two threads: what each of the worker's steps does to its state and the queue. *)
From Verif Require Import Prelude ProofList ModelAns SpecAns ModelCdf SpecCdf ProofAns ProofAnsRt ProofAnsDec ThmCdf ModelMux ProofZlist ProofMux ModelCmd ModelRecode SpecLz ModelPriors ModelCodec ModelLit ModelPm ModelTop SpecCodec SpecReplay SpecFile ModelEnc ModelDec ProofDec1 ProofDec2 ProofDec3 ProofDec4 ProofDec5 ModelThread.

Section Worker.
Context (wl : word_len_fn) (D : dims).
Notation WINV := (winv wl D).

Lemma bok_mem0 b : bok b -> zlen (mem b) = 0 -> mb_data b = [].
Proof. intros B E. pose proof (mem_data b B) as H. destruct (mb_data b); [reflexivity|]. exfalso. apply H; [discriminate|exact E]. Qed.

Lemma code_spec n pw ci ces outs cM rest w q : WINV n pw ci ces outs cM rest w q -> wk_done w = false -> k_st ci <> TEnd -> ~ is_pop (k_st ci) ->
  wants_map (wk_c w) = false -> starving w = false ->
  exists w' r n' pw' ci' ces', w_code wl D w = Some (w', r) /\ WINV n' pw' ci' ces' outs cM rest w' q /\ wk_done w' = false /\
    (cM = 1%nat -> k_pm ci' = k_pm ci) /\ mem (wk_slice w') = mem (wk_slice w) /\
    match r with
    | None => (2 * n' + (1 - hs pw') < 2 * n + (1 - hs pw))%nat /\ (length (mb_data (wk_slice w')) <= length (mb_data (wk_slice w)))%nat
    | Some WNeedIn => n' = n /\ pw' = pw /\ (length (mb_data (wk_slice w')) < length (mb_data (wk_slice w)))%nat
    | Some _ => False
    end.
Proof.
  intros V DO NE NP WM ST. pose proof V as [TR FW WC AR BS FD D2 R2 EO DN TK TW TP TQ TQ2 TS TC]. unfold w_code. unfold wants_map in WM. unfold starving in ST. rewrite WC in *.
  change (k_st (wpm ci pw)) with (k_st ci) in *. change (k_pm (wpm ci pw)) with pw in WM. pose proof (wants_cases _ _ WM) as IP.
  assert (FILL : exists d s ok, (if w_fills (k_st ci) then fill_from (wk_dec w) (wk_slice w) else Some (wk_dec w, wk_slice w, true)) = Some (d, s, ok) /\
    arel d (ivs ces) (mb_data s ++ qbytes q ++ rest) /\ bok s /\ mem s = mem (wk_slice w) /\ (length (mb_data s) <= length (mb_data (wk_slice w)))%nat /\
    (ok = true -> need d = 0%nat \/ w_fills (k_st ci) = false) /\ (ok = false -> (length (mb_data s) < length (mb_data (wk_slice w)))%nat)).
  { destruct (w_fills (k_st ci)) eqn:WF.
    2:{ exists (wk_dec w), (wk_slice w), true. split; [reflexivity|]. split; [exact AR|]. split; [exact BS|]. split; [reflexivity|]. split; [lia|]. split; [auto|discriminate]. }
    destruct (Nat.eq_dec (need (wk_dec w)) 0) as [Z0|Z0].
    - exists (wk_dec w), (wk_slice w), true. split; [unfold fill_from; rewrite (arel_avail _ _ _ AR), Z0; reflexivity|]. split; [exact AR|]. split; [exact BS|]. split; [reflexivity|]. split; [lia|]. split; [auto|discriminate].
    - destruct (fill_spec _ _ _ _ BS AR Z0) as (d' & s' & E & B' & M' & DD & AR' & _ & _ & ND). exists d', s', (Nat.eqb (need d') 0). split; [exact E|]. split; [exact AR'|]. split; [exact B'|]. split; [exact M'|]. rewrite DD, skipn_length. split; [lia|].
      split; [intros X; apply Nat.eqb_eq in X; auto|]. intros _.
      cbn [andb] in ST. rewrite (arel_avail _ _ _ AR) in ST. destruct (Nat.eqb_spec (need (wk_dec w)) 0) as [X|_]; [contradiction|]. cbn [negb andb] in ST. destruct (mb_data (wk_slice w)); [discriminate ST|cbn [length]; lia]. }
  destruct FILL as (d & s & ok & -> & AR1 & BS1 & MS1 & LE1 & OK1 & NK1). cbn [bind]. destruct ok; cbn [negb].
  2:{ exists (WK (wpm ci pw) d s false), (Some WNeedIn), n, pw, ci, ces. split; [reflexivity|]. split; [constructor; try assumption; try reflexivity; try (cbn; discriminate); cbn [wk_done]; congruence|]. auto 10. }
  specialize (OK1 eq_refl). clear NK1.
  destruct (w_next _ _ _ _ _ _ _ TR TW IP NP NE) as (n' & ci' & ces' & pw' & -> & TR' & PM & ND).
  assert (P0 : pop_pm (k_st ci) = 0%nat) by (destruct (k_st ci) as [| | | | | | | |[]|]; try reflexivity; contradiction NP; exact Logic.I).
  assert (FIN : forall d', arel d' (ivs ces') (mb_data s ++ qbytes q ++ rest) -> exists w' r n0 pw0 ci0 ces0,
     Some (WK (wpm ci' pw') d' s false, None) = Some (w', r) /\ WINV n0 pw0 ci0 ces0 outs cM rest w' q /\ wk_done w' = false /\
     (cM = 1%nat -> k_pm ci0 = k_pm ci) /\ mem (wk_slice w') = mem (wk_slice w) /\
     match r with
     | None => (2 * n0 + (1 - hs pw0) < 2 * S n' + (1 - hs pw))%nat /\ (length (mb_data (wk_slice w')) <= length (mb_data (wk_slice w)))%nat
     | Some WNeedIn => n0 = S n' /\ pw0 = pw /\ (length (mb_data (wk_slice w')) < length (mb_data (wk_slice w)))%nat
     | Some _ => False
     end).
  { intros d' AR'. exists (WK (wpm ci' pw') d' s false), None, n', pw', ci', ces'. split; [reflexivity|]. unfold hs in TK.
    split; [|split; [reflexivity|split; [|split; [exact MS1|split; [unfold hs; destruct (has_speeds pw), (has_speeds pw'); lia|exact LE1]]]]].
    - destruct PM as [(P1 & P2 & P3 & P4)|(P1 & P2 & P3 & P4)].
      + assert (KP : (cpm (q_res q) + length (q_cm q) <> 0)%nat -> k_pm ci' = k_pm ci) by (intros X; apply P3; destruct (has_speeds pw); [lia|reflexivity]).
        constructor; try assumption; try reflexivity; try (cbn; discriminate).
        * cbn [wk_done]. congruence.
        * unfold hs. rewrite P1, P4. lia.
        * intros p X. rewrite X in P4. discriminate P4.
        * intros X. rewrite KP by lia. apply TQ2, X.
        * intros p X. rewrite KP; [apply TC, X|]. destruct (q_cm q); [contradiction X|cbn [length]; lia].
      + rewrite P2 in TK. constructor; try assumption; try reflexivity; try (cbn; discriminate).
        * cbn [wk_done]. congruence.
        * unfold hs. rewrite P1, P4. cbn. lia.
        * rewrite P1. discriminate.
        * rewrite P4. intros p [= <-]. reflexivity.
        * intros X. lia.
        * intros p X. rewrite P3. apply TC, X.
    - intros X. destruct PM as [(P1 & P2 & P3 & P4)|(P1 & P2 & P3 & P4)]; [|exact P3]. apply P3. destruct (has_speeds pw); [lia|reflexivity]. }
  destruct ND as [(cdf & k & v & -> & CD & NB & NN & KV)|(-> & [NN|(x & NN)])]; rewrite NN.
  - assert (N0 : need d = 0%nat). { destruct OK1 as [N1|N1]; [exact N1|]. exfalso. pose proof (no_fill wl D (wpm ci pw) N1) as F. rewrite NN in F. exact F. }
    destruct (arel_sym d (ref_lookup cdf) v _ _ _ AR1 N0 (C04_intervals_sound _ _ CD NB)) as (d2 & -> & AR2 & _). cbn [bind]. rewrite KV. apply FIN, AR2.
  - apply FIN, AR1.
  - apply FIN, AR1.
Qed.

Lemma push_spec n pw ci ces outs cM rest w q cmd : WINV n pw ci ces outs cM rest w q -> wk_done w = false -> k_st ci = TPop cmd ->
  exists n0 o0, n = S n0 /\ cpm [downcast cmd] = pop_pm (TPop cmd) /\
  let rcm' := match cmd with PredictionMode p => (p, snd (q_rcm q)) | _ => q_rcm q end in
  let q' := SQ (q_data q) (q_cm q) (q_res q ++ [downcast cmd]) (q_rdata q) rcm' (q_eof q) in
  WINV n0 pw (kset ci (k_bk ci) TBegin) ces o0 cM rest (wk_set_c w (kset (wk_c w) (k_bk (wk_c w)) TBegin)) q' /\
  expand (fst (q_rcm q')) (q_res q') ++ o0 = expand (fst (q_rcm q)) (q_res q) ++ outs.
Proof.
  intros V DO ST. pose proof V as [TR FW WC AR BS FD D2 R2 EO DN TK TW TP TQ TQ2 TS TC].
  inversion TR as [n0 c0 cdf k v c' es0 o0 S1 N1|n0 c0 c' es0 o0 S1 N1 W1|n0 c0 c' x es0 o0 S1 P1 N1|n0 c0 cmd' es0 o0 S1 ST1 W1|c0 S1 ST1]; subst.
  1,2: unfold wi_node, w_node, top_node in N1; rewrite ST in N1; discriminate N1.
  1: contradiction P1; rewrite ST; exact Logic.I.
  2: congruence.
  rewrite ST in ST1. injection ST1 as <-. inversion FW as [|? ? FC FW']; subst. rewrite ST in *. rewrite WC.
  exists n0, o0. split; [reflexivity|]. split; [destruct cmd; reflexivity|]. cbn zeta.
  set (rcm' := match cmd with PredictionMode p => (p, snd (q_rcm q)) | _ => q_rcm q end).
  assert (RC : match cmd with PredictionMode p => rcm' = (p, snd (q_rcm q)) | _ => rcm' = q_rcm q end) by (unfold rcm'; destruct cmd; reflexivity). clearbody rcm'.
  split.
  - assert (PMC : (exists p, cmd = PredictionMode p) \/ (pop_pm (TPop cmd) = 0%nat /\ cpm [downcast cmd] = 0%nat /\ rcm' = q_rcm q)).
    { destruct cmd; cbn in RC |- *; eauto. }
    destruct PMC as [(p & ->)|(PC & PD & ->)].
    + subst rcm'. pose proof (TP p eq_refl) as E. cbn [pop_pm downcast] in *. pose proof (wtr_hs _ _ _ _ _ _ TR) as HC. rewrite <- E in HC.
      constructor; cbn [q_data q_cm q_res q_rdata q_rcm q_eof wk_c wk_dec wk_slice wk_done wk_set_c fst snd]; try assumption; try reflexivity; try (rewrite DO; discriminate); rewrite ?cpm_app; cbn [cpm pop_pm k_st kset k_pm]; try lia.
      * discriminate.
      * rewrite HC. symmetry. apply Nat.eqb_eq. lia.
      * intros _. exact E.
    + rewrite PC in TK.
      constructor; cbn [q_data q_cm q_res q_rdata q_rcm q_eof wk_c wk_dec wk_slice wk_done wk_set_c fst snd]; try assumption; try reflexivity; try (rewrite DO; discriminate); rewrite ?cpm_app, ?PD, ?Nat.add_0_r; cbn [pop_pm k_st kset k_pm]; try lia; try assumption.
      discriminate.
  - cbn [q_res q_rcm fst]. rewrite expand_app, <- app_assoc. f_equal.
    + destruct cmd; subst rcm'; try reflexivity. apply expand_none. cbn [pop_pm] in TK. lia.
    + destruct cmd as [| | | | | |]; subst rcm'; cbn [expand map app fst]; cbn [fwd] in FC; rewrite ?FC; reflexivity.
Qed.

Lemma map_spec n pw ci ces outs cM rest w q p : WINV n pw ci ces outs cM rest w q -> has_speeds pw = false -> q_cm q = [p] ->
  WINV n p ci ces outs cM rest (wk_set_c w (kset_pm (wk_c w) p (k_st (wk_c w)))) (q_set_cm q []) /\ hs p = 1%nat.
Proof.
  intros [TR FW WC AR BS FD D2 R2 EO DN TK TW TP TQ TQ2 TS TC] HP QC. assert (PP : p = k_pm ci) by (apply TC; rewrite QC; left; reflexivity).
  pose proof (wtr_hs _ _ _ _ _ _ TR) as HC. rewrite <- PP in HC. unfold hs. rewrite HC. split; [|reflexivity]. rewrite WC.
  unfold hs in TK. rewrite HP, QC in TK. cbn [length] in TK.
  constructor; cbn [q_cm q_set_cm q_res q_eof q_data q_rdata q_rcm wk_done wk_set_c wk_c wk_dec wk_slice]; try assumption; try reflexivity; auto.
  unfold hs. rewrite HC. cbn [length]. lia. intros x [].
Qed.

Lemma pulled_spec n pw ci ces outs cM rest w q b bs : WINV n pw ci ces outs cM rest w q -> mb_data (wk_slice w) = [] -> q_data q = b :: bs ->
  WINV n pw ci ces outs cM rest (WK (wk_c w) (wk_dec w) b (wk_done w)) (q_set_data q bs) /\ zlen (mem b) <> 0.
Proof.
  intros [TR FW WC AR BS FD D2 R2 EO DN TK TW TP TQ TQ2 TS TC] S0 QD. rewrite QD in *. inversion FD as [|? ? (Bb & Nb) FD']; subst. split; [|apply mem_data; assumption].
  constructor; cbn [q_cm q_set_data q_res q_eof q_data q_rdata q_rcm wk_done wk_c wk_dec wk_slice]; try assumption.
  - unfold qbytes in *. rewrite S0, QD in AR. cbn [q_data q_set_data map concat app] in *. rewrite <- app_assoc in AR. exact AR.
  - rewrite zlen_cons in D2. lia.
Qed.

Lemma sent_spec n pw ci ces outs cM rest w q : WINV n pw ci ces outs cM rest w q -> mb_data (wk_slice w) = [] -> zlen (q_rdata q) < 2 ->
  WINV n pw ci ces outs cM rest (WK (wk_c w) (wk_dec w) mb_empty (wk_done w)) (q_set_rdata q (q_rdata q ++ [wk_slice w])).
Proof.
  intros [TR FW WC AR BS FD D2 R2 EO DN TK TW TP TQ TQ2 TS TC] S0 L.
  constructor; cbn [q_cm q_set_rdata q_res q_eof q_data q_rdata q_rcm wk_done wk_c wk_dec wk_slice]; try assumption.
  - rewrite S0 in AR. exact AR.
  - apply bok_empty.
  - rewrite zlen_app. change (zlen [wk_slice w]) with 1. lia.
Qed.

Lemma eof_spec n pw ci ces outs cM rest w q : WINV n pw ci ces outs cM rest w q -> k_st ci = TEnd ->
  WINV n pw ci ces outs cM rest (WK (wk_c w) (wk_dec w) (wk_slice w) true) (q_set_eof q true).
Proof. intros [TR FW WC AR BS FD D2 R2 EO DN TK TW TP TQ TQ2 TS TC] ST. constructor; try assumption; auto. Qed.
End Worker.
