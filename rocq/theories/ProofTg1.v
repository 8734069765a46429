(** Two threads, any input: the worker's own work and the main thread's. *)
From Verif Require Import Prelude ProofList ModelAns SpecAns ModelCdf SpecCdf ProofCdf ProofAns ProofAnsRt ProofAnsDec ThmCdf ModelMux ProofZlist ProofMux ProofMuxR ModelCmd ModelCrc ModelHeader ModelRecode SpecLz ProofRecode ProofRecode2 ModelPriors ModelCodec ModelLit ModelPm ModelTop SpecCodec ModelEnc ModelDec ModelContextLut ThmPriors ProofCodecInv ProofCodecInv2 ProofRun ProofTop ProofDec2 ProofDec3 ProofDec4 ProofDec5 SpecHostile ProofHostile SpecGuard ProofGuard1 ProofGuard2 ProofGuard3 ProofGuard4 ProofGuard5 ProofGuard6 ProofGuard7 ModelThread SpecTany SpecTguard.

Section Own.
Context (dict : dict_fn) (wl : word_len_fn) (D : dims) (BIG : big D) (skip : bool).
Notation minv := (ProofGuard5.minv dict D). Notation winvH := (winvH D). Notation okcmd := (okcmd D).
(** ** The worker *)
Record wkok (w : worker) : Prop := {
  ko_c : exists P, wok D (wk_c w) P; ko_dec : dsane (wk_dec w); ko_slice : bok (wk_slice w) }.
Definition toks (w : worker) : nat := (hs (k_pm (wk_c w)) + pop_pm (k_st (wk_c w)))%nat.
Definition U (w : worker) : Z := W w squeue_new.
Lemma alone w : wkok w -> wk_done w = false -> (toks w <= 1)%nat -> winvH (1 - toks w) w squeue_new.
Proof.
  intros [C E S] DN T. unfold toks in *. constructor; cbn [squeue_new q_data q_cm q_res q_rdata q_rcm q_eof fst snd cpm length]; try assumption; try apply Forall_nil; try (change (zlen (@nil mbuf)) with 0; lia); try reflexivity; try discriminate; first [symmetry; exact DN|lia].
Qed.
Lemma U_pos w : wkok w -> wk_done w = false -> (toks w <= 1)%nat -> 0 < U w.
Proof. intros K DN T. exact (W_pos D _ _ _ (alone w K DN T)). Qed.
Definition busy (w : worker) : Prop := match k_st (wk_c w) with TEnd | TPop _ => False | _ => True end /\ wants_map (wk_c w) = false /\ starving w = false.
Lemma code_step w : dsane (wk_dec w) -> bok (wk_slice w) -> wk_done w = false -> busy w ->
  w_step wl D w squeue_new = (let? '(w', r) := w_code wl D w in Some (w', squeue_new, r)).
Proof.
  intros DS BS DN (NP & WM & ST). unfold w_step, w_code, wants_map, starving in *. rewrite DN.
  assert (FILL : (if w_fills (k_st (wk_c w)) then
      if num_push_bytes_avail (wk_dec w) =? 0 then Some (wk_dec w, wk_slice w, squeue_new, true)
      else let '(s, q) := pull_slice (wk_slice w) squeue_new in let? '(d, s, ok) := fill_from (wk_dec w) s in Some (d, s, q, ok)
     else Some (wk_dec w, wk_slice w, squeue_new, true)) =
     let? '(d, s, ok) := if w_fills (k_st (wk_c w)) then fill_from (wk_dec w) (wk_slice w) else Some (wk_dec w, wk_slice w, true) in Some (d, s, squeue_new, ok)).
  { destruct (w_fills (k_st (wk_c w))); [|reflexivity]. cbn [andb] in ST.
    destruct (fill_sane _ _ DS BS) as (d' & s' & E & _ & _ & _ & _ & _ & _ & _ & N0). rewrite (avail_need _ DS) in *.
    destruct (Z.eqb_spec (Z.of_nat (need (wk_dec w))) 0) as [Z0|Z0].
    - destruct (N0 ltac:(lia)) as (-> & ->). rewrite E. cbn [bind]. replace (need (wk_dec w)) with 0%nat by lia. reflexivity.
    - cbn [negb andb] in ST. unfold pull_slice. rewrite ST. cbn [negb]. reflexivity. }
  destruct (k_st (wk_c w)) as [|s|s|s|s|s|s|u|cmd|] eqn:KS; try contradiction NP; cbn iota in WM |- *; rewrite ?WM; rewrite FILL; clear FILL;
    (match goal with |- bind (bind ?a _) _ = _ => destruct a as [((d & s0) & ok)|]; cbn [bind]; [|reflexivity] end); (destruct ok; cbn [negb bind]; [|reflexivity]);
    (destruct (w_node wl D (wk_c w)) as [st cdf k|[c'|e|]|c' x|]; try reflexivity; destruct (get_sym d (ref_lookup cdf)) as [(v & d2)|]; cbn [bind]; [|reflexivity]; destruct (k v); reflexivity).
Qed.
Lemma w_code_keeps w w' r : dsane (wk_dec w) -> bok (wk_slice w) -> w_code wl D w = Some (w', r) -> wk_done w' = false /\ (mem (wk_slice w') = mem (wk_slice w) /\ bok (wk_slice w')) /\ match r with Some (WFail _) | None | Some WNeedIn => True | _ => False end.
Proof.
  unfold w_code. intros DS BS E.
  assert (F : forall d s ok, (if w_fills (k_st (wk_c w)) then fill_from (wk_dec w) (wk_slice w) else Some (wk_dec w, wk_slice w, true)) = Some (d, s, ok) -> mem s = mem (wk_slice w) /\ bok s).
  { intros d s ok. destruct (w_fills _); [|intros [= <- <- <-]; auto].
    destruct (fill_sane _ _ DS BS) as (d' & s' & -> & _ & _ & _ & B' & M' & _). intros [= _ <- _]. auto. }
  destruct (if w_fills (k_st (wk_c w)) then fill_from (wk_dec w) (wk_slice w) else Some (wk_dec w, wk_slice w, true)) as [((d & s) & ok)|]; cbn [bind] in E; [|discriminate].
  specialize (F _ _ _ eq_refl).
  assert (K : forall c x, (match x with Some (WFail _) | None | Some WNeedIn => True | _ => False end : Prop) -> Some (c, x) = Some (w', r) -> wk_done c = false -> wk_slice c = s -> wk_done w' = false /\ (mem (wk_slice w') = mem (wk_slice w) /\ bok (wk_slice w')) /\ match r with Some (WFail _) | None | Some WNeedIn => True | _ => False end).
  { intros c x X [= <- <-] DN SL. rewrite SL. auto. }
  destruct ok; cbn [negb] in E; [|eapply K; [|exact E| |]; [exact Logic.I|reflexivity|reflexivity]].
  destruct (w_node wl D (wk_c w)) as [st cdf k|[c'|e|]|c' x|]; try discriminate; try (eapply K; [|exact E| |]; [exact Logic.I|reflexivity|reflexivity]).
  destruct (get_sym d (ref_lookup cdf)) as [(v & d2)|]; cbn [bind] in E; [|discriminate]. destruct (k v); try discriminate; (eapply K; [|exact E| |]; [exact Logic.I|reflexivity|reflexivity]).
Qed.
Lemma held_mem w w' : mem (wk_slice w') = mem (wk_slice w) -> forall q, held w' q = held w q.
Proof. intros E q. unfold held. rewrite E. reflexivity. Qed.
Lemma w_code_any w : wkok w -> wk_done w = false -> (toks w <= 1)%nat -> busy w -> w_danger wl D w squeue_new = None ->
  exists w' r, w_code wl D w = Some (w', r) /\ wk_done w' = false /\ (mem (wk_slice w') = mem (wk_slice w) /\ bok (wk_slice w')) /\
    ((exists e, r = Some (WFail e)) \/ (match r with Some (WFail _) => False | _ => True end /\ wkok w' /\ toks w' = toks w /\ U w' < U w)).
Proof.
  intros K DN T B HD. pose proof (alone w K DN T) as V. pose proof K as [KC KD KS].
  destruct (w_step_any wl D BIG _ w squeue_new V HD) as (((w' & q') & r) & E & A).
  rewrite (code_step w KD KS DN B) in E. destruct (w_code wl D w) as [(w1 & r1)|] eqn:WC; cbn [bind] in E; [|discriminate].
  assert (w1 = w' /\ squeue_new = q' /\ r1 = r) as (-> & <- & ->) by (repeat split; congruence). clear E.
  destruct (w_code_keeps _ _ _ KD KS WC) as (DN' & (ME & BO) & RR). exists w', r. split; [reflexivity|]. split; [exact DN'|]. split; [split; [exact ME|exact BO]|].
  cbn [w_after] in A.
  assert (TK : winvH (1 - toks w) w' squeue_new -> wkok w' /\ toks w' = toks w).
  { intros V'. pose proof (hv_tok _ _ _ _ V') as TT. destruct V'. split; [constructor; assumption|]. cbn [squeue_new q_res q_cm cpm length] in TT. unfold toks in *. lia. }
  destruct r as [[| | |e]|]; try contradiction RR.
  - right. split; [exact Logic.I|]. destruct A as (V' & _ & LE & STP). destruct (TK V') as (K' & T'). split; [exact K'|]. split; [exact T'|].
    cbn [stopH] in STP. destruct STP as [STP|[(_ & M0)|R2]]; [exact STP| |change (zlen (q_rdata squeue_new)) with 0 in R2; lia].
    (* an empty slice of an unstarved worker: nothing was wanted *)
    exfalso. rewrite ME in M0. destruct B as (_ & _ & ST). unfold starving in ST.
    assert (D0 : zlen (mb_data (wk_slice w)) = 0).
    { destruct KS as (S1 & S2 & S3). unfold mb_data, zfirst, zskip, zlen in *. rewrite firstn_length, skipn_length. lia. }
    rewrite D0 in ST. change (0 =? 0) with true in ST. rewrite andb_true_r in ST. unfold w_code in WC.
    destruct (w_fills (k_st (wk_c w))).
    + cbn [andb] in ST. apply negb_false_iff, Z.eqb_eq in ST. rewrite (avail_need _ KD) in ST.
      destruct (fill_sane _ _ KD KS) as (d' & s' & E & _ & _ & _ & _ & _ & _ & _ & N0). destruct (N0 ltac:(lia)) as (-> & ->). rewrite E in WC. replace (need (wk_dec w)) with 0%nat in WC by lia. cbn [bind negb Nat.eqb] in WC.
      destruct (w_node wl D (wk_c w)) as [st cdf k|[c'|e|]|c' x|]; try discriminate. destruct (get_sym _ _) as [(v & d2)|]; cbn [bind] in WC; [|discriminate]. destruct (k v); discriminate.
    + cbn [bind negb] in WC. destruct (w_node wl D (wk_c w)) as [st cdf k|[c'|e|]|c' x|]; try discriminate. destruct (get_sym _ _) as [(v & d2)|]; cbn [bind] in WC; [|discriminate]. destruct (k v); discriminate.
  - left. exists e. reflexivity.
  - right. split; [exact Logic.I|]. destruct A as (V' & _ & _ & LT). destruct (TK V') as (K' & T'). auto.
Qed.
(** ** The main thread's half that finishes a command *)
Lemma output_front_any m room : minv m -> 0 <= room -> front_danger dict m = None ->
  exists o m' r, output_front dict m room = Some (o, m', r) /\ zlen o <= room /\ keep_in m m' /\
    match r with TOk => minv m' /\ rests m' | TFail => True | _ => minv m' end.
Proof.
  intros V R FD. destruct (front_any dict D m room V R) as [(h & U0)|(o & m' & r & E & LO & KI & A)].
  - exfalso. unfold g_front in U0. unfold front_danger in FD.
    match type of U0 with gbind ?a _ = _ => destruct a as [(m1 & ok)| |] end; cbn [gbind] in U0; try discriminate.
    destruct ok; cbn [negb] in U0; [|discriminate]. destruct (m_pop m1); [|discriminate]. rewrite FD in U0. cbn [unless] in U0. destruct (encode_cmd _ _ _ _ _) as [((? & ?) & ?)|]; discriminate.
  - exists o, m', (match r with FOk => TOk | FIn => TIn | FOut => TOut | FFail => TFail end). split; [|split; [exact LO|split; [exact KI|destruct r; exact A]]].
    unfold g_front in E. unfold output_front.
    assert (FR : forall x, match m_lit m with
      | None => Fine (m, true)
      | Some _ => let! '(m, ok) := g_content (content_fuel m) m in
          if ok then match m_lit m with Some (_, s) => Fine (m_set_pop (m_set_lit m None) (Some (Literal (l_data s) (l_high_entropy s))), true) | None => Stuck end else Fine (m, false)
      end = Fine x -> match m_lit m with
      | None => Some (m, true)
      | Some _ => let? '(m, ok) := content (content_fuel m) m in
          if ok then match m_lit m with Some (_, s) => Some (m_set_pop (m_set_lit m None) (Some (Literal (l_data s) (l_high_entropy s))), true) | None => None end else Some (m, false)
      end = Some x).
    { intros x. destruct (m_lit m) as [ls|]; [|congruence]. destruct (g_content _ m) as [(m0, ok0)| |] eqn:G; cbn [gbind]; try discriminate. rewrite (g_content_real _ _ _ G). cbn [bind].
      destruct ok0; [|congruence]. destruct (m_lit m0) as [(? & ?)|]; congruence. }
    match type of E with gbind ?a _ = _ => destruct a as [(m1 & ok)| |] eqn:EA end; cbn [gbind] in E; try discriminate.
    rewrite (FR _ eq_refl). cbn [bind]. clear FR EA. destruct ok; cbn [negb] in *; [|injection E as <- <- <-; reflexivity].
    destruct (m_pop m1); [|injection E as <- <- <-; reflexivity]. destruct (replay_danger _ _ _); cbn [unless gbind] in E; [discriminate|]. destruct (encode_cmd _ _ _ _ _) as [((? & ?) & ?)|]; cbn [of_opt gbind bind] in *; [|discriminate].
    injection E as <- <- <-. destruct o0; reflexivity.
Qed.
(** ** What decode_process_input does to the queue *)
Definition fin (m : main) : Prop := m_out m = 0 -> is_done (eof (m_mux m)) = true /\ mb_data (buf0 (m_mux m)) = [].
Lemma input_shape q m input n q' m' ok : rinv (m_mux m) -> bytes input -> 0 <= m_out m -> process_input skip q m input = Some (n, q', m', ok) ->
  m_cmds m' = m_cmds m /\ m_pred m' = m_pred m /\ m_eof m' = m_eof m /\ (ok = true -> fin m') /\
  (q' = q \/ exists b, q' = q_set_data q (q_data q ++ [b]) /\ mb_data b <> []).
Proof.
  intros RI BI O0. unfold process_input.
  destruct (deserialize_ref (m_mux m) input RI BI) as (n0 & x & -> & (pre & suf & p0 & p1 & IN & -> & DR & RI' & B0 & B1 & _)). cbn [bind].
  destruct (if is_done (eof x) then read_trailer (m_trailer m) (zskip (zlen pre) input) else (m_trailer m, 0%nat)) as [tr amt].
  destruct (Z.eqb_spec (wr (buf0 x) - rd (buf0 x)) 0) as [E0|E0]; cbn [negb].
  - intros [= <- <- <- <-]. cbn [m_set_in m_cmds m_pred m_eof]. do 3 (split; [reflexivity|]). split; [|left; reflexivity].
    intros OK M0. cbn [m_set_in m_out m_mux] in *. rewrite M0 in OK. change (0 <? 0) with false in OK. rewrite orb_false_r in OK. split; [exact OK|].
    rewrite (ready_len _ (proj1 RI')) in E0. destruct (mb_data (buf0 x)); [reflexivity|cbn [length] in E0; lia].
  - unfold q_push. destruct ((2 <=? zlen (q_data q)) || (zlen (mb_data (buf0 x)) =? 0)) eqn:PU.
    + intros [= <- <- <- <-]. cbn [m_set_in m_cmds m_pred m_eof]. do 3 (split; [reflexivity|]). split; [|left; reflexivity].
      intros OK M0. cbn [m_set_in m_out m_mux] in *. rewrite M0 in OK. discriminate OK.
    + intros [= <- <- <- <-]. cbn [m_set_in m_cmds m_pred m_eof]. do 3 (split; [reflexivity|]). split; [|right; exists (buf0 x); split; [reflexivity|]].
      * intros _ M0. cbn [m_set_in m_out] in M0. lia.
      * apply orb_false_elim in PU. destruct PU as (_ & P2). intros X. rewrite X in P2. discriminate P2.
Qed.
End Own.
