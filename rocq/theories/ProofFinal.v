(** Calls made after the decompressor has said it is over, for bytes of any origin. *)
From Verif Require Import Prelude ProofList ProofZlist ModelAns ModelCdf ModelMux ModelCmd ModelCrc ModelHeader ModelRecode ModelPriors ModelCodec ModelLit ModelPm ModelTop ModelEnc ModelDec SpecLz SpecCrc SpecHeader SpecCheck SpecOrigin ProofCrc ProofCheck ProofDec3 ProofThread7 SpecAns ProofMux ProofMuxR SpecFinal ProofOrigin ProofHeader.

(** ** What decoding the content of a literal leaves alone *)
Definition ck (m m' : main) : Prop := m_out m' = m_out m /\ m_eof m' = m_eof m /\ (rinv (m_mux m) -> rinv (m_mux m')).
Lemma ck_refl m : ck m m.
Proof. split; [reflexivity|]. split; [reflexivity|auto]. Qed.
Lemma ck_trans a b c : ck a b -> ck b c -> ck a c.
Proof. intros (A & B & C) (A2 & B2 & C2). split; [congruence|]. split; [congruence|auto]. Qed.
Lemma push_rare_le d l d' n : push_really_rare d l = Some (d', n) -> (n <= length l)%nat.
Proof.
  unfold push_really_rare. destruct (_ <=? _).
  - intros E. assert (n = Nat.min (length l) (Z.to_nat (5 - a_req d))) as -> by congruence. lia.
  - unfold assert. destruct (_ <=? _); [|discriminate]. destruct (or_ab _ _ _ _) as (a, b). intros E. assert (n = Nat.min (length l) (Z.to_nat (32 - a_req d))) as -> by congruence. lia.
Qed.
Lemma push_le d l d' n : ModelAns.push_data d l = Some (d', n) -> (n <= length l)%nat.
Proof.
  unfold ModelAns.push_data. destruct (_ =? 0). { intros E. assert (n = 0%nat) as -> by congruence. lia. }
  destruct (a_req d =? 1); cbn [andb].
  - destruct (Nat.leb_spec 4 (length l)).
    + unfold assert. destruct (_ <=? _); [|discriminate]. intros E. assert (n = 4%nat) as -> by congruence. assumption.
    + unfold push_rare. destruct (_ && _); [|apply push_rare_le]. destruct (Nat.leb_spec 16 (length l)); [|apply push_rare_le]. intros E. assert (n = 16%nat) as -> by congruence. assumption.
  - unfold push_rare. destruct (_ && _); [|apply push_rare_le]. destruct (Nat.leb_spec 16 (length l)); [|apply push_rare_le]. intros E. assert (n = 16%nat) as -> by congruence. assumption.
Qed.
Lemma fill_bok d b d' b' ok : fill_from d b = Some (d', b', ok) -> bok b -> bok b'.
Proof.
  unfold fill_from. destruct (_ =? 0). { intros E. assert (b' = b) as -> by congruence. auto. }
  destruct (ModelAns.push_data d (mb_data b)) as [(d2, n)|] eqn:P; cbn [bind]; [|discriminate]. apply push_le in P.
  intros E B. assert (b' = MB (mem b) (rd b + Z.of_nat n) (wr b)) as -> by congruence. pose proof (mb_data_len _ B) as ML. destruct B as (B1 & B2 & B3).
  unfold bok. cbn [rd wr mem]. unfold zlen in ML. lia.
Qed.
Lemma fill_ck m m' ok : lit_fill m = Some (m', ok) -> ck m m'.
Proof.
  unfold lit_fill. destruct (fill_from _ _) as [((d, b), k)|] eqn:FF; cbn [bind]; [|discriminate].
  intros E. assert (m' = m_set_coder m d b) as -> by congruence. split; [reflexivity|]. split; [reflexivity|].
  intros (A & B & C). split; [exact A|]. split; [exact (fill_bok _ _ _ _ _ FF B)|exact C].
Qed.
Lemma nibble_ck m m' : lit_nibble m = Some m' -> ck m m'.
Proof.
  unfold lit_nibble. destruct (m_lit m) as [(safe, s)|]; [|discriminate].
  destruct (lit_node _ _ _ _) as [[] cdf k| |]; try discriminate.
  destruct (get_sym _ _) as [(v, d)|]; cbn [bind]; [|discriminate].
  destruct (k v) as [((b, l), s')| |]; try discriminate.
  intros E. assert (m' = m_set_nib m d l (Some (safe, s'))) as -> by congruence. split; [reflexivity|]; split; [reflexivity|auto].
Qed.
Lemma safe_ck m : ck m (set_safe m).
Proof. split; [reflexivity|]; split; [reflexivity|auto]. Qed.
Lemma content_ck : forall fuel m m' ok, content fuel m = Some (m', ok) -> ck m m'.
Proof.
  induction fuel as [|fuel IH]; intros m m' ok; cbn [content]; [discriminate|].
  destruct (lit_fill m) as [(m1, ok1)|] eqn:F1; cbn [bind]; [|discriminate]. apply fill_ck in F1.
  destruct (negb ok1). { intros E. assert (m' = m1) as -> by congruence. exact F1. }
  destruct (m_lit m1) as [([|], s)|]; [| |discriminate].
  - destruct (lit_nibble m1) as [m2|] eqn:N1; cbn [bind]; [|discriminate]. apply nibble_ck in N1. pose proof (ck_trans _ _ _ F1 N1) as K2.
    destruct (lit_fill m2) as [(m3, ok3)|] eqn:F3; cbn [bind]; [|discriminate]. apply fill_ck in F3. pose proof (ck_trans _ _ _ K2 F3) as K3.
    unfold assert. destruct ok3; [|discriminate].
    destruct (lit_nibble m3) as [m4|] eqn:N4; cbn [bind]; [|discriminate]. apply nibble_ck in N4. pose proof (ck_trans _ _ _ K3 N4) as K4.
    destruct (ready m3 1 <? 16).
    + destruct (lit_done m4); intros E; [assert (m' = m4) as -> by congruence; exact K4|].
      apply IH in E. exact (ck_trans _ _ _ (ck_trans _ _ _ K4 (safe_ck m4)) E).
    + destruct (lit_fill m4) as [(m5, ok5)|] eqn:F5; cbn [bind]; [|discriminate]. apply fill_ck in F5. pose proof (ck_trans _ _ _ K4 F5) as K5.
      destruct ok5; [|discriminate].
      destruct (lit_done m5); intros E; [assert (m' = m5) as -> by congruence; exact K5|]. apply IH in E. exact (ck_trans _ _ _ K5 E).
  - destruct (lit_nibble m1) as [m2|] eqn:N1; cbn [bind]; [|discriminate]. apply nibble_ck in N1. pose proof (ck_trans _ _ _ F1 N1) as K2.
    destruct (match m_lit m2 with Some (_, s0) => match l_sub s0 with LLower _ _ => true | _ => false end | None => false end).
    { intros E. apply IH in E. exact (ck_trans _ _ _ K2 E). }
    destruct (lit_fill m2) as [(m3, ok3)|] eqn:F3; cbn [bind]; [|discriminate]. apply fill_ck in F3. pose proof (ck_trans _ _ _ K2 F3) as K3.
    destruct (lit_done m3). { intros E. assert (m' = m3) as -> by congruence. exact K3. }
    destruct ok3; intros E. { apply IH in E. exact (ck_trans _ _ _ K3 E). }
    assert (m' = set_safe m3) as -> by congruence. exact (ck_trans _ _ _ K3 (safe_ck m3)).
Qed.

(** ** The worker *)
Lemma slice_held s q s' q' : pull_slice s q = (s', q') ->
  zlen (q_data q') + zlen (q_rdata q') + (if zlen (mem s') =? 0 then 0 else 1) <= zlen (q_data q) + zlen (q_rdata q) + (if zlen (mem s) =? 0 then 0 else 1) /\ q_eof q' = q_eof q.
Proof.
  unfold pull_slice. destruct (negb _). { intros E. assert (s' = s /\ q' = q) as (-> & ->) by (split; congruence). split; [lia|reflexivity]. }
  destruct (Z.eqb_spec (zlen (mem s)) 0) as [Z0|Z0].
  - destruct (q_data q) as [|b bs] eqn:QD; intros E.
    + assert (s' = s /\ q' = q) as (-> & ->) by (split; congruence). rewrite QD. destruct (Z.eqb_spec (zlen (mem s)) 0); [|lia]. split; [lia|reflexivity].
    + assert (s' = b /\ q' = q_set_data q bs) as (-> & ->) by (split; congruence). cbn [q_data q_rdata q_eof q_set_data]. rewrite zlen_cons. split; [|reflexivity]. destruct (_ =? 0); lia.
  - destruct (zlen (q_rdata q) <? 2).
    + cbn [q_data q_set_rdata]. destruct (q_data q) as [|b bs] eqn:QD; intros E.
      * assert (s' = mb_empty /\ q' = q_set_rdata q (q_rdata q ++ [s])) as (-> & ->) by (split; congruence). cbn [q_data q_rdata q_eof q_set_rdata mem mb_empty]. rewrite QD, zlen_app.
        change (zlen [s]) with 1. change (zlen (@nil Z) =? 0) with true. cbv iota. split; [lia|reflexivity].
      * assert (s' = b /\ q' = q_set_data (q_set_rdata q (q_rdata q ++ [s])) bs) as (-> & ->) by (split; congruence). cbn [q_data q_rdata q_eof q_set_data q_set_rdata]. rewrite zlen_cons, zlen_app.
        change (zlen [s]) with 1. split; [|reflexivity]. destruct (_ =? 0); lia.
    + intros E. assert (s' = s /\ q' = q) as (-> & ->) by (split; congruence). destruct (Z.eqb_spec (zlen (mem s)) 0); [lia|]. split; [lia|reflexivity].
Qed.
Lemma push_cmd_held q c q' : q_push_cmd q c = Some q' -> q_data q' = q_data q /\ q_rdata q' = q_rdata q /\ q_eof q' = q_eof q.
Proof.
  unfold q_push_cmd. destruct (_ <? _); [|discriminate].
  destruct c; repeat match goal with |- (if ?b then _ else _) = _ -> _ => destruct b end; try discriminate;
    intros E; match type of E with Some ?y = _ => assert (q' = y) as -> by congruence end; cbn [q_data q_rdata q_eof]; auto.
Qed.
Section Final.
Context (dict : dict_fn) (wl : word_len_fn) (D : dims) (skip : bool).
Definition wok (w : worker) (q : squeue) (w' : worker) (q' : squeue) : Prop :=
  held w' q' <= held w q /\ (wk_done w = true -> wk_done w' = true) /\ (q_eof q' = true -> q_eof q = true \/ wk_done w' = true).
Lemma wok_refl w q : wok w q w q.
Proof. split; [lia|]. auto. Qed.
Lemma wok_trans w q w1 q1 w2 q2 : wok w q w1 q1 -> wok w1 q1 w2 q2 -> wok w q w2 q2.
Proof. intros (A & B & C) (A2 & B2 & C2). split; [lia|]. split; [auto|]. intros H. destruct (C2 H) as [H1|H1]; [|now right]. destruct (C H1); auto. Qed.
Lemma w_step_held w q w' q' r : w_step wl D w q = Some (w', q', r) -> wok w q w' q'.
Proof.
  unfold w_step. destruct (wk_done w) eqn:DN. { intros E. assert (w' = w /\ q' = q) as (-> & ->) by (split; congruence). apply wok_refl. }
  assert (COD : forall t, t = k_st (wk_c w) ->
    (let wants_map := match t with TPm _ => negb (has_speeds (k_pm (wk_c w))) | _ => false end in
      if wants_map then
        match q_cm q with
        | [] => Some (w, q, Some WNeedOut)
        | p :: ps => Some (wk_set_c w (kset_pm (wk_c w) p t), q_set_cm q ps, None)
        end
      else
        let? '(d, s, q, ok) :=
          if w_fills t then
            if num_push_bytes_avail (wk_dec w) =? 0 then Some (wk_dec w, wk_slice w, q, true)
            else let '(s, q) := pull_slice (wk_slice w) q in
                 let? '(d, s, ok) := fill_from (wk_dec w) s in Some (d, s, q, ok)
          else Some (wk_dec w, wk_slice w, q, true) in
        if negb ok then Some (WK (wk_c w) d s false, q, Some WNeedIn) else
        match w_node wl D (wk_c w) with
        | NCode _ cdf k =>
            let? '(v, d) := get_sym d (ref_lookup cdf) in
            match k v with
            | Next c => Some (WK c d s false, q, None)
            | Err e => Some (WK (wk_c w) d s false, q, Some (WFail e))
            | Panic => None
            end
        | NSilent (Next c) => Some (WK c d s false, q, None)
        | NSilent (Err e) => Some (WK (wk_c w) d s false, q, Some (WFail e))
        | NSilent Panic => None
        | NAdvance c _ => Some (WK c d s false, q, None)
        | NEnd => None
        end) = Some (w', q', r) -> wok w q w' q').
  { intros t _. cbv zeta. destruct (match t with TPm _ => _ | _ => false end).
    { destruct (q_cm q) as [|p ps]; intros E.
      - assert (w' = w /\ q' = q) as (-> & ->) by (split; congruence). apply wok_refl.
      - assert (w' = wk_set_c w (kset_pm (wk_c w) p t) /\ q' = q_set_cm q ps) as (-> & ->) by (split; congruence).
        split; [unfold held; cbn [q_data q_rdata q_set_cm wk_slice wk_set_c]; lia|]. cbn [wk_done wk_set_c q_eof q_set_cm]. auto. }
    match goal with |- bind ?a _ = _ -> _ => destruct a as [(((d, s), q1), ok)|] eqn:E1 end; cbn [bind]; [|discriminate].
    assert (K : forall c d', wok w q (WK c d' s false) q1).
    { intros c d'. assert (held (WK c d' s false) q1 <= held w q /\ q_eof q1 = q_eof q) as (H1 & H2).
      { unfold held. cbn [wk_slice]. destruct (w_fills t).
        - destruct (_ =? 0).
          + assert (s = wk_slice w /\ q1 = q) as (-> & ->) by (split; congruence). split; [lia|reflexivity].
          + destruct (pull_slice (wk_slice w) q) as (s1, q2) eqn:PS. apply slice_held in PS.
            destruct (fill_from (wk_dec w) s1) as [((d2, s2), ok2)|] eqn:FF; cbn [bind] in E1; [|discriminate].
            apply fill_from_mem in FF. assert (s = s2 /\ q1 = q2) as (-> & ->) by (split; congruence). rewrite FF. exact PS.
        - assert (s = wk_slice w /\ q1 = q) as (-> & ->) by (split; congruence). split; [lia|reflexivity]. }
      split; [exact H1|]. split; [congruence|]. rewrite H2. auto. }
    destruct (negb ok). { intros E. assert (w' = WK (wk_c w) d s false /\ q' = q1) as (-> & ->) by (split; congruence). apply K. }
    destruct (w_node wl D (wk_c w)) as [? cdf k|[c|e|]|c ?|].
    - destruct (get_sym d (ref_lookup cdf)) as [(v, d2)|]; cbn [bind]; [|discriminate].
      destruct (k v) as [c|e|]; [| |discriminate]; intros E;
        match type of E with Some (?y, _, _) = _ => assert (w' = y /\ q' = q1) as (-> & ->) by (split; congruence) end; apply K.
    - intros E. match type of E with Some (?y, _, _) = _ => assert (w' = y /\ q' = q1) as (-> & ->) by (split; congruence) end; apply K.
    - intros E. match type of E with Some (?y, _, _) = _ => assert (w' = y /\ q' = q1) as (-> & ->) by (split; congruence) end; apply K.
    - discriminate.
    - intros E. match type of E with Some (?y, _, _) = _ => assert (w' = y /\ q' = q1) as (-> & ->) by (split; congruence) end; apply K.
    - discriminate. }
  destruct (k_st (wk_c w)) eqn:KS; try exact (COD _ eq_refl).
  - destruct (q_push_cmd q _) as [q1|] eqn:PC; intros E.
    + apply push_cmd_held in PC. destruct PC as (P1 & P2 & P3).
      match type of E with Some (?y, _, _) = _ => assert (w' = y /\ q' = q1) as (-> & ->) by (split; congruence) end.
      split; [unfold held; rewrite P1, P2; cbn [wk_slice wk_set_c]; lia|]. cbn [wk_done wk_set_c]. rewrite P3. auto.
    + assert (w' = w /\ q' = q) as (-> & ->) by (split; congruence). apply wok_refl.
  - intros E. match type of E with Some (?y, ?z, _) = _ => assert (w' = y /\ q' = z) as (-> & ->) by (split; congruence) end.
    split; [unfold held; cbn [q_data q_rdata q_set_eof wk_slice]; lia|]. cbn [wk_done]. auto.
Qed.
Lemma w_run_held : forall fuel w q w' q' r, w_run wl D fuel w q = Some (w', q', r) -> wok w q w' q'.
Proof.
  induction fuel as [|fuel IH]; intros w q w' q' r; cbn [w_run]; [discriminate|].
  destruct (w_step wl D w q) as [((w1, q1), r1)|] eqn:E1; cbn [bind]; [|discriminate]. apply w_step_held in E1.
  destruct r1; intros E.
  - assert (w' = w1 /\ q' = q1) as (-> & ->) by (split; congruence). exact E1.
  - apply IH in E. exact (wok_trans _ _ _ _ _ _ E1 E).
Qed.

(** ** The main thread *)
Definition linked (w : worker) (q : squeue) (m : main) : Prop :=
  (rinv (m_mux m) /\ held w q <= m_out m) /\ (q_eof q = true \/ m_eof m = true -> wk_done w = true) /\ (m_trailer m <> [] -> is_done (eof (m_mux m)) = true).
Lemma linked_run w q w' q' m : linked w q m -> wok w q w' q' -> linked w' q' m.
Proof.
  intros ((R & A) & B & C) (A2 & B2 & C2). split; [split; [exact R|lia]|]. split; [|exact C]. intros [H|H].
  - destruct (C2 H) as [H1|H1]; [|exact H1]. auto.
  - auto.
Qed.
Lemma empty_ok : bok mb_empty.
Proof. unfold bok, mb_empty. cbn [rd wr mem]. change (zlen (@nil Z)) with 0. lia. Qed.
Lemma set0 m b o : rinv (m_mux m) -> bok b -> rinv (m_mux (m_set_buf m b o)).
Proof. intros (A & B & C) H. split; [exact H|]. split; [exact B|exact C]. Qed.
Lemma donated b x : bok b -> bok (if zlen (mem b) =? 0 then MB x (rd b) (wr b) else b).
Proof. intros B. destruct (Z.eqb_spec (zlen (mem b)) 0); [|exact B]. destruct B as (B1 & B2 & B3). unfold bok. cbn [rd wr mem]. pose proof (zlen_nonneg x). lia. Qed.
Lemma back_held w : forall bufs q m q' m' need, rinv (m_mux m) /\ held w q + zlen bufs <= m_out m -> take_back bufs q m = Some (q', m', need) ->
  (rinv (m_mux m') /\ held w q' <= m_out m') /\ q_eof q' = q_eof q /\ m_eof m' = m_eof m /\ m_cmds m' = m_cmds m /\ m_lit m' = m_lit m /\ m_pop m' = m_pop m.
Proof.
  induction bufs as [|dat bufs IH]; intros q m q' m' need (RI & L); cbn [take_back].
  - intros E. assert (q' = q /\ m' = m) as (-> & ->) by (split; congruence). change (zlen (@nil mbuf)) with 0 in L. split; [split; [exact RI|lia]|]. auto.
  - rewrite zlen_cons in L. unfold assert. destruct (1 <=? m_out m); [|discriminate].
    destruct (q_push q (buf0 (m_mux m))) as [q1|] eqn:QP.
    + match goal with |- bind (take_back bufs ?a ?b) _ = _ -> _ => destruct (take_back bufs a b) as [((q2, m2), need2)|] eqn:E2 end; cbn [bind]; [|discriminate].
      unfold q_push in QP. destruct (_ || _) in QP; [discriminate|]. assert (q1 = q_set_data q (q_data q ++ [buf0 (m_mux m)])) as -> by congruence.
      apply IH in E2. 2: { split; [apply set0; [exact RI|]; cbn [mem mb_empty rd wr]; change (zlen (@nil Z) =? 0) with true; cbv iota; unfold bok; cbn [mem rd wr]; pose proof (zlen_nonneg (mem dat)); lia|]. unfold held in *. cbn [q_data q_rdata q_set_data m_out m_set_buf m_set_in]. rewrite zlen_app. change (zlen [buf0 (m_mux m)]) with 1. lia. }
      intros E. assert (q' = q2 /\ m' = m2) as (-> & ->) by (split; congruence). exact E2.
    + match goal with |- bind (take_back bufs ?a ?b) _ = _ -> _ => destruct (take_back bufs a b) as [((q2, m2), need2)|] eqn:E2 end; cbn [bind]; [|discriminate].
      apply IH in E2. 2: { split; [apply set0; [exact RI|apply donated, RI]|]. cbn [m_out m_set_buf m_set_in]. lia. }
      intros E. assert (q' = q2 /\ m' = m2) as (-> & ->) by (split; congruence). exact E2.
Qed.
Lemma pull_held w q m q' m' need : rinv (m_mux m) /\ held w q <= m_out m -> (q_eof q = true \/ m_eof m = true -> wk_done w = true) -> pull_commands q m = Some (q', m', need) ->
  (rinv (m_mux m') /\ held w q' <= m_out m') /\ (q_eof q' = true \/ m_eof m' = true -> wk_done w = true) /\ m_lit m' = m_lit m /\ m_pop m' = m_pop m.
Proof.
  intros L W. unfold pull_commands. destruct (m_cmds m). 2: { intros E. assert (q' = q /\ m' = m) as (-> & ->) by (split; congruence). auto. }
  destruct (m_eof m) eqn:ME. { intros E. assert (q' = q /\ m' = m) as (-> & ->) by (split; congruence). rewrite ME. auto. }
  unfold assert. destruct (_ && _); [|discriminate]. match goal with |- (if ?b then _ else _) = _ -> _ => destruct b end; [|discriminate].
  intros E. apply (back_held w) in E. 2: { destruct L as (RI & L). split; [exact RI|]. unfold held in *. cbn [q_data q_rdata m_out]. change (zlen (@nil mbuf)) with 0. lia. }
  destruct E as (H1 & H2 & H3 & _ & H4 & H5). split; [exact H1|]. cbn [q_eof] in H2. cbn [m_eof orb] in H3. rewrite H2, H3. cbn [m_lit m_pop] in *. split; [|split; assumption]. intros [H|H]; auto.
Qed.
Lemma take_command_held c q m q' m' r : take_command c q m = Some (q', m', r) ->
  (m_mux m' = m_mux m /\ m_out m' = m_out m) /\ m_eof m' = m_eof m /\ q_data q' = q_data q /\ q_rdata q' = q_rdata q /\ q_eof q' = q_eof q /\ r <> Some (Processed DSuccess).
Proof.
  destruct c; cbn [take_command];
  try (intros E; match type of E with Some (_, ?y, _) = _ => assert (q' = q /\ m' = y) as (-> & ->) by (split; congruence) end; repeat split; congruence).
  destruct (obs_prediction_mode _ _) as [l|e|]; [| |discriminate].
  - unfold assert. destruct (_ <? _); [|discriminate]. intros E; match type of E with Some (?z, ?y, _) = _ => assert (q' = z /\ m' = y) as (-> & ->) by (split; congruence) end; repeat split; congruence.
  - intros E; match type of E with Some (?z, ?y, _) = _ => assert (q' = z /\ m' = y) as (-> & ->) by (split; congruence) end; repeat split; congruence.
Qed.
Lemma rflush_over r room o r' : rflush r room = Some (ModelRecode.OSuccess, o, r') -> forall room', rflush r' room' = Some (ModelRecode.OSuccess, [], r').
Proof.
  unfold rflush. intros E room'.
  match type of E with bind ?a _ = _ => destruct a as [(o1, oi1)|] end; cbn [bind] in E; [|discriminate].
  match type of E with bind ?a _ = _ => destruct a as [(o2, oi2)|] end; cbn [bind] in E; [|discriminate].
  destruct (Z.eqb_spec oi2 (di r)) as [EQ|]; [|discriminate].
  assert (r' = RC (ring r) (total_offset r + zlen (o1 ++ o2)) (sub r) (di r) oi2) as -> by congruence. subst oi2. cbn [ring total_offset sub di oi].
  rewrite Z.ltb_irrefl. cbn [bind]. rewrite Z.ltb_irrefl, andb_false_r. cbn [bind app]. rewrite Z.eqb_refl. change (zlen (@nil Z)) with 0. now rewrite Z.add_0_r.
Qed.
(** nothing is left for the main thread, and the last bytes are right *)
Definition resting (m : main) : Prop :=
  m_lit m = None /\ m_pop m = None /\ m_cmds m = [] /\ m_eof m = true /\
  (forall room, rflush (m_rec m) room = Some (ModelRecode.OSuccess, [], m_rec m)) /\ process_eof skip (m_crc m) (m_trailer m) = EofSuccess.
Lemma output_linked w : forall fuel q m room o q' m' r, rinv (m_mux m) /\ held w q <= m_out m -> (q_eof q = true \/ m_eof m = true -> wk_done w = true) ->
  process_output dict skip fuel q m room = Some (o, q', m', r) ->
  (rinv (m_mux m') /\ held w q' <= m_out m') /\ (q_eof q' = true \/ m_eof m' = true -> wk_done w = true) /\ (r = Processed DSuccess -> resting m').
Proof.
  induction fuel as [|fuel IH]; intros q m room o q' m' r L W; cbn [process_output]; [discriminate|].
  match goal with |- bind ?a _ = _ -> _ => destruct a as [(m1, ok)|] eqn:E1 end; cbn [bind]; [|discriminate].
  assert (K1 : ck m m1 /\ (ok = true -> m_lit m1 = None)).
  { destruct (m_lit m) eqn:ML.
    - destruct (content (content_fuel m) m) as [(m0, ok0)|] eqn:C0; cbn [bind] in E1; [|discriminate]. apply content_ck in C0.
      destruct ok0.
      + destruct (m_lit m0) as [(?, s)|]; [|discriminate]. match type of E1 with Some (?y, _) = _ => assert (m1 = y) as -> by congruence end. split; [exact C0|]. reflexivity.
      + assert (m1 = m0 /\ ok = false) as (-> & ->) by (split; congruence). split; [exact C0|discriminate].
    - assert (m1 = m) as -> by congruence. split; [apply ck_refl|]. intros _. exact ML. }
  clear E1. destruct K1 as (K1 & ML1).
  destruct K1 as (L1 & W1 & R1). rewrite <- L1 in L. rewrite <- W1 in W. destruct L as (RI & L). apply R1 in RI. clear R1 L1 W1.
  destruct ok; cbn [negb].
  2: { intros E. assert (q' = q /\ m' = m1 /\ r = Processed DNeedIn) as (-> & -> & ->) by (repeat split; congruence). split; [split; [exact RI|exact L]|]. split; [exact W|discriminate]. }
  specialize (ML1 eq_refl).
  match goal with |- bind ?a _ = _ -> _ => destruct a as [((o1, m2), r2)|] eqn:E2 end; cbn [bind]; [|discriminate].
  assert (K2 : (m_mux m2 = m_mux m1 /\ m_out m2 = m_out m1) /\ m_eof m2 = m_eof m1 /\ m_lit m2 = None /\ (r2 = ModelRecode.OSuccess -> m_pop m2 = None)).
  { destruct (m_pop m1) as [c|] eqn:MP.
    - destruct (encode_cmd _ dict (m_rec m1) c room) as [((r0, o0), x)|]; cbn [bind] in E2; [|discriminate].
      match type of E2 with Some (_, ?y, _) = _ => assert (m2 = y /\ r2 = r0) as (-> & ->) by (split; congruence) end. cbn [m_out m_eof m_lit m_pop m_set_rec]. repeat split; [exact ML1|]. intros ->. reflexivity.
    - assert (m2 = m1) as -> by congruence. repeat split; [exact ML1|]. intros _. exact MP. }
  clear E2. destruct K2 as ((K20 & K21) & K22 & ML2 & MP2). rewrite <- K20 in RI. rewrite <- K21 in L. rewrite <- K22 in W. assert (LL := conj RI L). clear RI L. rename LL into L.
  destruct r2.
  - specialize (MP2 eq_refl).
    destruct (pull_commands q m2) as [((q3, m3), need)|] eqn:E3; cbn [bind]; [|discriminate]. apply (pull_held w) in E3; [|exact L|exact W]. destruct E3 as (L3 & W3 & ML3 & MP3).
    destruct need. { intros E. assert (q' = q3 /\ m' = m3 /\ r = Processed DNeedIn) as (-> & -> & ->) by (repeat split; congruence). split; [exact L3|]. split; [exact W3|discriminate]. }
    destruct (m_cmds m3) as [|c cs] eqn:MC.
    + destruct (m_eof m3) eqn:ME.
      * unfold finish. destruct (rflush (m_rec m3) (room - zlen o1)) as [((res, o0), x)|] eqn:RF; cbn [bind]; [|discriminate].
        assert (F : forall rr, Some (o1 ++ o0, q3, m_set_rec m3 x (m_pop m3), Processed rr) = Some (o, q', m', r) -> (rr = DSuccess -> res = ModelRecode.OSuccess /\ process_eof skip (m_crc m3) (m_trailer m3) = EofSuccess) ->
           (rinv (m_mux m') /\ held w q' <= m_out m') /\ (q_eof q' = true \/ m_eof m' = true -> wk_done w = true) /\ (r = Processed DSuccess -> resting m')).
        { intros rr E G. assert (q' = q3 /\ m' = m_set_rec m3 x (m_pop m3) /\ r = Processed rr) as (-> & -> & ->) by (repeat split; congruence).
          split; [exact L3|]. split; [cbn [m_eof m_set_rec]; rewrite ME; exact W3|]. intros H. assert (rr = DSuccess) as -> by congruence. destruct (G eq_refl) as (-> & PE).
          unfold resting. cbn [m_lit m_pop m_cmds m_eof m_rec m_crc m_trailer m_set_rec]. split; [congruence|]. split; [congruence|]. split; [exact MC|]. split; [exact ME|]. split; [exact (rflush_over _ _ _ _ RF)|exact PE]. }
        destruct res; cbn [bind].
        -- intros E. apply F in E; [exact E|]. cbn [m_crc m_trailer m_set_rec]. destruct (process_eof _ _ _); try discriminate. auto.
        -- intros E. apply F in E; [exact E|discriminate].
        -- intros E. apply F in E; [exact E|discriminate].
      * intros E. assert (q' = q3 /\ m' = m3 /\ r = Yield) as (-> & -> & ->) by (repeat split; congruence). rewrite ME. split; [exact L3|]. split; [exact W3|discriminate].
    + destruct (take_command c q3 (m_set_cmds m3 cs)) as [((q4, m4), r4)|] eqn:E4; cbn [bind]; [|discriminate]. apply take_command_held in E4.
      destruct E4 as ((H0 & H1) & H2 & H3 & H4 & H5 & H6). cbn [m_mux m_out m_eof m_set_cmds] in H0, H1, H2.
      assert (L4 : rinv (m_mux m4) /\ held w q4 <= m_out m4) by (unfold held in *; rewrite H0, H1, H3, H4; exact L3). assert (W4 : q_eof q4 = true \/ m_eof m4 = true -> wk_done w = true) by (rewrite H2, H5; exact W3).
      destruct r4 as [r4|].
      * intros E. assert (q' = q4 /\ m' = m4 /\ r = r4) as (-> & -> & ->) by (repeat split; congruence). split; [exact L4|]. split; [exact W4|]. congruence.
      * destruct (process_output dict skip fuel q4 m4 (room - zlen o1)) as [(((o2, q5), m5), r5)|] eqn:E5; cbn [bind]; [|discriminate]. apply IH in E5; [|exact L4|exact W4].
        intros E. assert (q' = q5 /\ m' = m5 /\ r = r5) as (-> & -> & ->) by (repeat split; congruence). exact E5.
  - intros E. assert (q' = q /\ m' = m2 /\ r = Processed DNeedOut) as (-> & -> & ->) by (repeat split; congruence). split; [exact L|]. split; [exact W|discriminate].
  - intros E. assert (q' = q /\ m' = m2 /\ r = Processed DFail) as (-> & -> & ->) by (repeat split; congruence). split; [exact L|]. split; [exact W|discriminate].
Qed.
Lemma input_linked w q m input n q' m' ok : linked w q m -> bytes input -> process_input skip q m input = Some (n, q', m', ok) -> linked w q' m'.
Proof.
  intros ((RI & L) & W & T) BI. unfold process_input.
  destruct (deserialize (m_mux m) input) as [(k, x)|] eqn:E1; cbn [bind]; [|discriminate].
  assert (RX : rinv x). { destruct (deserialize_ref (m_mux m) input RI BI) as (n0 & x0 & E0 & (pre & suf & p0 & p1 & _ & _ & _ & RX & _)). assert (x = x0) as -> by congruence. exact RX. }
  assert (DX : is_done (eof (m_mux m)) = true -> is_done (eof x) = true).
  { intros DN. rewrite (deserialize_done _ _ DN) in E1. assert (x = m_mux m) as -> by congruence. exact DN. }
  destruct (if is_done (eof x) then read_trailer (m_trailer m) (zskip k input) else (m_trailer m, 0%nat)) as (tr, amt) eqn:TR.
  assert (TX : tr <> [] -> is_done (eof x) = true).
  { destruct (is_done (eof x)) eqn:DN; [reflexivity|]. assert (tr = m_trailer m) as -> by congruence. intros H. apply DX, T, H. }
  destruct (negb _).
  - unfold q_push. destruct (_ || _); intros E; match type of E with Some (_, ?z, ?y, _) = _ => assert (q' = z /\ m' = y) as (-> & ->) by (split; congruence) end; unfold linked.
    + split; [split; [exact RX|exact L]|]. split; [exact W|exact TX].
    + split; [split; [destruct RX as (_ & R1 & R2); split; [exact empty_ok|split; [exact R1|exact R2]]|]; unfold held in *; cbn [q_data q_rdata q_set_data m_out m_set_in]; rewrite zlen_app; change (zlen [buf0 x]) with 1; lia|]. split; [exact W|exact TX].
  - intros E; match type of E with Some (_, ?z, ?y, _) = _ => assert (q' = z /\ m' = y) as (-> & ->) by (split; congruence) end. split; [split; [exact RX|exact L]|]. split; [exact W|exact TX].
Qed.
Definition settled (p : proc) : Prop := linked (p_w p) (p_q p) (p_m p) /\ resting (p_m p).
Lemma process_linked : forall fuel p input room n o p' r, bytes input -> 0 <= room -> linked (p_w p) (p_q p) (p_m p) ->
  process dict wl D skip fuel p input room = Some (n, o, p', r) -> linked (p_w p') (p_q p') (p_m p') /\ (r = DSuccess -> resting (p_m p')).
Proof.
  induction fuel as [|fuel IH]; intros p input room n o p' r BI R I; cbn [process]; [discriminate|].
  destruct (process_input skip (p_q p) (p_m p) input) as [(((k, q1), m1), ok)|] eqn:E1; cbn [bind]; [|discriminate]. apply (input_linked (p_w p)) in E1; [|exact I|exact BI].
  destruct (negb ok). { intros E. assert (p' = PR (p_w p) q1 m1 /\ r = DNeedIn) as (-> & ->) by (split; congruence). split; [exact E1|discriminate]. }
  destruct (w_run wl D (S fuel) (p_w p) q1) as [((w, q2), wr)|] eqn:WR; cbn [bind]; [|discriminate]. apply w_run_held in WR.
  pose proof (linked_run _ _ _ _ _ E1 WR) as I2. clear E1 WR.
  assert (REST : (if (match wr with WNeedIn => true | _ => false end) && (m_out m1 =? 0) then Some (k, [], PR w q2 m1, DNeedIn) else
          let? '(o, q, m, r) := process_output dict skip (S fuel) q2 m1 room in
          match r with
          | Processed r => Some (k, o, PR w q m, r)
          | Yield =>
              let? '(n2, o2, p, r) := process dict wl D skip fuel (PR w q m) (zskip k input) (room - zlen o) in
              Some (k + n2, o ++ o2, p, r)
          end) = Some (n, o, p', r) -> linked (p_w p') (p_q p') (p_m p') /\ (r = DSuccess -> resting (p_m p'))).
  { destruct (_ && _). { intros E. assert (p' = PR w q2 m1 /\ r = DNeedIn) as (-> & ->) by (split; congruence). split; [exact I2|discriminate]. }
    destruct (process_output dict skip (S fuel) q2 m1 room) as [(((o3, q3), m3), r3)|] eqn:E3; cbn [bind]; [|discriminate].
    pose proof (output_any dict skip _ _ _ _ _ _ _ _ R E3) as (K3 & L3 & _). destruct I2 as (A & B & C). apply (output_linked w) in E3; [|exact A|exact B]. destruct E3 as (A3 & B3 & C3).
    assert (I3 : linked w q3 m3). { split; [exact A3|]. split; [exact B3|]. unfold kept in K3. assert (m_trailer m3 = m_trailer m1 /\ eof (m_mux m3) = eof (m_mux m1)) as (-> & ->) by (split; congruence). exact C. }
    destruct r3 as [r3|].
    - intros E. assert (p' = PR w q3 m3 /\ r = r3) as (-> & ->) by (split; congruence). split; [exact I3|]. intros ->. now apply C3.
    - destruct (process dict wl D skip fuel (PR w q3 m3) (zskip k input) (room - zlen o3)) as [(((n4, o4), p4), r4)|] eqn:E4; cbn [bind]; [|discriminate].
      apply IH in E4; [|apply bytes_zskip, BI|lia|exact I3]. intros E. assert (p' = p4 /\ r = r4) as (-> & ->) by (split; congruence). exact E4. }
  destruct wr; try exact REST.
  intros E. assert (p' = PR w q2 m1 /\ r = DFail) as (-> & ->) by (split; congruence). split; [exact I2|discriminate].
Qed.
Lemma eof_length crc got : process_eof skip crc got = EofSuccess -> length got = 8%nat.
Proof. unfold process_eof. destruct (Nat.eqb_spec (length got) 8); [auto|discriminate]. Qed.
Lemma settled_stays fuel p input room : settled p -> bytes input -> exists p', process dict wl D skip (S fuel) p input room = Some (0, [], p', DSuccess) /\ settled p'.
Proof.
  intros (I & R) BI. pose proof I as ((RI & L) & W & T). pose proof R as (R1 & R2 & R3 & R4 & R5 & R6).
  pose proof (eof_length _ _ R6) as L8. assert (DN : is_done (eof (m_mux (p_m p))) = true) by (apply T; intros H; rewrite H in L8; discriminate).
  assert (INP : exists q1 m1, process_input skip (p_q p) (p_m p) input = Some (0, q1, m1, true) /\ resting m1).
  { unfold process_input. rewrite (deserialize_done _ _ DN). cbn [bind]. rewrite DN. unfold read_trailer. rewrite L8. cbn [Nat.sub]. rewrite Nat.min_0_r. cbn [firstn Z.of_nat Z.add].
    assert (ZF : zfirst 0 input = []) by reflexivity. rewrite ZF, app_nil_r.
    assert (CR : (if skip then m_crc (p_m p) else crc32c_update (m_crc (p_m p)) []) = m_crc (p_m p)) by (destruct skip; [reflexivity|]; exact (not32_not32 _)). rewrite CR.
    destruct (negb (wr (buf0 (m_mux (p_m p))) - rd (buf0 (m_mux (p_m p))) =? 0)) eqn:BU.
    - destruct (q_push (p_q p) (buf0 (m_mux (p_m p)))) as [q1|] eqn:QP.
      + eexists _, _. split; [reflexivity|]. exact R.
      + assert (OK : negb (m_out (p_m p) =? 0) = true).
        { unfold q_push in QP. destruct (2 <=? zlen (q_data (p_q p))) eqn:Q2.
          - apply Z.leb_le in Q2. unfold held in L. pose proof (zlen_nonneg (q_rdata (p_q p))). destruct (Z.eqb_spec (m_out (p_m p)) 0); [|reflexivity]. destruct (zlen (mem (wk_slice (p_w p))) =? 0); lia.
          - exfalso. rewrite (mb_data_len _ (proj1 RI)) in QP. apply Bool.negb_true_iff in BU. rewrite BU in QP. discriminate. }
        rewrite OK. eexists _, _. split; [reflexivity|]. exact R.
    - eexists _, _. split; [reflexivity|]. exact R. }
  destruct INP as (q1 & m1 & E1 & R'). pose proof (input_linked _ _ _ _ _ _ _ _ I BI E1) as I1.
  cbn [process]. rewrite E1. cbn [bind negb]. assert (DW : wk_done (p_w p) = true) by (apply W; now right).
  cbn [w_run]. unfold w_step. rewrite DW. cbn [bind andb].
  destruct R' as (Q1 & Q2 & Q3 & Q4 & Q5 & Q6). cbn [process_output]. rewrite Q1. cbn [bind negb]. rewrite Q2. cbn [bind]. unfold pull_commands. rewrite Q3, Q4. cbn [bind]. rewrite Q3, Q4.
  unfold finish. rewrite Q5. cbn [bind m_crc m_trailer m_set_rec]. rewrite Q6. cbn [app].
  eexists. split; [reflexivity|]. split; cbn [p_w p_q p_m].
  - exact I1.
  - unfold resting. cbn [m_lit m_pop m_cmds m_eof m_rec m_crc m_trailer m_set_rec]. repeat split; assumption.
Qed.

(** ** The whole decompressor *)
Definition sound (d : decompressor) : Prop := match d with DHeader _ => True | DDecode p => linked (p_w p) (p_q p) (p_m p) end.
Definition finished (d : decompressor) : Prop := match d with DHeader _ => False | DDecode p => settled p end.
Lemma new_linked header ws : linked (p_w (proc_new D skip header ws)) (p_q (proc_new D skip header ws)) (p_m (proc_new D skip header ws)).
Proof.
  unfold linked, proc_new. cbn [p_w p_q p_m]. split; [split|split].
  - split; [exact empty_ok|]. split; [exact empty_ok|exact Logic.I].
  - unfold held, worker_new, squeue_new, main_new. cbn [q_data q_rdata wk_slice m_out mem mb_empty]. change (zlen (@nil mbuf)) with 0. change (zlen (@nil Z)) with 0. change (0 =? 0) with true. cbv iota. lia.
  - intros [H|H]; discriminate.
  - intros H. now elim H.
Qed.
Lemma decode_sound fuel d input room n o d' r : bytes input -> 0 <= room -> sound d -> decode dict wl D skip fuel d input room = Some (n, o, d', r) ->
  sound d' /\ (r = DSuccess -> finished d').
Proof.
  intros B R I. unfold decode. destruct d as [h|p].
  - destruct (hp_decode h input) as ((h', k), hr). destruct hr as [|e|ws].
    + intros E. assert (d' = DHeader h' /\ r = DNeedIn) as (-> & ->) by (split; congruence). split; [exact Logic.I|discriminate].
    + intros E. assert (d' = DHeader h' /\ r = DFail) as (-> & ->) by (split; congruence). split; [exact Logic.I|discriminate].
    + pose proof (new_linked (hp_header h') ws) as L0. destruct (_ <? _).
      * destruct (process dict wl D skip fuel _ _ room) as [(((n2, o2), p2), r2)|] eqn:E2; cbn [bind]; [|discriminate].
        apply process_linked in E2; [|apply bytes_zskip, B|exact R|exact L0]. destruct E2 as (L2 & G2).
        intros E. assert (d' = DDecode p2 /\ r = r2) as (-> & ->) by (split; congruence). split; [exact L2|]. intros H. split; [exact L2|exact (G2 H)].
      * intros E. assert (d' = DDecode (proc_new D skip (hp_header h') ws) /\ r = DNeedIn) as (-> & ->) by (split; congruence). split; [exact L0|discriminate].
  - destruct (process dict wl D skip fuel p input room) as [(((n2, o2), p2), r2)|] eqn:E2; cbn [bind]; [|discriminate].
    apply process_linked in E2; [|exact B|exact R|exact I]. destruct E2 as (L2 & G2).
    intros E. assert (d' = DDecode p2 /\ r = r2) as (-> & ->) by (split; congruence). split; [exact L2|]. intros H. split; [exact L2|exact (G2 H)].
Qed.
Lemma finished_stays fuel d input room : finished d -> bytes input -> exists d', decode dict wl D skip (S fuel) d input room = Some (0, [], d', DSuccess) /\ finished d'.
Proof.
  destruct d as [h|p]; [intros []|]. intros S B. destruct (settled_stays fuel p input room S B) as (p' & E & S'). exists (DDecode p'). unfold decode. rewrite E. split; [reflexivity|exact S'].
Qed.
Lemma finished_calls : forall d cs d', history dict wl D skip d cs d' -> finished d -> Forall over cs /\ finished d'.
Proof.
  induction 1 as [d|d fuel input room n o r d1 cs d2 B R E H IH]; intros F; [split; [constructor|exact F]|].
  destruct fuel as [|fuel]. { destruct d as [h|p]; [destruct F|]. cbn [decode] in E. discriminate. }
  destruct (finished_stays fuel d input room F B) as (d0 & E0 & F0). rewrite E0 in E. assert (n = 0 /\ o = [] /\ d1 = d0 /\ r = DSuccess) as (-> & -> & -> & ->) by (repeat split; congruence).
  destruct (IH F0) as (G & F2). split; [|exact F2]. apply Forall_cons; [|exact G]. repeat split.
Qed.
Lemma calls_sound : forall d cs d', history dict wl D skip d cs d' -> sound d -> sound d'.
Proof. induction 1 as [d|d fuel input room n o r d1 cs d2 B R E H IH]; intros F; [exact F|]. apply IH. exact (proj1 (decode_sound _ _ _ _ _ _ _ _ B R F E)). Qed.
Lemma history_app : forall d cs cs' d', history dict wl D skip d (cs ++ cs') d' -> exists d1, history dict wl D skip d cs d1 /\ history dict wl D skip d1 cs' d'.
Proof.
  intros d cs. revert d. induction cs as [|c cs IH]; intros d cs' d' H; cbn [app] in H; [exists d; split; [constructor|exact H]|].
  inversion H; subst. match goal with X : history _ _ _ _ _ (cs ++ cs') _ |- _ => apply IH in X; destruct X as (d2 & A & B) end. exists d2. split; [|exact B]. econstructor; eassumption.
Qed.

(** ** After a bad header *)
Definition twin (d d' : decompressor) : Prop :=
  match d, d' with
  | DHeader h, DHeader h' => length (hp_header h) = 16%nat /\ length (hp_header h') = 16%nat /\ hp_read_offset h = hp_read_offset h' /\ (hp_read_offset h <= 16)%nat /\
      firstn (hp_read_offset h) (hp_header h) = firstn (hp_read_offset h) (hp_header h')
  | DDecode p, DDecode p' => p = p'
  | _, _ => False
  end.
Lemma overwrite_len dst off src : (off + length src <= length dst)%nat -> length (overwrite dst off src) = length dst.
Proof. intros H. unfold overwrite. rewrite !app_length, firstn_length, skipn_length. lia. Qed.
Lemma twin_decode fuel d d' input room : twin d d' ->
  match decode dict wl D skip fuel d input room, decode dict wl D skip fuel d' input room with
  | Some (n, o, d1, r), Some (n', o', d1', r') => n = n' /\ o = o' /\ r = r' /\ twin d1 d1'
  | None, None => True
  | _, _ => False
  end.
Proof.
  intros T. destruct d as [h|p], d' as [h'|p']; try destruct T.
  2: { cbn [decode]. destruct (process dict wl D skip fuel p input room) as [(((n2, o2), p2), r2)|]; cbn [bind]; [repeat split|exact Logic.I]. }
  destruct h as [hd off], h' as [hd' off']. cbn [hp_header hp_read_offset] in *. rename H into L. destruct H0 as (L' & <- & LO & F).
  unfold decode, hp_decode. cbn [hp_header hp_read_offset]. rewrite L, L'.
  destruct (Nat.leb_spec (16 - off) (length input)) as [LE|GT].
  - assert (LF : length (firstn (16 - off) input) = (16 - off)%nat) by (rewrite firstn_length; lia).
    assert (EQ : overwrite hd off (firstn (16 - off) input) = overwrite hd' off (firstn (16 - off) input)).
    { unfold overwrite. rewrite F, LF. rewrite (skipn_all2 hd), (skipn_all2 hd') by lia. reflexivity. }
    rewrite EQ. destruct (parse_header _).
    + repeat split; cbn [hp_header hp_read_offset]; rewrite ?overwrite_len; lia || assumption || reflexivity.
    + repeat split; cbn [hp_header hp_read_offset]; rewrite ?overwrite_len; lia || assumption || reflexivity.
    + destruct (_ <? _); [|repeat split]. destruct (process dict wl D skip fuel _ _ room) as [(((n2, o2), p2), r2)|]; cbn [bind]; [repeat split|exact Logic.I].
  - cbn [twin hp_header hp_read_offset]. repeat split; rewrite ?overwrite_len; try lia.
    unfold overwrite. rewrite F. rewrite !app_assoc. rewrite !firstn_app. rewrite app_length, firstn_length, L'. replace (off + length input - (Nat.min off 16 + length input))%nat with 0%nat by lia. reflexivity.
Qed.
Lemma twin_history : forall d cs d1, history dict wl D skip d cs d1 -> forall d', twin d d' -> exists d1', history dict wl D skip d' cs d1' /\ twin d1 d1'.
Proof.
  induction 1 as [d|d fuel input room n o r d1 cs d2 B R E H IH]; intros d' T; [exists d'; split; [constructor|exact T]|].
  pose proof (twin_decode fuel d d' input room T) as TD. rewrite E in TD.
  destruct (decode dict wl D skip fuel d' input room) as [(((n', o'), d1'), r')|] eqn:E'; [|destruct TD]. destruct TD as (<- & <- & <- & T1).
  destruct (IH d1' T1) as (d2' & H2 & T2). exists d2'. split; [|exact T2]. exact (H_call _ _ _ _ _ _ _ _ _ _ _ _ _ _ B R E' H2).
Qed.
Lemma twin_sym d d' : twin d d' -> twin d' d.
Proof. destruct d, d'; cbn [twin]; try tauto; [|congruence]. intros (A & B & C & E & F). rewrite <- C. repeat split; auto. Qed.
Lemma bad_header B fuel room : no_header B -> exists d1, decode dict wl D skip fuel decompressor_new B room = Some (16, [], d1, DFail) /\ twin d1 decompressor_new.
Proof.
  intros (LB & NH). unfold decode, decompressor_new, hp_decode, hp_new. cbn [hp_header hp_read_offset]. rewrite repeat_length. change (HEADER_LENGTH - 0)%nat with 16%nat. rewrite LB. change (16 <=? 16)%nat with true. cbv iota.
  assert (EO : overwrite (repeat 0 HEADER_LENGTH) 0 (firstn 16 B) = B).
  { unfold overwrite. rewrite (firstn_all2 B) by lia. change (firstn 0 (repeat 0 HEADER_LENGTH)) with (@nil Z). rewrite app_nil_l, skipn_all2 by (rewrite repeat_length; unfold HEADER_LENGTH; lia). apply app_nil_r. }
  rewrite EO.
  assert (P : exists e, parse_header B = HErr e).
  { do 16 (destruct B as [|? B]; [discriminate|]). destruct B; [|discriminate]. cbn [firstn nth] in NH. unfold parse_header. cbn [nth MAGIC_NUMBER].
    destruct (Z.eqb_spec z 255) as [->|]; cbn [negb orb]; [|eauto]. destruct (Z.eqb_spec z0 229) as [->|]; cbn [negb]; [|eauto].
    destruct (Z.eqb_spec z1 140) as [->|]; cbn [negb orb]; [|eauto]. destruct (Z.eqb_spec z2 159) as [->|]; cbn [negb]; [|eauto].
    destruct (Z.ltb_spec z4 10); cbn [orb]; [eauto|]. destruct (Z.leb_spec 25 z4); [eauto|]. exfalso. apply NH. split; [reflexivity|lia]. }
  destruct P as (e & ->). change (Z.of_nat 16) with 16. eexists. split; [reflexivity|].
  cbn [twin hp_header hp_read_offset]. repeat split; try assumption; try lia.
Qed.
End Final.
