(** Any bytes in the decompressor: what the main thread does with the commands. *)
From Verif Require ProofRecode3.
From Verif Require Import Prelude ProofList ModelAns SpecAns ModelCdf SpecCdf ProofCdf ProofAns ProofAnsRt ProofAnsDec ThmCdf ModelMux ProofZlist ProofMux ProofMuxR ModelCmd ModelCrc ModelHeader ModelRecode SpecLz ProofRecode ProofRecode2 ModelPriors ModelCodec ModelLit ModelPm ModelTop SpecCodec ModelEnc ModelDec ModelContextLut ThmPriors ProofCodecInv ProofCodecInv2 ProofRun ProofTop ProofDec2 ProofDec3 ProofDec4 ProofDec5 SpecHostile ProofHostile SpecGuard ProofGuard1 ProofGuard2 ProofGuard3 ProofGuard4.

Section Main.
Context (dict : dict_fn) (wl : word_len_fn) (D : dims) (BIG : big D).
Lemma put_nothing l i : 0 <= i <= zlen l -> put_at l i [] = l.
Proof. intros R. unfold put_at. change (zlen (@nil Z)) with 0. rewrite Z.add_0_r. cbn [app]. apply zfirst_skip. Qed.
Definition enc_ok (r : rcs) (c : command) (h0 : list Z) (room : Z) (x : option (ores * list Z * rcs)) : Prop :=
  exists res o r', x = Some (res, o, r') /\ len r' = len r /\ zlen o <= room /\
    match res with OSuccess => exists h' e', idle r' h' e' | ONeedsMoreOutput => exists h0' h' e', mid dict r' h0' c h' e' | OFailure => True end.
Lemma encode_any r c h0 h e room : 64 < len r -> okcmd D c -> mid dict r h0 c h e -> 0 <= room -> replay_danger dict r c = None ->
  enc_ok r c h0 room (encode_cmd (cmd_fuel dict c) dict r c room).
Proof.
  intros LR OK M RM RD.
  assert (A : replayable dict (len r) c -> enc_ok r c h0 room (encode_cmd (cmd_fuel dict c) dict r c room)).
  { intros V. destruct (encode_cmd_spec dict c h0 r h e room ltac:(lia) V M RM) as (res & o & r' & E & L & O & _ & RES). exists res, o, r'. split; [exact E|]. split; [exact L|]. split; [exact O|].
    destruct res; [eauto| |exact Logic.I]. destruct RES as ((h' & X) & _). eauto. }
  pose proof M as ((K & S1 & HE) & WH & EM). pose proof (unf_range _ _ K) as UR. pose proof K as (KD & KO & KL & KR).
  destruct c as [d n|ws wid tr fs|data he|x|t|t|t st]; try (apply A; exact Logic.I).
  - cbn [okcmd sane_command] in OK. destruct OK as (U1 & U2). unfold u32 in U1, U2.
    cbn [replay_danger] in RD. unfold len in *.
    assert (ZE : zlen (eff dict h0 (Copy d n)) = n) by (unfold eff; cbn [meaning1]; apply copied_zlen; lia). rewrite ZE in S1.
    destruct (Z.ltb_spec (di r + zlen (ring r)) d) as [FAR|NEAR].
    + (* too far: a clean failure *)
      unfold enc_ok. replace (cmd_fuel dict (Copy d n)) with (S (Z.to_nat n + 1)) by (cbn [cmd_fuel]; lia). unfold encode_cmd. cbn [encode_loop parse_command]. unfold parse_copy, assert.
      destruct (Z.leb_spec (sub r) n); [|lia]. unfold REPEAT_BUFFER_MAX_SIZE. destruct (Z.leb_spec d 64); [lia|]. cbn [andb].
      unfold copy_some. destruct (Z.leb_spec d (di r)); [lia|]. destruct (Z.leb_spec d (di r + zlen (ring r))); [lia|]. cbn [bind].
      do 3 eexists. split; [reflexivity|]. split; [reflexivity|]. split; [change (zlen (@nil Z)) with 0; lia|exact Logic.I].
    + assert (CASES : (n = 0 /\ ~ (1 <= d < zlen (ring r))) \/ 1 <= d < zlen (ring r)).
      { revert RD. destruct (Z.eqb_spec n 0); destruct (Z.leb_spec 1 d); destruct (Z.ltb_spec d (zlen (ring r))); cbn [orb andb]; intros RD; try discriminate RD; lia. }
      destruct CASES as [(-> & _)|V]; [|apply A; cbn [replayable]; unfold len; lia].
      assert (S0 : sub r = 0) by lia.
      assert (E0 : encode_loop (cmd_fuel dict (Copy d 0)) dict r (Copy d 0) room = Some (None, [], r)).
      { change (cmd_fuel dict (Copy d 0)) with 2%nat. cbn [encode_loop parse_command]. unfold parse_copy, assert. rewrite S0. change (0 <=? 0) with true. cbn iota. change (0 - 0) with 0.
        destruct (Z.ltb_spec d 0); [lia|]. rewrite andb_false_r. rewrite (Z.min_l 0 d) by lia.
        assert (CS : copy_some r d 0 = Some (Some (0, r))).
        { unfold copy_some. rewrite (Z.min_r (space_left r) 0) by (rewrite space_unf; unfold len; lia).
          assert (DONE : forall src, 0 <= src <= zlen (ring r) ->
            assert (src <=? zlen (ring r)) (
              let left_src := zlen (ring r) - src in
              let trunc := Z.min (Z.min (zlen (ring r) - di r) left_src) 0 in
              let? '(trunc, data) :=
                if src <? di r then assert (trunc <=? di r - src) (let? d := slice (ring r) src trunc in Some (trunc, d))
                else let trunc := Z.min trunc (Z.min (src - di r) (zlen (ring r) - src)) in let? d := slice (ring r) src trunc in Some (trunc, d) in
              assert (di r + trunc <=? zlen (ring r)) (
              let di' := di r + trunc in
              Some (Some (trunc, set_pos r (put_at (ring r) (di r) data) (sub r) (if di' =? zlen (ring r) then 0 else di'))))) = Some (Some (0, r))).
          { intros src R. cbv zeta. unfold assert. destruct (Z.leb_spec src (zlen (ring r))); [|lia]. rewrite Z.min_r by lia.
            assert (SL : slice (ring r) src 0 = Some []) by (unfold slice; destruct (Z.leb_spec 0 src); [|lia]; change (0 <=? 0) with true; destruct (Z.leb_spec (src + 0) (zlen (ring r))); [|lia]; reflexivity).
            assert (TAIL : (if di r + 0 <=? zlen (ring r) then Some (Some (0, set_pos r (put_at (ring r) (di r) []) (sub r) (if di r + 0 =? zlen (ring r) then 0 else di r + 0))) else None) = Some (Some (0, r))).
            { rewrite Z.add_0_r, put_nothing by lia. destruct (Z.leb_spec (di r) (zlen (ring r))); [|lia]. destruct (Z.eqb_spec (di r) (zlen (ring r))); [lia|]. destruct r; reflexivity. }
            destruct (Z.ltb_spec src (di r)).
            - destruct (Z.leb_spec 0 (di r - src)); [|lia]. rewrite SL. cbn [bind]. exact TAIL.
            - rewrite (Z.min_l 0) by lia. rewrite SL. cbn [bind]. exact TAIL. }
          destruct (Z.leb_spec d (di r)); [apply DONE; lia|]. destruct (Z.leb_spec d (di r + zlen (ring r))); [|lia]. apply DONE. lia. }
        rewrite CS. cbn [bind]. change (0 =? 0) with true. cbn iota. rewrite S0. destruct r; cbn in S0; subst; reflexivity. }
      unfold encode_cmd. rewrite E0. cbn [bind].
      assert (ID : idle r h e) by (split; [exact K|split; [exact S0|exact EM]]).
      destruct (Z.land (Z.lxor (di r) (oi r)) 4294966272 =? 0).
      * do 3 eexists. split; [reflexivity|]. split; [reflexivity|]. split; [change (zlen (@nil Z)) with 0; lia|]. exists h, e. split; [exact K|split; [reflexivity|exact EM]].
      * change (zlen (@nil Z)) with 0. rewrite Z.sub_0_r. destruct (ProofRecode3.flush_done r h e room ID RM) as (res & o & r' & -> & ID' & L' & _ & O' & RES). cbn [bind].
        destruct RES as [(-> & _)|(-> & _)]; (do 3 eexists; split; [reflexivity|]; split; [exact L'|]; split; [exact O'|]).
        -- exists h, (e ++ o). destruct ID' as (I1 & I2 & I3). split; [exact I1|split; [reflexivity|exact I3]].
        -- exists h, h, (e ++ o). apply idle_mid, ID'.
  - cbn [replay_danger] in RD. destruct (dict ws wid tr) as [w|] eqn:DW; [|discriminate RD]. destruct (Z.ltb_spec (zlen w) (zlen (ring r))) as [FIT|_]; [|discriminate RD].
    destruct (negb (fs =? 0) && negb (zlen w =? fs)) eqn:FS.
    2:{ apply A. exists w. split; [exact DW|]. split; [exact FIT|]. destruct (Z.eqb_spec fs 0); [left; assumption|]. destruct (Z.eqb_spec (zlen w) fs); [right; lia|discriminate FS]. }
    (* a word of another length than announced: a clean failure *)
    unfold enc_ok. cbn [cmd_fuel]. unfold encode_cmd. cbn [encode_loop parse_command]. unfold parse_dictionary at 1. rewrite DW. cbn [bind]. rewrite FS.
    destruct (Z.ltb_spec (space_left r) (zlen w)) as [TIGHT|_]; cbn [bind].
    + destruct (rflush_spec r h room K RM) as (res & o & r' & -> & K' & RI & SB & DI & OO & U2 & OL & T2 & FR). cbn [bind].
      destruct FR as [(-> & U0)|(-> & U0 & OR)]; cbn [bind].
      * unfold parse_dictionary. rewrite DW. cbn [bind]. rewrite FS.
        destruct (Z.ltb_spec (space_left r') (zlen w)) as [X|_]; [rewrite space_unf in X; unfold len in *; rewrite RI in X; lia|]. cbn [bind].
        do 3 eexists. split; [reflexivity|]. split; [unfold len; rewrite RI; reflexivity|]. split; [rewrite app_nil_r; lia|exact Logic.I].
      * do 3 eexists. split; [reflexivity|]. split; [unfold len; rewrite RI; reflexivity|]. split; [lia|]. exists h0, h, (e ++ o).
        split; [apply (part_flush dict r); [split; [exact K|split; [exact S1|exact HE]]|exact K'|exact SB]|]. split; [apply (whole_sub dict r); assumption|].
        apply (emitted_flush r h e room o r' K RM EM RI DI OO OL U2).
    + do 3 eexists. split; [reflexivity|]. split; [reflexivity|]. split; [change (zlen (@nil Z)) with 0; lia|exact Logic.I].
Qed.

(** ** The state of the main thread *)
Definition mphase (m : main) : Prop :=
  match m_lit m with
  | None => sym_count (m_dec m) mod 2 = 0 /\
      match m_pop m with
      | None => exists h e, idle (m_rec m) h e
      | Some c => okcmd D c /\ exists h0 h e, mid dict (m_rec m) h0 c h e
      end
  | Some (safe, s) => m_pop m = None /\ (exists h e, idle (m_rec m) h e) /\ linv (m_mix m) (buf1 (m_mux m)) (m_dec m) (m_lbk m) safe s
  end.
Record minv (m : main) : Prop := {
  mv_mux : rinv (m_mux m); mv_dec : dsane (m_dec m); mv_big : dbig (m_dec m); mv_lbk : lbk_ok (m_lbk m); mv_mix : inv_mix (m_mix m) (m_lbk m);
  mv_len : 64 < len (m_rec m); mv_cmds : Forall (okcmd D) (m_cmds m); mv_ph : mphase m }.
Definition rests (m : main) : Prop := m_lit m = None /\ m_pop m = None.
(** the first half of [g_output] *)
Definition g_front (m : main) (room : Z) : guarded (list Z * main * fres) :=
  let! '(m, ok) :=
    match m_lit m with
    | None => Fine (m, true)
    | Some _ =>
        let! '(m, ok) := g_content (content_fuel m) m in
        if ok then
          match m_lit m with
          | Some (_, s) => Fine (m_set_pop (m_set_lit m None) (Some (Literal (l_data s) (l_high_entropy s))), true)
          | None => Stuck
          end
        else Fine (m, false)
    end in
  if negb ok then Fine ([], m, FIn) else
  match m_pop m with
  | None => Fine ([], m, FOk)
  | Some c =>
      let! '(r, o, x) := unless (replay_danger dict (m_rec m) c) (of_opt (encode_cmd (cmd_fuel dict c) dict (m_rec m) c room)) in
      Fine (o, m_set_rec m x (match r with ModelRecode.OSuccess => None | _ => Some c end),
            match r with ModelRecode.OSuccess => FOk | ModelRecode.ONeedsMoreOutput => FOut | ModelRecode.OFailure => FFail end)
  end.
Lemma g_output_front skip fuel q m room : g_output dict skip (S fuel) q m room =
  match g_front m room with
  | Unsafe h => Unsafe h
  | Stuck => Stuck
  | Fine (o, m, FIn) => Fine (o, q, m, Processed DNeedIn)
  | Fine (o, m, FOut) => Fine (o, q, m, Processed DNeedOut)
  | Fine (o, m, FFail) => Fine (o, q, m, Processed DFail)
  | Fine (o, m, FOk) =>
      let! '(q, m, need) := of_opt (pull_commands q m) in
      if need then Fine (o, q, m, Processed DNeedIn) else
      match m_cmds m with
      | [] =>
          if m_eof m then let! '(o2, m, r) := of_opt (finish skip m (room - zlen o)) in Fine (o ++ o2, q, m, Processed r)
          else Fine (o, q, m, Yield)
      | c :: cs =>
          let! '(q, m, r) := unless (speeds_danger c m) (of_opt (take_command c q (m_set_cmds m cs))) in
          match r with
          | Some r => Fine (o, q, m, r)
          | None => let! '(o2, q, m, r) := g_output dict skip fuel q m (room - zlen o) in Fine (o ++ o2, q, m, r)
          end
      end
  end.
Proof.
  cbn [g_output]. unfold g_front.
  match goal with |- gbind ?x _ = _ => destruct x as [[m1 ok]| |] end; [|reflexivity|reflexivity]. cbn [gbind]. destruct ok; cbn [negb]; [|reflexivity].
  destruct (m_pop m1) as [c|]; [|reflexivity]. destruct (replay_danger _ _ _); [reflexivity|]. cbn [unless]. destruct (encode_cmd _ _ _ _ _) as [[[r o] x]|]; [|reflexivity]. cbn [of_opt gbind]. destruct r; reflexivity.
Qed.
Definition front_fine (m : main) (room : Z) (x : guarded (list Z * main * fres)) : Prop :=
  (exists h, x = Unsafe h) \/
  exists o m' r, x = Fine (o, m', r) /\ zlen o <= room /\ keep_in m m' /\ match r with FOk => minv m' /\ rests m' | FFail => True | _ => minv m' end.
Lemma pop_any m room : minv m -> m_lit m = None -> 0 <= room ->
  front_fine m room (match m_pop m with
  | None => Fine ([], m, FOk)
  | Some c =>
      let! '(r, o, x) := unless (replay_danger dict (m_rec m) c) (of_opt (encode_cmd (cmd_fuel dict c) dict (m_rec m) c room)) in
      Fine (o, m_set_rec m x (match r with ModelRecode.OSuccess => None | _ => Some c end),
            match r with ModelRecode.OSuccess => FOk | ModelRecode.ONeedsMoreOutput => FOut | ModelRecode.OFailure => FFail end)
  end).
Proof.
  intros V ML RM. destruct (m_pop m) as [c|] eqn:MP.
  2:{ right. exists [], m, FOk. split; [reflexivity|]. split; [change (zlen (@nil Z)) with 0; lia|]. split; [pose proof (keep_cont m (buf1 (m_mux m)) (m_dec m) (m_lbk m) (m_lit m)) as KC; rewrite m_cont_self in KC; exact KC|].
      split; [exact V|split; [exact ML|exact MP]]. }
  destruct (replay_danger dict (m_rec m) c) as [hz|] eqn:RD; cbn [unless gbind]; [left; eexists; reflexivity|].
  pose proof V as [V1 V2 V3 V4 V5 V6 V7 V8]. unfold mphase in V8. rewrite ML, MP in V8. destruct V8 as (PA & OK & h0 & h & e & MD).
  destruct (encode_any (m_rec m) c h0 h e room V6 OK MD RM RD) as (res & o & r' & -> & L' & O' & RES). cbn [of_opt gbind].
  right. do 3 eexists. split; [reflexivity|]. split; [exact O'|]. split; [unfold keep_in; split; [exists (buf1 (m_mux m)); cbn; destruct (m_mux m); reflexivity|]; repeat split|].
  assert (MI : forall p, match p with None => exists h e, idle r' h e | Some c => okcmd D c /\ exists h0 h e, mid dict r' h0 c h e end -> minv (m_set_rec m r' p)).
  { intros p P. constructor; try assumption; cbn [m_rec m_set_rec]; [rewrite L'; exact V6|]. unfold mphase. cbn [m_lit m_set_rec m_dec m_pop m_rec]. rewrite ML. auto. }
  destruct res; [split; [apply MI, RES|split; [exact ML|reflexivity]]|apply MI; split; [exact OK|exact RES]|exact Logic.I].
Qed.
Lemma front_any m room : minv m -> 0 <= room -> front_fine m room (g_front m room).
Proof.
  intros V RM. unfold g_front. destruct (m_lit m) as [(safe & s)|] eqn:ML.
  2:{ cbn [gbind negb]. apply pop_any; assumption. }
  pose proof V as [V1 V2 V3 V4 V5 V6 V7 V8]. unfold mphase in V8. rewrite ML in V8. destruct V8 as (MP & (h & e & ID) & LI).
  pose proof (m_cont_self m) as SELF. rewrite ML in SELF. unfold content_fuel. rewrite ML.
  assert (TG : togo s < Z.of_nat (S (Z.to_nat (2 * l_len s)))).
  { pose proof (lv_pos _ _ _ _ _ _ LI) as P. pose proof (lv_s _ _ _ _ _ _ LI) as LS. unfold togo, pos_ok, lit_sane in *. destruct (l_sub s); try contradiction; lia. }
  replace (g_content (S (Z.to_nat (2 * l_len s))) m) with (g_content (S (Z.to_nat (2 * l_len s))) (m_cont m (buf1 (m_mux m)) (m_dec m) (m_lbk m) (Some (safe, s)))) by (rewrite SELF; reflexivity).
  destruct (content_any m _ _ _ _ _ _ LI TG) as [(hz & ->)|(m' & ok & -> & CD)]; [left; eexists; reflexivity|]. cbn [gbind]. destruct ok.
  - destruct CD as (b' & d' & l' & safe' & s' & -> & B' & DS' & DB' & LB' & MX' & LS' & SF & LN & PA'). cbn [m_cont m_lit gbind negb].
    assert (KI : keep_in m (m_set_pop (m_set_lit (m_cont m b' d' l' (Some (safe', s'))) None) (Some (Literal (l_data s') (l_high_entropy s'))))) by (unfold keep_in; split; [exists b'; reflexivity|]; repeat split).
    assert (MI : minv (m_set_pop (m_set_lit (m_cont m b' d' l' (Some (safe', s'))) None) (Some (Literal (l_data s') (l_high_entropy s'))))).
    { constructor; try assumption; [apply (rinv_buf1 (m_mux m)); assumption|]. unfold mphase. cbn [m_lit m_set_pop m_set_lit m_dec m_pop m_rec m_cont]. split; [exact PA'|].
      split; [|exists h, h, e; apply idle_mid, ID]. cbn [okcmd sane_command]. unfold lit_sane in LS'. rewrite SF in LS'. exact LS'. }
    destruct (pop_any _ room MI eq_refl RM) as [U|(o & m2 & r & E2 & O2 & K2 & R2)]; [left; exact U|]. right. exists o, m2, r. split; [exact E2|]. split; [exact O2|]. split; [apply (keep_trans _ _ _ KI K2)|exact R2].
  - destruct CD as (b' & d' & l' & safe' & s' & -> & LI' & LN). cbn [gbind negb]. right. exists [], (m_cont m b' d' l' (Some (safe', s'))), FIn. split; [reflexivity|]. split; [change (zlen (@nil Z)) with 0; lia|]. split; [apply keep_cont|].
    pose proof LI' as [L1 L2 L3 L4 L5 L6 L7 L8 L9]. constructor; try assumption; [apply (rinv_buf1 (m_mux m)); assumption|]. unfold mphase. cbn [m_lit m_cont]. split; [exact MP|]. split; [exists h, e; exact ID|exact LI'].
Qed.
End Main.
