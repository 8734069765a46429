(** The raw interface: a prediction mode command is never left half written; the
    assembler; one call. *)
From Verif Require Import Prelude ProofList ModelAns SpecAns ProofAnsRt ModelCdf SpecCdf ModelMux SpecMux ProofZlist ProofMux ProofMuxW ModelCmd ModelCrc SpecCrc ModelHeader SpecHeader ModelRecode SpecLz ModelPriors ModelCodec ModelLit ModelPm ModelTop SpecCodec SpecReplay ProofCodecInv ProofCodecInv2 ModelEnc SpecEnc SpecFile ProofEnc ProofEnc2 ProofEnc3 ProofEnc4 ModelRaw ModelRawEnc SpecRawEnc ProofRecode ThmRaw.

(** ** The nibbles a prediction mode can still take *)
Definition lit3 (p : predmode) : Z := 3 * zlen (lit_map p).
Definition dcm3 (b : bk) : Z := 3 * zlen (distance_context_map b).
Definition pot_pm (D : dims) (b : bk) (s : pm_st) : Z :=
  let '(p, u) := s in
  match u with
  | PmBegin => 24 + lit3 p + dcm3 b + n_mix D
  | PmDynMixing => 23 + lit3 p + dcm3 b + n_mix D
  | PmDepth _ => 22 + lit3 p + dcm3 b + n_mix D
  | PmAdapt i _ _ => 5 + (16 - i) + lit3 p + dcm3 b + n_mix D
  | PmMnem i false _ => 4 + lit3 p - 3 * i + dcm3 b + n_mix D
  | PmFirst i false _ => 3 + lit3 p - 3 * i + dcm3 b + n_mix D
  | PmSecond i false _ _ => 2 + lit3 p - 3 * i + dcm3 b + n_mix D
  | PmMnem i true _ => 3 + dcm3 b - 3 * i + n_mix D
  | PmFirst i true _ => 2 + dcm3 b - 3 * i + n_mix D
  | PmSecond i true _ _ => 1 + dcm3 b - 3 * i + n_mix D
  | PmMixing i _ => n_mix D - i
  | PmFully => 0
  end.
(** indices in range *)
Definition pm_in (D : dims) (b : bk) (s : pm_st) : Prop :=
  let '(p, u) := s in
  match u with
  | PmAdapt i _ _ => 0 <= i < 16
  | PmMnem i false _ | PmFirst i false _ | PmSecond i false _ _ => 0 <= i <= zlen (lit_map p)
  | PmMnem i true _ | PmFirst i true _ | PmSecond i true _ _ => 0 <= i <= zlen (distance_context_map b)
  | PmMixing i _ => 0 <= i < n_mix D
  | _ => True
  end.
Lemma pot_pm_pos D b s : 1 <= n_mix D -> pm_in D b s -> snd s <> PmFully -> 1 <= pot_pm D b s.
Proof.
  destruct s as [p u]. intros N I F. pose proof (zlen_nonneg (lit_map p)). pose proof (zlen_nonneg (distance_context_map b)).
  destruct u as [| | | |i d c|i d c|i d m c|i c|]; try destruct d; cbn [pot_pm pm_in snd] in *; unfold lit3, dcm3; try lia. contradiction.
Qed.
Lemma dcm_code b c i x : distance_context_map (set_priors b (pupd (priors b) c i x)) = distance_context_map b. Proof. reflexivity. Qed.
Lemma pm_step D b s st d k v b' s' : 1 <= n_mix D -> pm_in D b s -> pm_node D b s = Code st d k -> k v = Next (b', s') ->
  st = CMD /\ pot_pm D b' s' <= pot_pm D b s - 1 /\ pm_in D b' s'.
Proof.
  destruct s as [p u]. intros N I E K.
  assert (ST : forall (bb : bk) c bl ix sp (kk : bk -> Z -> outcome (bk * pm_st)), code bb c bl ix sp kk = Code st d k -> st = CMD /\ exists b1, distance_context_map b1 = distance_context_map bb /\ kk b1 v = Next (b', s')).
  { intros bb c bl ix sp kk. unfold code. destruct (prior_index c bl ix) as [i|]; [|discriminate]. intros X. injection X as <- <- <-. split; [reflexivity|]. eexists. split; [apply dcm_code|exact K]. }
  pose proof (zlen_nonneg (lit_map p)) as NL. pose proof (zlen_nonneg (distance_context_map b)) as ND.
  destruct u as [| |cb|i out cb|i dd cb|i dd cb|i dd m cb|i cb|]; cbn [pm_node] in E; try (destruct (ST _ _ _ _ _ _ E) as (-> & b1 & DC & X); clear ST E K; split; [reflexivity|]; cbn [pm_in] in I; unfold pot_pm, lit3, dcm3).
  - injection X as <- <-. rewrite DC. cbn [pm_in lit_map pm_set_mode reset_dcm set_dcm distance_context_map set_cmap_lru]. split; [|exact Logic.I]. unfold zlen at 2. rewrite map_length, seq_length. fold (zlen (distance_context_map b)). lia.
  - injection X as <- <-. rewrite DC. cbn [pm_in lit_map pm_set_math]. split; [lia|exact Logic.I].
  - injection X as <- <-. rewrite DC. cbn [pm_in]. lia.
  - cbv zeta in X. destruct (Z.eqb_spec (i + 1) 16) as [E|E].
    + destruct (store_speed _); [|discriminate]. destruct (store_speed _); [|discriminate]. destruct (store_speed _); [|discriminate]. destruct (store_speed _); [|discriminate].
      injection X as <- <-. rewrite DC. cbn [pm_in lit_map pm_set_speeds]. lia.
    + injection X as <- <-. rewrite DC. cbn [pm_in]. lia.
  - destruct (v =? 14).
    { destruct dd; injection X as <- <-; cbn [pm_in set_cmap_lru distance_context_map]; rewrite ?DC; lia. }
    destruct (v =? 15). { destruct dd; injection X as <- <-; cbn [pm_in]; rewrite ?DC; lia. }
    cbv zeta in X. set (x := if v =? 13 then _ else _) in X. clearbody x. unfold obs_context_map, pm_store in X. cbn [set_cmap_lru distance_context_map] in X. rewrite DC in X. destruct dd; cbn [negb] in X.
    + destruct (Z.ltb_spec i (zlen (distance_context_map b))); [|discriminate]. destruct (Z.ltb_spec i (zlen (dist_map p))); [|discriminate]. injection X as <- <-. cbn [pm_in set_dcm distance_context_map]. rewrite upd_length by lia. lia.
    + destruct (Z.ltb_spec i (zlen (lit_map p))); [|discriminate]. injection X as <- <-. cbn [pm_in set_cmap_lru distance_context_map lit_map pm_set_lit]. rewrite DC, upd_length by lia. lia.
  - destruct dd; injection X as <- <-; cbn [pm_in]; rewrite ?DC; lia.
  - cbv zeta in X. set (x := Z.lor _ _) in X. clearbody x. unfold obs_context_map, pm_store in X. cbn [set_cmap_lru distance_context_map] in X. rewrite DC in X. destruct dd; cbn [negb] in X.
    + destruct (Z.ltb_spec i (zlen (dist_map p))); [|discriminate]. destruct (Z.ltb_spec i (zlen (distance_context_map b))); [|discriminate]. injection X as <- <-. cbn [pm_in set_dcm distance_context_map]. rewrite upd_length by lia. lia.
    + destruct (Z.ltb_spec i (zlen (lit_map p))); [|discriminate]. injection X as <- <-. cbn [pm_in set_cmap_lru distance_context_map lit_map pm_set_lit]. rewrite DC, upd_length by lia. lia.
  - destruct (i <? zlen (mixing p)); [|discriminate]. cbv zeta in X. injection X as <- <-. destruct (Z.eqb_spec (i + 1) (n_mix D)); cbn [pm_in]; lia.
  - discriminate E.
Qed.

(** ** While fewer than 65536 nibbles are pending nothing needs to be written out *)
Definition room_for (e : encoder) (n : Z) : Prop := bs_is_empty (q e) = true /\ 0 <= bs_len (start_freq e) /\ bs_len (start_freq e) + 4 * n < Z.shiftl NUM_SYMBOLS_BEFORE_FLUSH 2.
Lemma put_room p cdf v p' n : room_for (x_cmd p) n -> 1 <= n -> put_nibble p CMD cdf v = Some p' -> room_for (x_cmd p') (n - 1).
Proof.
  unfold put_nibble. destruct (ref_interval cdf v) as (s, f). cbn [coder]. unfold put_start_freq, assert. intros (Q & L0 & L) N.
  destruct (negb (f =? 0)); [|discriminate]. rewrite Q. cbn [bind]. 
  assert (S2 : forall q0 x q1, stack_u16 q0 x = Some q1 -> bs_len q1 = bs_len q0 + 2).
  { intros q0 x q1. unfold stack_u16, stack_byte, assert. destruct (0 <? nbytes q0); [|discriminate]. cbn [bind nbytes]. destruct (0 <? nbytes q0 - 1); [|discriminate 1]. intros X. injection X as <-. unfold bs_len. cbn [nbytes]. lia. }
  destruct (stack_u16 (start_freq (x_cmd p)) _) as [q1|] eqn:E1; [|discriminate]. apply S2 in E1. cbn [bind]. destruct (stack_u16 q1 _) as [q2|] eqn:E2; [|discriminate]. apply S2 in E2. cbn [bind].
  destruct (Z.eqb_spec (bs_len q2) (Z.shiftl NUM_SYMBOLS_BEFORE_FLUSH 2)) as [X|X]; [exfalso; lia|]. cbn [bind]. intros Y. injection Y as <-. cbn [set_coder x_cmd]. unfold room_for. cbn [ModelAns.q start_freq]. split; [exact Q|]. lia.
Qed.
Lemma drain_empty p room : bs_is_empty (q (x_cmd p)) = true -> drain_list [(CMD, true)] p room = Some ([], p, true).
Proof. intros Q. cbn [drain_list]. unfold drain1. destruct (drain_fuel p CMD) as [|n] eqn:E; [discriminate|]. cbn [drain_static coder]. rewrite Q. cbn [bind andb negb app]. reflexivity. Qed.

Section Pm.
Context (dict : dict_fn) (wl : word_len_fn) (D : dims) (g : cfg) (NM : 1 <= n_mix D).
Definition pm_at (c : codec rcs) (n : Z) : Prop :=
  match k_st c with
  | TBegin => lit3 (k_pm c) + dcm3 (k_bk c) + n_mix D + 25 <= n
  | TPm u => pm_in D (k_bk c) (k_pm c, u) /\ pot_pm D (k_bk c) (k_pm c, u) <= n
  | _ => False
  end.
Lemma pm_no_wait pm : forall fuel c p room n o c' p' r, pm_at c n -> room_for (x_cmd p) n ->
  one_command dict wl D g fuel (PredictionMode pm) false c p room = Some (o, c', p', r) -> r <> NeedOut.
Proof.
  induction fuel as [|fuel IH]; intros c p room n o c' p' r A RM E; [discriminate E|]. cbn [one_command] in E.
  destruct (top_want g (PredictionMode pm) false c) as [v|e|] eqn:TW; [|injection E as <- <- <- <-; discriminate|discriminate].
  assert (DE : drain_list (drains (k_st c)) p room = Some ([], p, true)).
  { unfold pm_at in A. destruct (k_st c); try (exact (False_ind _ A)); apply drain_empty, RM. }
  rewrite DE in E. cbn [bind negb] in E. change (zlen (@nil Z)) with 0 in E.
  pose proof (zlen_nonneg (lit_map (k_pm c))) as NL. pose proof (zlen_nonneg (distance_context_map (k_bk c))) as ND.
  unfold pm_at in A. destruct (k_st c) as [| | | | | | |u| |] eqn:KS; try (exact (False_ind _ A)).
  - (* the command type *)
    unfold top_node in E. rewrite KS in E. unfold code in E. destruct (prior_index _ _ _); [|discriminate E]. cbn [bind] in E.
    unfold top_want in TW. rewrite KS in TW. injection TW as <-. change (command_type_to_nibble (PredictionMode pm) false) with 7 in E. change ((0 <=? 7) && (7 <? 16)) with true in E. cbv iota in E.
    destruct (put_nibble p CMD _ 7) as [p1|] eqn:PN; [|discriminate]. cbn [bind] in E. unfold begin_command in E. change (7 =? 1) with false in E. change (7 =? 2) with false in E. change (7 =? 3) with false in E. change (7 =? 4) with false in E. change (7 =? 5) with false in E. change (7 =? 6) with false in E. change (7 =? 7) with true in E. cbv iota in E.
    destruct (one_command _ _ _ _ fuel _ false _ p1 _) as [[[[o2 c2] p2] r2]|] eqn:O; [|discriminate]. cbn [bind] in E. injection E as <- <- <- <-.
    eapply (IH _ p1 _ (n - 1) _ _ _ _); [|apply (put_room _ _ _ _ _ RM) in PN; [exact PN|unfold lit3, dcm3 in A; lia]|exact O].
    unfold pm_at. cbn [kset k_st k_pm k_bk]. split; [exact Logic.I|]. unfold pot_pm. unfold dcm3 at 1. cbn [set_priors distance_context_map]. fold (dcm3 (k_bk c)). lia.
  - destruct A as (AI & AP).
    destruct (match u with PmFully => true | _ => false end) eqn:UF.
    { destruct u; try discriminate UF. unfold top_node in E. rewrite KS in E. destruct (obs_prediction_mode _ _); [injection E as <- <- <- <-; discriminate|injection E as <- <- <- <-; discriminate|discriminate E]. }
    assert (TN : top_node (rcs_replayer dict) wl D c = lift (fun x => K (fst x) (k_lbk c) (k_mix c) (fst (snd x)) (k_rec c) (TPm (snd (snd x)))) Panic (pm_node D (k_bk c) (k_pm c, u))).
    { unfold top_node. rewrite KS. destruct u; try discriminate UF; reflexivity. }
    rewrite TN in E. clear TN. unfold lift in E. destruct (pm_node D (k_bk c) (k_pm c, u)) as [st d k|oc|] eqn:PN; cbn [map_node] in E.
    + destruct ((0 <=? v) && (v <? 16)); [|discriminate E].
      destruct (put_nibble p st d v) as [p1|] eqn:PU; [|discriminate E]. cbn [bind] in E.
      destruct (k v) as [(b', s')|e|] eqn:KV; cbn [map_outcome] in E; [|injection E as <- <- <- <-; discriminate|discriminate E].
      destruct (pm_step D (k_bk c) (k_pm c, u) st d k v b' s' NM AI PN KV) as (-> & PO & PI).
      destruct (one_command _ _ _ _ fuel _ false _ p1 _) as [[[[o2 c2] p2] r2]|] eqn:O; [|discriminate]. cbn [bind] in E. injection E as <- <- <- <-.
      assert (NF : 1 <= pot_pm D (k_bk c) (k_pm c, u)) by (apply pot_pm_pos; [exact NM|exact AI|]; intros X; cbn [snd] in X; subst u; discriminate UF).
      eapply (IH _ p1 _ (n - 1) _ _ _ _); [|apply (put_room _ _ _ _ _ RM) in PU; [exact PU|lia]|exact O].
      unfold pm_at. destruct s' as (pp, uu). cbn [k_st k_pm k_bk fst snd]. split; [exact PI|lia].
    + destruct oc as [(b', s')|e|]; cbn [map_outcome] in E; [|injection E as <- <- <- <-; discriminate|discriminate E].
      exfalso. destruct u; cbn [pm_node] in PN; try discriminate UF; unfold code in PN; destruct (prior_index _ _ _); discriminate PN.
    + exfalso. destruct u; cbn [pm_node] in PN; try discriminate UF; unfold code in PN; destruct (prior_index _ _ _); discriminate PN.
Qed.
End Pm.

(** ** The assembler *)
Section Asm.
Context (D : dims) (ws : Z) (WS : 2 <= 2 ^ ws).
Let L := 2 ^ ws.
Let pm0 := raw_pm D.
(** [x]: the input taken so far *)
Inductive asm (a : raws) (x : list Z) : Prop :=
| AF : roi a = 0 -> rdi a = zlen x -> zlen x < L -> produced_header a = false -> zfirst (zlen x) (rring a) = x -> asm a x
| AB : roi a = L -> rdi a = L -> zlen x = L -> produced_header a = true -> asm a x
| AW : roi a = L -> rdi a = zlen x - L -> L <= zlen x < 2 * L - 1 -> produced_header a = true -> zfirst (zlen x - L) (rring a) = zskip L x -> asm a x.
Definition idle (a : raws) : Prop := rdi a = roi a /\ produced_header a = true.
Lemma asm_stream a x i : zlen (rring a) = L -> asm a x -> zlen x + zlen i < 2 * L - 1 ->
  exists a', zlen (rring a') = L /\
   (((zlen x + zlen i < L \/ L <= zlen x) /\ raw_stream pm0 a i CMD_BUFFER = Some (SNeedsMoreInput, [], a', []) /\ asm a' (x ++ i)) \/
    (zlen x < L <= zlen x + zlen i /\ let k := L - zlen x in
     raw_stream pm0 a i CMD_BUFFER = Some (if zlen (zskip k i) =? 0 then SNeedsMoreInput else SNeedsMoreOutput, [PredictionMode pm0; Literal (zfirst L (x ++ i)) false], a', zskip k i) /\
     asm a' (x ++ zfirst k i))).
Proof.
  intros RL P T. pose proof (zlen_nonneg i) as NI. pose proof (zlen_nonneg x) as NX. assert (L2 : 2 <= L) by exact WS.
  assert (W : forall d rb ph, zlen rb = L -> 0 <= d -> d + zlen i < L - 1 ->
     raw_stream pm0 (RAW rb d L ph) i CMD_BUFFER = Some (SNeedsMoreInput, [], RAW (put_at rb d i) (d + zlen i) L ph, [])).
  { intros d rb ph RB DD DT. unfold raw_stream. cbn [rring rdi roi produced_header]. destruct (Z.leb_spec L d); [lia|]. cbn [rring rdi roi produced_header].
    destruct (Z.ltb_spec d L); [|lia]. rewrite Z.min_r by lia. cbn [rring rdi roi produced_header]. rewrite zfirst_all, zskip_all by lia.
    unfold ring_full, CMD_BUFFER. cbn [rring rdi roi]. rewrite zlen_put by lia. rewrite RB.
    destruct (Z.eqb_spec (d + zlen i) L); [lia|]. destruct (Z.eqb_spec (d + zlen i + 1) L); [lia|].
    change ((0 <? 16) && (false || false)) with false. change (16 =? 0) with false. cbv iota. unfold assert. change (zlen (@nil Z) =? 0) with true. reflexivity. }
  destruct a as [rb d o ph]. cbn [rring] in RL. destruct P as [O DD N PH Q|O DD N PH|O DD N PH Q]; cbn [rring rdi roi produced_header] in *.
  - subst o d ph. set (n := zlen x) in *. set (k := Z.min (L - n) (zlen i)).
    assert (K0 : 0 <= k <= zlen i) by (unfold k; lia).
    assert (FK : zlen (zfirst k i) = k) by (apply zfirst_len_sub; lia).
    set (rb' := put_at rb n (zfirst k i)).
    assert (PL : zlen rb' = L) by (unfold rb'; rewrite zlen_put; lia).
    assert (PF : zfirst (n + k) rb' = x ++ zfirst k i) by (unfold rb'; rewrite <- FK at 1; rewrite put_first_n by lia; rewrite Q; reflexivity).
    destruct (Z.eqb_spec (n + k) L) as [FL|FL].
    + exists (RAW rb' L L true). split; [exact PL|]. right. split; [lia|]. assert (EK : L - n = k) by lia. rewrite EK. cbv zeta. split.
      * unfold raw_stream. cbn [rring rdi roi produced_header]. rewrite RL. fold k. destruct (Z.leb_spec 0 n); [|lia]. change (negb (0 =? 0)) with false. cbv iota.
        cbn [rring rdi roi produced_header]. destruct (Z.ltb_spec (n + k) 0); [lia|]. fold rb'.
        unfold ring_full. cbn [rring rdi roi]. rewrite PL, FL, Z.eqb_refl. cbn [orb]. change ((0 <? CMD_BUFFER) && true) with true. cbv iota.
        rewrite (flush_flat pm0 _ L) by (cbn [rring rdi roi]; lia). cbn [bind rring hdr produced_header app].
        assert (E : zfirst L (x ++ i) = zfirst L rb'). { rewrite <- FL, PF. unfold n. rewrite zfirst_app_more by lia. f_equal. f_equal. lia. }
        rewrite E. destruct (Z.eqb_spec (zlen (zskip k i)) 0) as [Z0|Z0]; cbn [negb]; [|reflexivity]. unfold assert. reflexivity.
      * apply AB; cbn [rring rdi roi produced_header]; auto. rewrite zlen_app, FK. exact FL.
    + assert (KA : k = zlen i) by (unfold k in *; lia). exists (RAW rb' (n + k) 0 false). split; [exact PL|]. left. split; [left; lia|]. split.
      * unfold raw_stream. cbn [rring rdi roi produced_header]. rewrite RL. fold k. destruct (Z.leb_spec 0 n); [|lia]. change (negb (0 =? 0)) with false. cbv iota.
        cbn [rring rdi roi produced_header]. destruct (Z.ltb_spec (n + k) 0); [lia|]. fold rb'.
        unfold ring_full. cbn [rring rdi roi]. rewrite PL. destruct (Z.eqb_spec (n + k) L); [lia|]. destruct (Z.eqb_spec (n + k + 1) 0); [lia|].
        change ((0 <? CMD_BUFFER) && (false || false)) with false. change (CMD_BUFFER =? 0) with false. cbv iota. unfold assert.
        assert (SN : zskip k i = []) by (apply zskip_all; lia). rewrite SN. change (zlen (@nil Z) =? 0) with true. reflexivity.
      * rewrite (zfirst_all k i) in PF by lia. apply AF; cbn [rring rdi roi produced_header]; auto; rewrite ?zlen_app; fold n; try lia. rewrite <- KA. exact PF.
  - subst o d ph.
    assert (ST : raw_stream pm0 (RAW rb L L true) i CMD_BUFFER = raw_stream pm0 (RAW rb 0 L true) i CMD_BUFFER).
    { unfold raw_stream. cbn [rring rdi roi produced_header]. rewrite Z.leb_refl, RL, Z.sub_diag. rewrite Z.min_l by lia. rewrite zskip_0, zfirst_0.
      destruct (Z.eqb_spec L 0); [lia|]. destruct (Z.leb_spec L 0); [lia|]. cbn [negb rring rdi roi produced_header].
      replace (put_at rb L []) with rb; [reflexivity|]. unfold put_at. rewrite zfirst_all by lia. cbn [app]. change (zlen (@nil Z)) with 0. rewrite zskip_all by lia. rewrite app_nil_r. reflexivity. }
    rewrite ST, W by lia. eexists. split; [|left; split; [lia|split; [reflexivity|]]]; cbn [rring]; [rewrite zlen_put; lia|].
    apply AW; cbn [rring rdi roi produced_header]; rewrite ?zlen_app; try lia; try reflexivity. replace (zlen x + zlen i - L) with (0 + zlen i) by lia. rewrite put_first_n by lia. rewrite zfirst_0.
    rewrite zskip_app_exact by exact N. reflexivity.
  - subst o d ph. rewrite W by lia. eexists. split; [|left; split; [lia|split; [reflexivity|]]]; cbn [rring]; [rewrite zlen_put; lia|].
    apply AW; cbn [rring rdi roi produced_header]; rewrite ?zlen_app; try lia; try reflexivity. replace (zlen x + zlen i - L) with (zlen x - L + zlen i) by lia. rewrite put_first_n by lia. rewrite Q.
    rewrite zskip_app_less by lia. reflexivity.
Qed.
Lemma idle_flush a : idle a -> raw_flush pm0 a CMD_BUFFER = Some (ModelRecode.OSuccess, [], a).
Proof.
  intros (E & P). destruct a as [rb d o ph]. cbn [rdi roi produced_header] in *. subst d ph. unfold raw_flush, CMD_BUFFER, raw_flush2. cbn [rring rdi roi produced_header negb].
  change (16 =? 0) with false. cbv iota. rewrite Z.ltb_irrefl. cbn [bind rdi roi]. rewrite Z.eqb_refl. reflexivity.
Qed.
(** the commands not yet handed over when [x] has been taken *)
Definition pending (X x : list Z) : list command := if zlen x <? L then raw_cmds D ws X else lit_of (zskip L X).
Lemma lit_of_len d : lit_of d = if zlen d =? 0 then [] else [Literal d false].
Proof. destruct d as [|z d]; [reflexivity|]. destruct (Z.eqb_spec (zlen (z :: d)) 0) as [E|E]; [|reflexivity]. rewrite zlen_cons in E. pose proof (zlen_nonneg d). lia. Qed.
Lemma asm_flush a X : zlen (rring a) = L -> asm a X -> exists a', raw_flush pm0 a CMD_BUFFER = Some (ModelRecode.OSuccess, pending X X, a') /\ idle a'.
Proof.
  intros RL P. pose proof (zlen_nonneg X) as NX. assert (L2 : 2 <= L) by exact WS. unfold pending, raw_cmds. fold L. rewrite !lit_of_len.
  destruct a as [rb d o ph]. cbn [rring] in RL. destruct P as [O DD N PH Q|O DD N PH|O DD N PH Q]; cbn [rring rdi roi produced_header] in *; subst o d ph.
  - destruct (Z.ltb_spec (zlen X) L); [|lia]. destruct (Z.eqb_spec (zlen X) 0) as [Z0|Z0].
    + exists (RAW rb 0 0 true). rewrite Z0. split; [|split; reflexivity]. unfold raw_flush, CMD_BUFFER, raw_flush2. cbn [rring rdi roi produced_header negb]. change (16 =? 0) with false. change (16 =? 1) with false. cbv iota. reflexivity.
    + rewrite (flush_flat pm0 _ (zlen X)) by (cbn [rring rdi roi]; lia). cbn [rring hdr produced_header app]. rewrite Q. eexists. split; [reflexivity|split; reflexivity].
  - destruct (Z.ltb_spec (zlen X) L); [lia|]. rewrite zskip_all by lia. change (zlen (@nil Z) =? 0) with true. cbv iota. eexists. split; [apply idle_flush|]; split; reflexivity.
  - destruct (Z.ltb_spec (zlen X) L); [lia|]. rewrite zlen_skip, (Z.max_r 0) by lia. unfold raw_flush, CMD_BUFFER, raw_flush2. cbn [rring rdi roi produced_header negb]. change (16 =? 0) with false. cbv iota.
    rewrite RL, Z.sub_diag. destruct (Z.ltb_spec (zlen X - L) L); [|lia]. change (0 =? 0) with true. cbn [negb bind rring rdi roi produced_header].
    destruct (Z.eqb_spec (zlen X - L) L); [lia|]. destruct (Z.eqb_spec (zlen X - L) 0) as [Z0|Z0]; cbn [negb].
    + eexists. split; [reflexivity|]. split; cbn [rdi roi produced_header]; [exact Z0|reflexivity].
    + change (zlen (@nil command) =? 16) with false. cbv iota. rewrite slice_ok by lia. cbn [bind]. unfold assert. destruct (Z.leb_spec 0 L); [|lia]. destruct (Z.leb_spec (zlen X - L) L); [|lia].
      rewrite zskip_0, Z.sub_0_r, Q. cbn [app]. eexists. split; [reflexivity|split; reflexivity].
Qed.
End Asm.
