(** The optimiser keeps the encoder's contract. *)
From Verif Require Import Prelude ProofList ModelMux ProofZlist ModelCmd ModelRecode SpecLz ModelIr SpecIr ProofIr ThmIr ModelPriors ModelCodec ModelLit ModelPm ModelTop SpecCodec SpecReplay ProofCodecInv SpecFile ModelIo ModelHybrid SpecHybrid ModelTuned SpecTuned.
From Coq Require Import Lia.

(** ** The commands of an optimised list *)
Section Kinds.
Context (Q : command -> Prop) (QC : forall d n, Q (Copy d n) -> 0 <= n).
Definition kind (c : icmd) : Prop := match c with ILit _ len _ => 1 <= len | IOther c => Q c \/ c = Copy 1 0 end.
Lemma kind_upd l i c : Forall kind l -> kind c -> Forall kind (ModelIr.upd l i c).
Proof. intros F K. unfold ModelIr.upd. apply Forall_app. split; [apply Forall_firstn, F|]. constructor; [exact K|]. apply Forall_skipn, F. Qed.
Lemma kind_nth l i c : Forall kind l -> nth_error l i = Some c -> kind c.
Proof. intros F E. rewrite Forall_forall in F. apply F. eapply nth_error_In, E. Qed.
Lemma kind_step b merge trial l el index l' el' : Forall kind l -> ir_step b merge trial l el index = IrOk (l', el') -> Forall kind l'.
Proof.
  intros F E. unfold ir_step in E.
  assert (ST : (if trial index then IrOk (l, index) else IrErr) = IrOk (l', el') -> Forall kind l') by (destruct (trial index); intros X; [assert (l = l') by congruence; subst; exact F|discriminate X]).
  assert (NC : kind nop_copy) by (right; reflexivity).
  destruct (nth_error l el) as [[off len he|c1]|] eqn:E1; [| |discriminate E].
  - pose proof (kind_nth _ _ _ F E1) as K1. cbn [kind] in K1. destruct (nth_error l index) as [[off2 len2 he2|c2]|] eqn:E2; [| |discriminate E].
    + pose proof (kind_nth _ _ _ F E2) as K2. cbn [kind] in K2. destruct (_ && _) in E; [apply ST, E|]. destruct (_ =? _) in E; [|discriminate E]. assert (EL : l' = ModelIr.upd (ModelIr.upd l el (ILit off (len + len2) he)) index nop_copy) by congruence. rewrite EL. apply kind_upd; [apply kind_upd; [exact F|]|exact NC]. cbn [kind]. lia.
    + pose proof (kind_nth _ _ _ F E2) as K2. cbn [kind] in K2. destruct c2; try (apply ST, E). destruct (merge index) as [m|]; [|discriminate E]. destruct (_ && _) in E; [|apply ST, E].
      match type of E with IrOk (?x, _) = _ => assert (EL : l' = x) by congruence end. rewrite EL. apply kind_upd; [apply kind_upd; [exact F|]|exact NC]. cbn [kind].
      match goal with |- 1 <= len + ?n => assert (0 <= n); [|lia] end. destruct K2 as [K2|K2]; [eapply QC, K2|]. assert (X : forall d n d' n', Copy d n = Copy d' n' -> n = n') by (intros; congruence). apply X in K2. lia.
  - destruct (nth_error l index); [apply ST, E|discriminate E].
Qed.
Lemma kind_loop b merge trial n : forall l el index l', Forall kind l -> ir_loop b merge trial n l el index = IrOk l' -> Forall kind l'.
Proof.
  induction n as [|n IH]; intros l el index l' F E; cbn [ir_loop] in E; [assert (l = l') by congruence; subst; exact F|].
  destruct (ir_step b merge trial l el index) as [[l1 el1]| |] eqn:S1; [|discriminate E|discriminate E]. apply kind_step in S1; [|exact F]. eapply IH; eassumption.
Qed.
Lemma kind_optimize b merge trial l l' : Forall kind l -> ir_optimize b merge trial l = IrOk l' -> Forall (fun c => match c with ILit _ len _ => 1 <= len | IOther c => Q c end) l'.
Proof.
  intros F E. unfold ir_optimize in E. destruct l as [|c l]; [assert (l' = []) by congruence; subst; constructor|].
  destruct (ir_loop b merge trial (length (c :: l) - 1) (c :: l) 0 1) as [l1| |] eqn:L; [|discriminate E|discriminate E]. apply kind_loop in L; [|exact F]. destruct (trial 0%nat); [|discriminate E].
  assert (CF := compact_filter (length l1) l1 0 0 ltac:(lia) ltac:(lia)). destruct (ir_compact (length l1) l1 0 0) as [l2 el]. assert (l' = firstn el l2) by congruence. subst l'. rewrite CF. cbn [firstn app skipn].
  apply Forall_forall. intros x J. apply filter_In in J. destruct J as (J & NE). rewrite Forall_forall in L. specialize (L x J). destruct x as [off len he|x]; [exact L|]. destruct L as [L| ->]; [exact L|]. discriminate NE.
Qed.
End Kinds.

(** ** Thawing *)
Lemma thaw_literal inp off len he : thaw inp (ILit off len he) = Literal (zfirst len (zskip off inp)) he.
Proof. reflexivity. Qed.
Lemma thaw_pair_some inp half c c' : thaw_pair inp half c = Some c' -> c' = thaw inp c.
Proof. unfold thaw_pair. destruct c as [off len he|c]; [|intros E; cbn [thaw]; congruence]. match goal with |- (if ?x then _ else _) = _ -> _ => destruct x end; [discriminate|]. intros E. rewrite thaw_literal. congruence. Qed.
Lemma thaw_all_some inp half : forall l l', thaw_all inp half l = Some l' -> l' = map (thaw inp) l.
Proof.
  induction l as [|c l IH]; intros l' E; cbn [thaw_all] in E; [cbn [map]; congruence|]. destruct (thaw_pair inp half c) as [c'|] eqn:T; [|discriminate E]. cbn [bind] in E. destruct (thaw_all inp half l) as [l1|] eqn:TA; [|discriminate E]. cbn [bind] in E.
  apply thaw_pair_some in T. rewrite (IH _ eq_refl) in E. cbn [map]. congruence.
Qed.
Lemma thaw_all_ok inp half : forall l, unsplit half l -> (forall off len he, In (ILit off len he) l -> 0 <= len /\ off + len <= zlen inp) -> thaw_all inp half l = Some (map (thaw inp) l).
Proof.
  induction l as [|c l IH]; intros U B; [reflexivity|]. cbn [thaw_all map]. rewrite IH; [|intros off len he J; apply (U off len he); right; exact J|intros off len he J; apply (B off len he); right; exact J].
  assert (T : thaw_pair inp half c = Some (thaw inp c)); [|rewrite T; reflexivity]. destruct c as [off len he|c]; [|reflexivity]. specialize (U off len he ltac:(left; reflexivity)). specialize (B off len he ltac:(left; reflexivity)). rewrite thaw_literal. unfold thaw_pair. destruct (Z.ltb_spec off half).
  - destruct (Z.ltb_spec half (off + len)); [exfalso; apply U; lia|reflexivity].
  - destruct (Z.ltb_spec (zlen inp) (off + len)); [lia|reflexivity].
Qed.
Lemma describes_bounds dict inp pos h l : describes dict inp pos h l -> forall off len he, In (ILit off len he) l -> 0 <= len /\ off + len <= zlen inp.
Proof. intros (_ & K & _) off len he J. apply in_split in J. destruct J as (pre & post & E). destruct (K pre off len he post E) as (_ & K1 & K2). auto. Qed.
Lemma describes_start dict inp pos h l : 0 <= pos -> describes dict inp pos h l -> forall off len he, In (ILit off len he) l -> 0 <= off.
Proof. intros P (_ & K & _) off len he J. apply in_split in J. destruct J as (pre & post & E). destruct (K pre off len he post E) as (-> & _). pose proof (zlen_nonneg (ir_meaning dict inp h pre)). lia. Qed.

(** ** One metablock *)
Section Tune.
Context (dict : dict_fn) (wl : word_len_fn) (D : dims) (g : cfg) (ws : Z).
(** acceptance is a matter of each command by itself *)
Definition fine (c : command) : Prop := encodable D g c /\ replayable dict (2 ^ ws) (coded wl D g (pm_new D) c).
Lemma coded_old p q c : replayable dict (2 ^ ws) (coded wl D g p c) <-> replayable dict (2 ^ ws) (coded wl D g q c).
Proof. destruct c; reflexivity. Qed.
Lemma acceptable_fine : forall cmds, acceptable dict wl D g ws cmds <-> Forall fine cmds.
Proof.
  intros cmds. unfold acceptable. generalize (pm_new D) at 1. induction cmds as [|c cmds IH]; intros p; cbn [coded_all]; [split; repeat constructor|].
  specialize (IH (pm_after D g p c)). split.
  - intros (E & R). constructor; [split; [exact (Forall_inv E)|apply (coded_old p), (Forall_inv R)]|]. apply IH. split; [exact (Forall_inv_tail E)|exact (Forall_inv_tail R)].
  - intros F. destruct (proj2 IH (Forall_inv_tail F)) as (E & R). destruct (Forall_inv F) as (E1 & R1). split; constructor; auto. apply (coded_old (pm_new D)), R1.
Qed.
Lemma fine_copy d n : fine (Copy d n) -> 0 <= n.
Proof. intros (E & _). cbn [encodable] in E. lia. Qed.
Lemma prepare_same h m : (exists pos, 0 <= pos /\ describes dict (i_inp m) pos h (i_cmds m)) -> unsplit (i_half m) (i_cmds m) -> bytes (i_inp m) -> zlen (i_inp m) <= 2 ^ 30 ->
  (forall i, i_merge m i <> None) -> (forall i, i_trial m i = true) ->
  prepare false m = Some (i_pm m, map (thaw (i_inp m)) (i_cmds m)) /\
  exists l, prepare true m = Some (i_pm m, map (thaw (i_inp m)) l) /\ ir_meaning dict (i_inp m) h l = ir_meaning dict (i_inp m) h (i_cmds m) /\
    (Forall fine (map (thaw (i_inp m)) (i_cmds m)) -> Forall fine (map (thaw (i_inp m)) l)).
Proof.
  intros (pos & P & DE) U BI LI MM TT. unfold prepare. split.
  { cbn [bind]. rewrite thaw_all_ok; [reflexivity|exact U|]. eapply describes_bounds, DE. }
  destruct (C41_ir_optimize_succeeds dict (i_inp m) pos h (i_half m) (i_merge m) (i_trial m) (i_cmds m) P DE MM TT) as (l & E).
  pose proof (C41_ir_optimize_preserves dict (i_inp m) pos h (i_half m) (i_merge m) (i_trial m) (i_cmds m) P DE) as K. rewrite E in K. destruct K as (ME & DE' & _ & _ & U'). rewrite E. cbn [bind]. rewrite thaw_all_ok; [|apply U', U|eapply describes_bounds, DE'].
  exists l. split; [reflexivity|]. split; [exact ME|]. intros F.
  (* the literals of the given list are not empty, the others are fine *)
  assert (KI : Forall (kind fine) (i_cmds m)).
  { apply Forall_forall. intros c J. rewrite Forall_forall in F. specialize (F (thaw (i_inp m) c) (in_map _ _ _ J)). destruct c as [off len he|c]; [|left; exact F]. destruct F as (F & _). rewrite thaw_literal in F. cbn [encodable] in F. destruct F as (_ & F). cbn [kind].
    destruct (describes_bounds _ _ _ _ _ DE off len he J) as (B1 & B2). pose proof (describes_start _ _ _ _ _ P DE off len he J). rewrite zlen_first, zlen_skip in F by lia. lia. }
  pose proof (kind_optimize fine fine_copy _ _ _ _ _ KI E) as KO. apply Forall_forall. intros c' J. apply in_map_iff in J. destruct J as (c & <- & J). rewrite Forall_forall in KO. specialize (KO c J). destruct c as [off len he|c]; [|exact KO].
  destruct (describes_bounds _ _ _ _ _ DE' off len he J) as (B1 & B2). pose proof (describes_start _ _ _ _ _ P DE' off len he J). rewrite thaw_literal. split; [|exact Logic.I]. cbn [encodable]. split; [apply bytes_firstn, bytes_skipn, BI|]. rewrite zlen_first, zlen_skip by lia. lia.
Qed.
Lemma meaning_app : forall c1 h c2, meaning dict h (c1 ++ c2) = meaning dict h c1 ++ meaning dict (h ++ meaning dict h c1) c2.
Proof. induction c1 as [|c c1 IH]; intros h c2; cbn [meaning app]; [rewrite app_nil_r; reflexivity|]. cbv zeta. rewrite IH, <- !app_assoc. reflexivity. Qed.
Lemma meaning_pm h pm cmds : meaning dict h (PredictionMode pm :: cmds) = meaning dict h cmds.
Proof. cbn [meaning meaning1 app]. rewrite app_nil_r. reflexivity. Qed.
Notation blocks ms := (concat (map (block Some) ms)).
Lemma prepare_all_same : forall ms h, described dict h ms -> exists ms0 ms1, prepare_all false ms = Some ms0 /\ prepare_all true ms = Some ms1 /\
  meaning dict h (blocks ms1) = meaning dict h (blocks ms0) /\ (Forall fine (blocks ms0) -> Forall fine (blocks ms1)).
Proof.
  induction ms as [|m ms IH]; intros h DE; [exists [], []; repeat split; auto|]. cbn [described] in DE. destruct DE as (D1 & D2 & D3 & _ & D4 & D5 & D6 & D7).
  destruct (prepare_same h m D1 D2 D3 D4 D5 D6) as (P0 & l & P1 & ME & FI). destruct (IH _ D7) as (ms0 & ms1 & A0 & A1 & MM & FF). cbn [prepare_all]. rewrite P0, P1. cbn [bind]. rewrite A0, A1. cbn [bind]. do 2 eexists. split; [reflexivity|]. split; [reflexivity|].
  cbn [map concat block]. unfold ir_meaning in *. split.
  - rewrite !meaning_app, !meaning_pm, ME, MM. reflexivity.
  - intros F. apply Forall_app in F. destruct F as (F1 & F2). apply Forall_app. split; [|apply FF, F2]. constructor; [exact (Forall_inv F1)|]. apply FI, (Forall_inv_tail F1).
Qed.

(** ** The encoder *)
Context {B : Type} (fe : ifrontend B) (b0 : B) (GS : good_source dict wl D g ws fe b0).
Notation RE t := (reaches (prepared t fe) Some b0).
Lemma step_of t b fin input room k w ms b' : b_step (prepared t fe) b fin input room = Some (k, w, ms, b') -> exists ims, ib_step fe b fin input room = Some (k, w, ims, b') /\ prepare_all t ims = Some ms.
Proof.
  cbn [prepared b_step]. destruct (ib_step fe b fin input room) as [[[[k1 w1] ims] b1]|]; [|discriminate]. cbn [bind]. destruct (prepare_all t ims) as [ms1|] eqn:PA; [|discriminate]. cbn [bind]. intros E. exists ims. assert (k1 = k /\ w1 = w /\ ms1 = ms /\ b1 = b') as (-> & -> & -> & ->) by (repeat split; congruence). auto.
Qed.
Lemma to_step t b fin input room k w ims ms b' : ib_step fe b fin input room = Some (k, w, ims, b') -> prepare_all t ims = Some ms -> b_step (prepared t fe) b fin input room = Some (k, w, ms, b').
Proof. intros E PA. cbn [prepared b_step]. rewrite E. cbn [bind]. rewrite PA. reflexivity. Qed.
Lemma tuned_reaches b x cmds : RE true b x cmds -> exists cmds0, RE false b x cmds0 /\ meaning dict (window ws) cmds = meaning dict (window ws) cmds0 /\ (Forall fine cmds0 -> Forall fine cmds).
Proof.
  induction 1 as [|b x cmds fin input room k w ms b' R IH NF FI BI RM ST]; [exists []; split; [constructor|auto]|]. destruct IH as (cmds0 & R0 & ME & FF). destruct (step_of _ _ _ _ _ _ _ _ _ ST) as (ims & IS & PA).
  destruct (prepare_all_same ims _ (gs_described _ _ _ _ _ _ _ GS _ _ _ _ _ _ _ _ _ _ R0 NF FI BI RM IS)) as (ms0 & ms1 & A0 & A1 & MM & F1). assert (ms1 = ms) by congruence. subst ms1.
  exists (cmds0 ++ blocks ms0). split; [eapply reaches_step; try eassumption; eapply to_step; eassumption|]. split; [rewrite !meaning_app, ME, MM; reflexivity|]. intros F. apply Forall_app in F. destruct F as (Fa & Fb). apply Forall_app. auto.
Qed.
Lemma tuned_ends : forall n b x cmds, RE false b x cmds -> ends (prepared false fe) n b -> ends (prepared true fe) n b.
Proof.
  induction n as [|n IH]; intros b x cmds R E; cbn [ends prepared b_finished] in *; [exact E|]. destruct E as [E|E]; [left; exact E|]. destruct (ib_finished fe b) eqn:F; [left; reflexivity|right]. intros room k w ms b' RM ST. destruct (step_of true _ _ _ _ _ _ _ _ ST) as (ims & IS & PA).
  destruct (prepare_all_same ims _ (gs_described _ _ _ _ _ _ _ GS _ _ _ _ _ _ _ _ _ _ R F (fun _ => eq_refl) ltac:(constructor) RM IS)) as (ms0 & ms1 & A0 & _). pose proof (to_step false _ _ _ _ _ _ _ _ _ IS A0) as S0.
  eapply IH; [|exact (E _ _ _ _ _ RM S0)]. eapply reaches_step; [exact R|exact F|reflexivity|constructor|exact RM|exact S0].
Qed.
Lemma tuned_good : good_frontend dict wl D g ws (prepared true fe) Some b0.
Proof.
  destruct GS as [G0 FF DE]. split.
  - exact (gf_new _ _ _ _ _ _ _ _ G0).
  - intros b x cmds fin input room R NF FI BI RM. destruct (tuned_reaches _ _ _ R) as (cmds0 & R0 & _). destruct (gf_works _ _ _ _ _ _ _ _ G0 _ _ _ _ _ _ R0 NF FI BI RM) as (k & w & ms & b' & ST & K1 & K2 & _ & K4). destruct (step_of _ _ _ _ _ _ _ _ _ ST) as (ims & IS & PA).
    destruct (prepare_all_same ims _ (DE _ _ _ _ _ _ _ _ _ _ R0 NF FI BI RM IS)) as (ms0 & ms1 & _ & A1 & _). exists k, w, ms1, b'. split; [eapply to_step; eassumption|]. split; [exact K1|]. split; [exact K2|]. split; [|exact K4]. apply Forall_forall. intros m _. discriminate.
  - intros b x cmds R. destruct (tuned_reaches _ _ _ R) as (cmds0 & R0 & _ & F). apply acceptable_fine, F, acceptable_fine. exact (gf_says _ _ _ _ _ _ _ _ G0 _ _ _ R0).
  - intros b x cmds R. destruct (tuned_reaches _ _ _ R) as (cmds0 & R0 & _). destruct (gf_ends _ _ _ _ _ _ _ _ G0 _ _ _ R0) as (n & E). exists n. eapply tuned_ends; eassumption.
Qed.
Lemma tuned_faithful : faithful dict ws (prepared true fe) Some b0.
Proof. intros b x cmds R F. destruct (tuned_reaches _ _ _ R) as (cmds0 & R0 & -> & _). exact (gs_faithful _ _ _ _ _ _ _ GS _ _ _ R0 F). Qed.
End Tune.
