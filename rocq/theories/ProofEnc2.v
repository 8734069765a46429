(** The compressor follows the reference encoder of SpecCodec, whatever the sizes of the
    output buffers. *)
From Verif Require Import Prelude ProofList ModelAns SpecAns ProofAns ProofAnsRt ModelCdf SpecCdf ProofCdf ThmCdf ModelMux SpecMux ProofZlist ProofMux ProofMuxW ModelCmd ModelRecode ModelPriors ModelCodec ModelLit ModelPm ModelTop SpecCodec ModelEnc ProofCodecInv ProofCodecInv2 ProofRun ProofCopy ProofTop ProofEnc.

Definition einv (es : list ev) : eparts -> list Z -> Prop := pinv (fun st e mv => est e mv (sfs_of st es)).
Lemma einv_new : einv [] eparts_new [].
Proof. exists (fun _ => []). split; [apply minv_new|]. intros []; apply est_new. Qed.
Lemma edrain es l p out room : einv es p out -> 0 <= room ->
  exists o p' ok, drain_list l p room = Some (o, p', ok) /\ einv es p' (out ++ o) /\ zlen o <= room /\
    (ok = true -> forall st, In (st, true) l -> content (q (coder p' st)) = []) /\ (ok = false -> zlen o = room) /\
    (forall t, content (q (coder p t)) = [] -> content (q (coder p' t)) = []).
Proof.
  intros I R. apply (drain_list_spec (fun st e mv => est e mv (sfs_of st es))); auto.
  - intros st. apply est_pop.
  - intros st e mv H. apply H.
Qed.
Lemma eput es p out st d v : einv es p out -> content (q (coder p st)) = [] -> codable d -> nibble v ->
  exists p', put_nibble p st d v = Some p' /\ einv (es ++ [Ev st d v]) p' out.
Proof.
  intros (mv & M & C) Q CD N. unfold put_nibble. pose proof (interval_legal d v CD N) as L. destruct (ref_interval d v) as (s, f) eqn:RI. cbn [fst snd] in L.
  destruct (est_put _ _ _ s f (C st) Q L) as (e' & E & ES). rewrite E. cbn [bind]. eexists. split; [reflexivity|]. exists mv. split; [destruct st; exact M|].
  intros t. rewrite sfs_of_app. destruct st, t; cbn [coder set_coder x_cmd x_lit sidx];
    unfold sfs_of at 2; cbn [filter on e_st map e_cdf e_val]; rewrite ?RI, ?app_nil_r; solve [exact ES|apply (C CMD)|apply (C LIT)].
Qed.

Lemma code_cmd b c bl ix sp {S} (k : bk -> Z -> outcome S) st d k' : code b c bl ix sp k = Code st d k' -> st = CMD.
Proof. unfold code. destruct (prior_index c bl ix); [intros [= <- _ _]; reflexivity|discriminate]. Qed.
Lemma map_code {A B} (f : A -> B) d n st c k : map_node f d n = Code st c k -> exists k', n = Code st c k'.
Proof. destruct n; cbn [map_node]; [intros [= -> -> _]; eauto|discriminate..]. Qed.
Lemma nibble_lit mix l high cp {S} (k : lbk -> Z -> outcome S) st d k' : code_nibble mix l high cp k = Code st d k' -> st = LIT.
Proof.
  unfold code_nibble. destruct (mm_opts_of l high cp); [|discriminate]. destruct (prior_index _ _ _); [|discriminate].
  destruct (negb mix); [intros [= <- _ _]; reflexivity|].
  destruct (if high then _ else _); [intros [= <- _ _]; reflexivity|discriminate].
Qed.
Lemma btype_cmd i b s st d k : btype_node i b s = Code st d k -> st = CMD.
Proof. destruct s; cbn [btype_node]; try discriminate; apply code_cmd. Qed.
(** a state that codes a nibble drains that nibble's coder first *)
Lemma coded_drains {R} (RR : replayer R) wl D c st d k : top_node RR wl D c = NCode st d k -> In (st, true) (drains (k_st c)).
Proof.
  destruct c as [b l mx pm r t]. unfold top_node. cbn [k_bk k_lbk k_mix k_pm k_rec k_st].
  assert (LI : forall A (f : A -> codec R) o (n : node A), lift f o n = NCode st d k -> exists k', n = Code st d k').
  { intros A f o n. unfold lift. destruct (map_node f o n) eqn:E; try discriminate. intros [= -> -> _]. eapply map_code; exact E. }
  destruct t as [|s|s|s|s|s|s|u|cm|].
  - destruct (code b CcP FullSelection _ _ _) eqn:E; try discriminate. intros [= -> _ _]. rewrite (code_cmd _ _ _ _ _ _ _ _ _ E). left. reflexivity.
  - intros H. apply LI in H. destruct H as (k' & H). unfold lit_node in H. cbn [drains].
    destruct (l_sub s); try discriminate; try (apply code_cmd in H; subst st; left; reflexivity); apply nibble_lit in H; subst st; right; left; reflexivity.
  - intros H. apply LI in H. destruct H as (k' & H). unfold dict_node in H. cbn [drains].
    destruct (d_sub s); try discriminate; apply code_cmd in H; subst st; left; reflexivity.
  - intros H. apply LI in H. destruct H as (k' & H). unfold copy_node in H. cbn [drains].
    destruct (c_sub s); try discriminate; apply code_cmd in H; subst st; left; reflexivity.
  - destruct s as [|u|t|t u]; cbn [drains]; try discriminate; intros H; apply LI in H; destruct H as (k' & H); cbn [lbtype_node] in H; try discriminate.
    + destruct u; try discriminate; apply map_code in H; destruct H as (k2 & H); apply btype_cmd in H; subst st; left; reflexivity.
    + apply code_cmd in H. subst st. left. reflexivity.
  - destruct s as [| |u|u]; cbn [drains]; try discriminate; intros H; apply LI in H; destruct H as (k' & H); apply btype_cmd in H; subst st; left; reflexivity.
  - destruct s as [| |u|u]; cbn [drains]; try discriminate; intros H; apply LI in H; destruct H as (k' & H); apply btype_cmd in H; subst st; left; reflexivity.
  - destruct u; try (intros H; apply LI in H; destruct H as (k' & H); cbn [pm_node] in H; apply code_cmd in H; subst st; left; reflexivity).
    destruct (obs_prediction_mode l pm); discriminate.
  - destruct (rpop RR r cm); discriminate.
  - discriminate.
Qed.
Lemma advance_begin {R} (RR : replayer R) wl D c c' x : top_node RR wl D c = NAdvance c' x -> k_st c' = TBegin.
Proof.
  destruct c as [b l mx pm r t]. unfold top_node. cbn [k_bk k_lbk k_mix k_pm k_rec k_st].
  assert (LI : forall A (f : A -> codec R) o (n : node A), lift f o n <> NAdvance c' x).
  { intros A f o n. unfold lift. destruct (map_node f o n); discriminate. }
  destruct t as [|s|s|s|s|s|s|u|cm|]; try (intros H; exfalso; exact (LI _ _ _ _ H)).
  - destruct (code b CcP FullSelection _ _ _); discriminate.
  - destruct s; try (intros H; exfalso; exact (LI _ _ _ _ H)). intros [= <- _]. reflexivity.
  - destruct s; try (intros H; exfalso; exact (LI _ _ _ _ H)). intros [= <- _]. reflexivity.
  - destruct s; try (intros H; exfalso; exact (LI _ _ _ _ H)). intros [= <- _]. reflexivity.
  - destruct u; try (intros H; exfalso; exact (LI _ _ _ _ H)). destruct (obs_prediction_mode l pm); try discriminate. intros [= <- _]. reflexivity.
  - destruct (rpop RR r cm); try discriminate. intros [= <- _]. reflexivity.
  - discriminate.
Qed.

Section Run.
Context (dict : dict_fn) (wl : word_len_fn) (D : dims) (g : cfg).
Let RR := rcs_replayer dict.

(** ** One command *)
Definition follows (fuel : nat) cmd is_end c' x (es : list ev) (es0 : list ev) (out : list Z) (room : Z) (t : list Z * codec rcs * eparts * one_res) : Prop :=
  let '(o, c1, p1, r) := t in
  zlen o <= room /\ exists es1 es2, es = es1 ++ es2 /\ einv (es0 ++ es1) p1 (out ++ o) /\
    ((exists y, x = Some y /\ r = Advanced /\ c1 = c' /\ es2 = [] /\ k_st c' = TBegin) \/
     (x = None /\ r = Ended /\ c1 = c' /\ es2 = []) \/
     (r = NeedOut /\ zlen o = room /\ enc_cmd RR wl D fuel g cmd is_end c1 = Some (c', x, es2))).
Lemma one_command_spec cmd is_end : forall fuel F c c' x es es0 p out room,
  enc_cmd RR wl D fuel g cmd is_end c = Some (c', x, es) -> (fuel <= F)%nat -> writable es -> einv es0 p out -> 0 <= room ->
  exists t, one_command dict wl D g F cmd is_end c p room = Some t /\ follows fuel cmd is_end c' x es es0 out room t.
Proof.
  induction fuel as [|fuel IH]; intros F c c' x es es0 p out room E LE W I R; [discriminate|].
  destruct F as [|F]; [lia|]. pose proof E as E0. cbn [enc_cmd] in E. cbn [one_command]. fold RR.
  destruct (top_want g cmd is_end c) as [v| |] eqn:TW; try discriminate.
  destruct (edrain es0 (drains (k_st c)) p out room I R) as (o & p1 & ok & DE & I1 & L1 & A1 & A2 & _). rewrite DE. cbn [bind].
  destruct ok; cbn [negb]; cycle 1.
  { eexists. split; [reflexivity|]. split; [exact L1|]. exists [], es. rewrite app_nil_r. split; [reflexivity|]. split; [exact I1|].
    right. right. split; [reflexivity|]. split; [auto|exact E0]. }
  specialize (A1 eq_refl). clear A2.
  (* a tail of the run after this drain *)
  assert (TAIL : forall c1 es1 p2 esH, enc_cmd RR wl D fuel g cmd is_end c1 = Some (c', x, es1) -> einv (es0 ++ esH) p2 (out ++ o) -> es = esH ++ es1 ->
    exists t, (let? '(o2, c, p, r) := one_command dict wl D g F cmd is_end c1 p2 (room - zlen o) in Some (o ++ o2, c, p, r)) = Some t /\ follows (S fuel) cmd is_end c' x es es0 out room t).
  { intros c1 es1 p2 esH E1 I2 ->. unfold writable in W. apply Forall_app in W. destruct W as (_ & W).
    destruct (IH F c1 c' x es1 (es0 ++ esH) p2 (out ++ o) (room - zlen o) E1 ltac:(lia) W I2 ltac:(lia)) as ([[[o2 c2] p3] r] & T & FL).
    rewrite T. cbn [bind]. eexists. split; [reflexivity|]. destruct FL as (L2 & a & b & -> & I3 & K). unfold follows. rewrite zlen_app. split; [lia|].
    exists (esH ++ a), b. rewrite <- app_assoc. split; [reflexivity|]. split; [rewrite (app_assoc es0), (app_assoc out); exact I3|].
    destruct K as [K|[K|(K1 & K2 & K3)]]; [left; exact K|right; left; exact K|right; right]. split; [exact K1|]. split; [lia|]. apply (enc_mono RR wl D g cmd is_end fuel (S fuel)); [exact K3|lia]. }
  destruct (top_node RR wl D c) as [st d k|oc|c1 y|] eqn:TN.
  - destruct ((0 <=? v) && (v <? 16)) eqn:NV; [|discriminate]. destruct (k v) as [c1|e|] eqn:KV; try discriminate.
    destruct (enc_cmd RR wl D fuel g cmd is_end c1) as [[[c2 x2] es2]|] eqn:E1; [|discriminate]. cbn [bind] in E. injection E as <- <- <-.
    assert (N : nibble v) by (unfold nibble; lia). pose proof (Forall_inv W) as (CD & _). cbn [e_cdf] in CD.
    destruct (eput es0 p1 (out ++ o) st d v I1 (A1 st (coded_drains RR wl D c st d k TN)) CD N) as (p2 & PE & I2). rewrite PE. cbn [bind].
    apply (TAIL c1 es2 p2 [Ev st d v]); auto.
  - destruct oc as [c1|e|]; try discriminate. apply (TAIL c1 es p1 []); [exact E|rewrite app_nil_r; exact I1|reflexivity].
  - injection E as <- <- <-. eexists. split; [reflexivity|]. split; [exact L1|]. exists [], []. split; [reflexivity|]. split; [rewrite app_nil_r; exact I1|]. left. exists y. repeat split. apply (advance_begin RR wl D c c1 y TN).
  - injection E as <- <- <-. eexists. split; [reflexivity|]. split; [exact L1|]. exists [], []. split; [reflexivity|]. split; [rewrite app_nil_r; exact I1|]. right. left. auto.
Qed.

(** ** A list of commands; [todo] are later commands (not in this call) *)
Definition todo fuel cmds c (es : list ev) : Prop := exists cf xs, enc_all RR wl D fuel g cmds c = Some (cf, xs, es).
Lemma run_commands_spec : forall cmds fuel F later c es es0 p out room,
  cmds <> [] -> todo fuel (cmds ++ later) c es -> (fuel <= F)%nat -> writable es -> einv es0 p out -> 0 <= room ->
  exists o c1 p1 rest r, run_commands dict wl D g F cmds c p room = Some (o, c1, p1, rest, r) /\ zlen o <= room /\
    exists es1 es2, es = es1 ++ es2 /\ einv (es0 ++ es1) p1 (out ++ o) /\ todo fuel (rest ++ later) c1 es2 /\
      ((r = RNeedsMoreInput /\ rest = [] /\ k_st c1 = TBegin) \/ (r = RNeedsMoreOutput /\ zlen o = room /\ rest <> [])).
Proof.
  induction cmds as [|cmd cmds IH]; intros fuel F later c es es0 p out room NE (cf & xs & T) LE W I R; [contradiction|].
  cbn [app enc_all] in T. destruct (enc_cmd RR wl D fuel g cmd false c) as [[[c1 x] e1]|] eqn:E1; [|discriminate].
  destruct x as [x|]; [|discriminate].
  destruct (enc_all RR wl D fuel g (cmds ++ later) c1) as [[[c2 xs2] e2]|] eqn:E2; [|discriminate]. cbn [bind] in T. injection T as <- <- <-.
  unfold writable in W. apply Forall_app in W. destruct W as (W1 & W2). cbn [run_commands].
  destruct (one_command_spec cmd false fuel F c c1 (Some x) e1 es0 p out room E1 LE W1 I R) as ([[[o c3] p3] r] & O & FL). rewrite O. cbn [bind].
  destruct FL as (L1 & a & b & -> & I1 & K). destruct K as [(y & [= <-] & -> & -> & -> & TB)|[(X & _)|(-> & ZL & E3)]]; [|discriminate|].
  - rewrite app_nil_r. destruct cmds as [|cmd2 cmds].
    + exists o, c1, p3, [], RNeedsMoreInput. split; [reflexivity|]. split; [exact L1|]. exists a, e2. split; [reflexivity|]. split; [exact I1|]. split; [exists c2, xs2; exact E2|]. left. auto.
    + destruct (IH fuel F later c1 e2 (es0 ++ a) p3 (out ++ o) (room - zlen o) ltac:(discriminate) ltac:(exists c2, xs2; exact E2) LE W2 I1 ltac:(lia)) as (o2 & c4 & p4 & rest & r & RE & L2 & a2 & b2 & -> & I2 & TD & K).
      rewrite RE. cbn [bind]. exists (o ++ o2), c4, p4, rest, r. split; [reflexivity|]. rewrite zlen_app. split; [lia|]. exists (a ++ a2), b2.
      split; [rewrite app_assoc; reflexivity|]. split; [rewrite (app_assoc es0), (app_assoc out); exact I2|]. split; [exact TD|].
      destruct K as [K|(K1 & K2 & K3)]; [left; exact K|right]. split; [exact K1|]. split; [lia|exact K3].
  - exists o, c3, p3, (cmd :: cmds), RNeedsMoreOutput. split; [reflexivity|]. split; [exact L1|]. exists a, (b ++ e2). split; [rewrite app_assoc; reflexivity|].
    split; [exact I1|]. split; [|right; auto; repeat split; auto; discriminate]. exists c2, (x :: xs2). cbn [app enc_all]. rewrite E3, E2. cbn [bind]. reflexivity.
Qed.
End Run.
