(** The loops of the tool over a text, for any consumer of commands that keeps an
    invariant. *)
From Coq Require Import String Ascii.
From Verif Require Import Prelude ModelMux ProofList ProofZlist ModelCdf ModelCmd ModelTool ModelText SpecText ProofText ProofText2.

(** ** Writing *)
Lemma write_all_spec : forall evs o got evs' ok, write_all o evs = (got, evs', ok) -> (good_output evs -> good_output evs') /\ (if ok then got = o else ~ good_output evs).
Proof.
  induction evs as [|e evs IH]; intros o got evs' ok E.
  - destruct o; cbn [write_all] in E; injection E as <- <- <-; auto.
  - destruct o as [|x o]; [cbn [write_all] in E; injection E as <- <- <-; auto|]. cbn [write_all] in E.
    assert (TL : good_output (e :: evs) -> good_output evs) by (intros G; unfold good_output in *; apply Forall_cons_iff in G; apply G).
    destruct e as [n| |].
    + destruct (Z.leb_spec n 0).
      * injection E as <- <- <-. split; [exact TL|]. intros G. apply Forall_inv in G. lia.
      * destruct (write_all (zskip n (x :: o)) evs) as ((g, ev), k) eqn:W. injection E as <- <- <-. destruct (IH _ _ _ _ W) as (A & B). split; [auto|]. destruct k; [subst g; apply zfirst_skip|auto].
    + destruct (IH _ _ _ _ E) as (A & B). split; [auto|]. destruct ok; auto.
    + injection E as <- <- <-. split; [exact TL|]. intros G. apply Forall_inv in G. exact G.
Qed.
Lemma put_all_spec f o f' ok : put_all f o = (f', ok) ->
  (good_output (f_evs f) -> good_output (f_evs f')) /\ (if ok then f_got f' = f_got f ++ o else ~ good_output (f_evs f)).
Proof.
  unfold put_all. destruct (write_all o (f_evs f)) as ((got, evs), k) eqn:W. intros [= <- <-]. destruct (write_all_spec _ _ _ _ _ W) as (A & B). cbn [f_evs f_got]. split; [exact A|]. destruct k; [subst got; reflexivity|exact B].
Qed.

Section Loops.
Context {P : Type} (pr : consumer P) (strict : bool).
(** [Inv cmds p T]: [cmds] are still to come, [T] has been put out; [Fin]: the same at the
    end; [Complete]: what is to be put out; [most] bounds its length *)
Context (Inv : list command -> P -> list Z -> Prop) (Fin : P -> list Z -> Prop) (Complete : list Z -> Prop) (most : Z).
Context (HT : forall cmds later p T, Inv (cmds ++ later) p T -> cmds <> [] ->
  exists o p' rest r, take pr p cmds OBUF = Some (o, p', rest, r) /\ zlen o <= OBUF /\ Inv (rest ++ later) p' (T ++ o) /\
    (r = ESuccess /\ rest = [] \/ r = ENeedOut /\ zlen o = OBUF)).
Context (HF : forall p T, Fin p T -> exists o p' r, finish pr p OBUF = Some (o, p', r) /\ zlen o <= OBUF /\
    (r = ESuccess /\ Complete (T ++ o) \/ r = ENeedOut /\ zlen o = OBUF /\ Fin p' (T ++ o))).
Context (HI : forall p T, Inv [] p T -> Fin p T).
Context (HB : forall cmds p T, Inv cmds p T -> zlen T <= most).
Context (HBF : forall p T, Fin p T -> zlen T <= most).

Lemma obuf_pos : zlen (@nil Z) < OBUF. Proof. reflexivity. Qed.
Lemma push_spec later T0 : forall n cmds p T f, Inv (cmds ++ later) p T -> f_got f = T0 ++ T -> most - zlen T < Z.of_nat n ->
  exists f' res, push_cmds pr strict n p cmds f = (f', res) /\
    ((exists p' o, res = inl p' /\ f_got f' = T0 ++ T ++ o /\ Inv later p' (T ++ o) /\ (good_output (f_evs f) -> good_output (f_evs f'))) \/
     res = inr (bad strict) /\ ~ good_output (f_evs f)).
Proof.
  induction n as [|n IH]; intros cmds p T f I G L.
  { pose proof (HB _ _ _ I). lia. }
  destruct cmds as [|c cmds].
  { exists f, (inl p). split; [reflexivity|]. left. exists p, []. rewrite !app_nil_r. cbn [app] in I. auto. }
  cbn [push_cmds]. destruct (HT _ _ _ _ I ltac:(discriminate)) as (o & p' & rest & r & E & LO & I' & K). rewrite E. destruct (Z.ltb_spec OBUF (zlen o)); [lia|]. destruct (put_all f o) as (f1, ok) eqn:W. destruct (put_all_spec _ _ _ _ W) as (W1 & W2).
  destruct K as [(-> & ->)|(-> & ZO)].
  - destruct ok; eexists _, _; (split; [reflexivity|]); [left|right; auto]. exists p', o. split; [reflexivity|]. split; [rewrite W2, G, app_assoc; reflexivity|]. split; [exact I'|exact W1].
  - pose proof obuf_pos. change (zlen (@nil Z)) with 0 in *. destruct (Z.eqb_spec (zlen o) 0); [lia|]. destruct ok; [|eexists _, _; split; [reflexivity|right; auto]].
    destruct (IH rest p' (T ++ o) f1 I' ltac:(rewrite W2, G, app_assoc; reflexivity) ltac:(rewrite zlen_app; lia)) as (f' & res & E2 & K). exists f', res. split; [exact E2|]. destruct K as [(p2 & o2 & A & B & C & D)|(A & B)]; [left|right; auto].
    exists p2, (o ++ o2). split; [exact A|]. split; [rewrite B, <- !app_assoc; reflexivity|]. split; [rewrite app_assoc; exact C|auto].
Qed.
Lemma flush_loop_spec T0 : forall n p T f, Fin p T -> f_got f = T0 ++ T -> most - zlen T < Z.of_nat n ->
  exists f' e, ir_flush pr n p f = (f', e) /\ ((exists X, e = TDone /\ f_got f' = T0 ++ X /\ Complete X) \/ e = TError /\ ~ good_output (f_evs f)).
Proof.
  induction n as [|n IH]; intros p T f I G L.
  { pose proof (HBF _ _ I). lia. }
  cbn [ir_flush]. destruct (HF _ _ I) as (o & p' & r & E & LO & K). rewrite E. destruct (Z.ltb_spec OBUF (zlen o)); [lia|]. destruct (put_all f o) as (f1, ok) eqn:W. destruct (put_all_spec _ _ _ _ W) as (W1 & W2).
  destruct K as [(-> & C)|(-> & ZO & I')].
  - destruct ok; eexists _, _; (split; [reflexivity|]); [left|right; auto]. exists (T ++ o). split; [reflexivity|]. split; [rewrite W2, G, app_assoc; reflexivity|exact C].
  - pose proof obuf_pos. change (zlen (@nil Z)) with 0 in *. destruct (Z.eqb_spec (zlen o) 0); [lia|]. destruct ok; [|eexists _, _; split; [reflexivity|right; auto]].
    destruct (IH p' (T ++ o) f1 I' ltac:(rewrite W2, G, app_assoc; reflexivity) ltac:(rewrite zlen_app; lia)) as (f' & e & E2 & K). exists f', e. split; [exact E2|]. destruct K as [K|(A & B)]; [left; exact K|right; auto].
Qed.
Lemma loop_spec T0 n cmds src : script cmds src -> forall buf p T f, Inv (buf ++ cmds) p T -> f_got f = T0 ++ T -> most < Z.of_nat n ->
  exists f' e, ir_loop pr strict n src p buf f = (f', e) /\ ((exists X, e = TDone /\ f_got f' = T0 ++ X /\ Complete X) \/ (e = TError \/ e = bad strict) /\ ~ good_output (f_evs f)).
Proof.
  induction 1 as [|cmds src SC IH|s l cmds src N PD SC IH|c s l cmds src DS PD SC IH]; intros buf p T f I G L; cbn [ir_loop].
  - pose proof (zlen_nonneg T). destruct (push_spec [] T0 n buf p T f I G ltac:(lia)) as (f1 & res & E & K). rewrite E. destruct K as [(p' & o & -> & A & B & C)|(-> & B)]; [|eexists _, _; split; [reflexivity|right; auto]].
    pose proof (zlen_nonneg (T ++ o)). destruct (flush_loop_spec T0 n p' (T ++ o) f1 (HI _ _ B) A ltac:(lia)) as (f' & e & E2 & K2). exists f', e. split; [exact E2|]. destruct K2 as [K2|(Q1 & Q2)]; [left; exact K2|right; auto].
  - apply IH with (T := T); assumption.
  - rewrite (trim_padded _ _ PD), (nothing_ok _ N). destruct (Nat.eqb (length buf) CMD_BUFFER_SIZE).
    + pose proof (zlen_nonneg T). destruct (push_spec cmds T0 n buf p T f I G ltac:(lia)) as (f1 & res & E & K). rewrite E. destruct K as [(p' & o & -> & A & B & C)|(-> & B)]; [|eexists _, _; split; [reflexivity|right; auto]].
      destruct (IH [] p' (T ++ o) f1 B A L) as (f' & e & E2 & K2). exists f', e. split; [exact E2|]. destruct K2 as [K2|(Q1 & Q2)]; [left; exact K2|right; auto].
    + apply IH with (T := T); assumption.
  - rewrite (trim_padded _ _ PD), (describes_ok _ _ DS). destruct (Nat.eqb (length buf) CMD_BUFFER_SIZE).
    + pose proof (zlen_nonneg T). destruct (push_spec (c :: cmds) T0 n buf p T f I G ltac:(lia)) as (f1 & res & E & K). rewrite E. destruct K as [(p' & o & -> & A & B & C)|(-> & B)]; [|eexists _, _; split; [reflexivity|right; auto]].
      destruct (IH [c] p' (T ++ o) f1 B A L) as (f' & e & E2 & K2). exists f', e. split; [exact E2|]. destruct K2 as [K2|(Q1 & Q2)]; [left; exact K2|right; auto].
    + apply IH with (T := T); [|exact G|exact L]. rewrite <- app_assoc. exact I.
Qed.
End Loops.

(** ** The window line *)
Lemma first_line_ok w cmds src : text w cmds src -> exists l rest, first_line src = Some (l, rest) /\ window_parse (trim l) = Some w /\ script cmds rest.
Proof.
  induction 1 as [w cmds src T (l & rest & A & B & C)|w sw more l cmds src N L W PD SC]; [exists l, rest; auto|]. exists l, src. split; [reflexivity|]. split; [|exact SC]. rewrite (trim_padded _ _ PD). unfold window_parse.
  rewrite split_head by (repeat apply Forall_cons; [a_word|exact (numeral_word _ _ N)|exact W]). sames. apply signed_ok; [exact N|change (2 ^ 31) with 2147483648 in L; lia].
Qed.
