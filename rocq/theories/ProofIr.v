(** Proofs about the command optimiser (C41). *)
From Verif Require Import Prelude ModelMux ModelCmd ModelRecode SpecLz ModelIr SpecIr ProofList.

Lemma copied_length d n : forall h, length (copied h d n) = n.
Proof. induction n as [|n IH]; intros h; cbn [copied length]; [reflexivity|rewrite IH; reflexivity]. Qed.
Lemma upd_app {A} (a : list A) x y b : upd (a ++ x :: b) (length a) y = a ++ y :: b.
Proof.
  unfold upd. rewrite firstn_app, Nat.sub_diag, firstn_all. cbn [firstn]. rewrite app_nil_r. f_equal. f_equal.
  rewrite skipn_app, skipn_all2 by lia. replace (S (length a) - length a)%nat with 1%nat by lia. reflexivity.
Qed.
Lemma nth_error_mid {A} (a : list A) x b : nth_error (a ++ x :: b) (length a) = Some x.
Proof. rewrite nth_error_app2, Nat.sub_diag by lia. reflexivity. Qed.

(** ** compaction is a filter *)
Lemma compact_filter : forall n l el index,
  (el <= index)%nat -> (index + n = length l)%nat ->
  let '(l', el') := ir_compact n l el index in
  firstn el' l' = firstn el l ++ filter (fun c => negb (is_empty_copy c)) (skipn index l).
Proof.
  induction n as [|n IH]; intros l el index H1 H2; cbn [ir_compact].
  - rewrite skipn_all2 by lia. cbn [filter]. rewrite app_nil_r. reflexivity.
  - destruct (nth_error l index) as [c|] eqn:E.
    2: { apply nth_error_None in E. lia. }
    assert (S1 : skipn index l = c :: skipn (S index) l).
    { clear -E. revert index E. induction l as [|a l IH]; intros [|i] E; cbn in *; try congruence. apply IH; exact E. }
    rewrite S1. cbn [filter]. destruct (is_empty_copy c) eqn:Ec; cbn [negb].
    + apply (IH l el (S index)); lia.
    + assert (L : length (upd l el c) = length l).
      { unfold upd. rewrite app_length, firstn_length. cbn [length]. rewrite skipn_length. lia. }
      assert (E2 := IH (upd l el c) (S el) (S index) ltac:(lia) ltac:(lia)).
      destruct (ir_compact n (upd l el c) (S el) (S index)) as [l' el']. rewrite E2.
      assert (F : firstn (S el) (upd l el c) = firstn el l ++ [c]).
      { unfold upd. rewrite firstn_app, firstn_length. replace (S el - min el (length l))%nat with 1%nat by lia.
        rewrite firstn_all2 by (rewrite firstn_length; lia). reflexivity. }
      assert (G : skipn (S index) (upd l el c) = skipn (S index) l).
      { unfold upd. rewrite skipn_app, firstn_length, skipn_all2 by (rewrite firstn_length; lia).
        replace (S index - min el (length l))%nat with (S (index - el))%nat by lia. cbn [app]. rewrite skipn_cons.
        rewrite skipn_skipn. f_equal. lia. }
      rewrite F, G, <- app_assoc. reflexivity.
Qed.

Section Ir.
Context (dict : dict_fn) (inp : list Z).
Notation m1 h c := (meaning1 dict h (thaw inp c)).
Notation mean h l := (ir_meaning dict inp h l).

Definition piece (pos : Z) (x : list Z) : Prop := x = firstn (length x) (skipn (Z.to_nat pos) inp).
Fixpoint good (pos : Z) (h : list Z) (l : list icmd) : Prop :=
  match l with
  | [] => True
  | c :: l =>
      let x := m1 h c in
      match c with
      | ILit off len _ => off = pos /\ 0 <= len /\ off + len <= zlen inp
      | IOther (Copy _ n) => 0 <= n
      | IOther (Literal _ _) => False
      | _ => True
      end /\ piece pos x /\ good (pos + zlen x) (h ++ x) l
  end.

Lemma mean_cons h c l : mean h (c :: l) = m1 h c ++ mean (h ++ m1 h c) l.
Proof. reflexivity. Qed.
Lemma mean_app l1 : forall h l2, mean h (l1 ++ l2) = mean h l1 ++ mean (h ++ mean h l1) l2.
Proof.
  induction l1 as [|c l1 IH]; intros h l2.
  - cbn [app]. change (mean h []) with (@nil Z). rewrite app_nil_r. reflexivity.
  - cbn [app]. rewrite !mean_cons, IH, <- !app_assoc. reflexivity.
Qed.
Lemma zlen_app' {A} (a b : list A) : zlen (a ++ b) = zlen a + zlen b.
Proof. unfold zlen. rewrite app_length. lia. Qed.
Lemma good_app l1 : forall pos h l2,
  good pos h (l1 ++ l2) <-> good pos h l1 /\ good (pos + zlen (mean h l1)) (h ++ mean h l1) l2.
Proof.
  induction l1 as [|c l1 IH]; intros pos h l2.
  - cbn [app good]. change (mean h []) with (@nil Z). rewrite app_nil_r. change (zlen (@nil Z)) with 0. rewrite Z.add_0_r. tauto.
  - cbn [app good]. rewrite mean_cons, zlen_app', app_assoc, Z.add_assoc. cbv zeta. rewrite IH. tauto.
Qed.
Lemma marks_app l1 : forall h l2 k,
  marks dict inp h (l1 ++ l2) k = marks dict inp h l1 k ++ marks dict inp (h ++ mean h l1) l2 (k + zlen (mean h l1)).
Proof.
  induction l1 as [|c l1 IH]; intros h l2 k.
  - cbn [app marks]. change (mean h []) with (@nil Z). rewrite app_nil_r. change (zlen (@nil Z)) with 0. rewrite Z.add_0_r. reflexivity.
  - cbn [app marks]. rewrite mean_cons, zlen_app', app_assoc, Z.add_assoc. cbv zeta. rewrite IH.
    destruct c as [| [] ]; reflexivity.
Qed.

(** two tails with the same effect *)
Definition same (t t' : list icmd) : Prop :=
  forall pos h, 0 <= pos -> good pos h t ->
    good pos h t' /\ mean h t' = mean h t /\ forall k, marks dict inp h t' k = marks dict inp h t k.
Lemma same_app d t t' : same t t' -> same (d ++ t) (d ++ t').
Proof.
  intros H pos h P G. rewrite good_app in G. destruct G as [G1 G2].
  destruct (H (pos + zlen (mean h d)) (h ++ mean h d)) as (A & B & C); [unfold zlen; lia|exact G2|].
  split; [rewrite good_app; auto|]. split; [rewrite !mean_app, B; reflexivity|].
  intros k. rewrite !marks_app, C. reflexivity.
Qed.
Lemma m1_empty h c : is_empty_copy c = true -> m1 h c = [].
Proof.
  destruct c as [|[]]; cbn [is_empty_copy]; try discriminate. intros E. apply Z.eqb_eq in E. subst. reflexivity.
Qed.
Lemma marks_empty c h l k : is_empty_copy c = true -> marks dict inp h (c :: l) k = marks dict inp h l k.
Proof.
  intros E. cbn [marks]. cbv zeta. rewrite (m1_empty h c E), app_nil_r. change (zlen (@nil Z)) with 0. rewrite Z.add_0_r.
  destruct c as [|[]]; try discriminate E. reflexivity.
Qed.
Lemma same_filter l : same l (filter (fun c => negb (is_empty_copy c)) l).
Proof.
  induction l as [|c l IH]; intros pos h P G.
  - cbn. auto.
  - cbn [good] in G. cbv zeta in G. destruct G as (G1 & G2 & G3). cbn [filter].
    destruct (IH (pos + zlen (m1 h c)) (h ++ m1 h c)) as (A & B & C); [unfold zlen; lia|exact G3|].
    destruct (is_empty_copy c) eqn:E; cbn [negb].
    + rewrite (m1_empty h c E), app_nil_r in A, B, C. change (zlen (@nil Z)) with 0 in A, C. rewrite Z.add_0_r in A.
      split; [exact A|]. split; [rewrite mean_cons, (m1_empty h c E), app_nil_r; exact B|].
      intros k. rewrite (marks_empty c h l k E). apply C.
    + split; [cbn [good]; auto|]. split; [rewrite !mean_cons, B; reflexivity|].
      intros k. cbn [marks]. cbv zeta. rewrite C. reflexivity.
Qed.
Lemma mean_nops nops : Forall (fun c => is_empty_copy c = true) nops -> forall h, mean h nops = [].
Proof.
  induction 1 as [|c l E H IH]; intros h; [reflexivity|]. rewrite mean_cons, (m1_empty h c E), app_nil_r. apply IH.
Qed.
Lemma marks_nops nops : Forall (fun c => is_empty_copy c = true) nops -> forall h k, marks dict inp h nops k = [].
Proof.
  induction 1 as [|c l E H IH]; intros h k; [reflexivity|]. rewrite marks_empty by exact E. apply IH.
Qed.
Lemma good_nops nops : Forall (fun c => is_empty_copy c = true) nops -> forall pos h, good pos h nops.
Proof.
  induction 1 as [|c l E H IH]; intros pos h; [exact I|]. cbn [good]. cbv zeta.
  rewrite (m1_empty h c E). split; [|split; [reflexivity|apply IH]].
  destruct c as [|[]]; try discriminate E. cbn in E. lia.
Qed.

Lemma slice_len n off : 0 <= n -> 0 <= off -> off + n <= zlen inp ->
  length (firstn (Z.to_nat n) (skipn (Z.to_nat off) inp)) = Z.to_nat n.
Proof. unfold zlen. intros. rewrite firstn_length, skipn_length. lia. Qed.
Lemma slice_app n m off : 0 <= n -> 0 <= m -> 0 <= off -> off + n <= zlen inp ->
  firstn (Z.to_nat n) (skipn (Z.to_nat off) inp) ++ firstn (Z.to_nat m) (skipn (Z.to_nat (off + n)) inp)
  = firstn (Z.to_nat (n + m)) (skipn (Z.to_nat off) inp).
Proof.
  intros. rewrite !Z2Nat.inj_add by lia. rewrite <- (firstn_skipn (Z.to_nat n) (skipn (Z.to_nat off) inp)) at 2.
  rewrite firstn_app. rewrite (slice_len n off) by lia.
  rewrite (firstn_all2 (n := (Z.to_nat n + Z.to_nat m)%nat)) by (rewrite slice_len by lia; lia).
  f_equal. replace (Z.to_nat n + Z.to_nat m - Z.to_nat n)%nat with (Z.to_nat m) by lia. f_equal.
  rewrite skipn_skipn. reflexivity.
Qed.

(** the merge: [X] produces the [m] bytes of the input that follow *)
Lemma same_merge off n he nops X m rest :
  Forall (fun c => is_empty_copy c = true) nops ->
  0 <= m ->
  (forall h, good (off + n) h [X] -> zlen (m1 h X) = m) ->
  match X with ILit _ _ _ | IOther (Copy _ _) => True | _ => False end ->
  same (ILit off n he :: nops ++ X :: rest) (ILit off (n + m) he :: nops ++ nop_copy :: rest).
Proof.
  intros Hn M HX K pos h P G. cbn [good] in G. cbv zeta in G. cbn [thaw meaning1] in G.
  destruct G as ((-> & N & B) & _ & G).
  set (a := firstn (Z.to_nat n) (skipn (Z.to_nat pos) inp)) in *.
  assert (La : zlen a = n) by (unfold zlen, a; rewrite slice_len by lia; lia).
  rewrite La in G. rewrite good_app in G. destruct G as [_ G].
  rewrite (mean_nops nops Hn), app_nil_r in G. change (zlen (@nil Z)) with 0 in G. rewrite Z.add_0_r in G.
  pose proof G as G0. cbn [good] in G. cbv zeta in G. destruct G as (G1 & G2 & G3).
  assert (Lx : zlen (m1 (h ++ a) X) = m).
  { apply HX. cbn [good]. cbv zeta. auto. }
  set (x := m1 (h ++ a) X) in *.
  assert (Ex : x = firstn (Z.to_nat m) (skipn (Z.to_nat (pos + n)) inp)).
  { rewrite G2 at 1. f_equal. unfold zlen in Lx. lia. }
  assert (Bx : pos + n + m <= zlen inp).
  { pose proof (f_equal (@length Z) Ex) as E. rewrite firstn_length, skipn_length in E. unfold zlen in *. lia. }
  assert (Eb : firstn (Z.to_nat (n + m)) (skipn (Z.to_nat pos) inp) = a ++ x).
  { rewrite Ex. unfold a. rewrite slice_app by lia. reflexivity. }
  assert (Lab : zlen (a ++ x) = n + m) by (rewrite zlen_app'; lia).
  split; [|split].
  - cbn [good]. cbv zeta. cbn [thaw meaning1]. rewrite Eb, Lab. split; [lia|]. split.
    + unfold piece. rewrite <- Eb. f_equal. rewrite slice_len by lia. reflexivity.
    + rewrite good_app. split; [apply good_nops; exact Hn|].
      rewrite (mean_nops nops Hn), app_nil_r. change (zlen (@nil Z)) with 0. rewrite Z.add_0_r.
      cbn [good]. cbv zeta. rewrite (m1_empty _ nop_copy eq_refl), app_nil_r. change (zlen (@nil Z)) with 0. rewrite Z.add_0_r.
      split; [apply Z.le_refl|]. split; [reflexivity|]. rewrite app_assoc, Z.add_assoc. rewrite Lx in G3. exact G3.
  - rewrite !mean_cons. cbn [thaw meaning1]. rewrite Eb. fold a. rewrite !mean_app, (mean_nops nops Hn), !(mean_nops nops Hn), !app_nil_r. cbn [app].
    rewrite !mean_cons. rewrite (m1_empty _ nop_copy eq_refl), app_nil_r. cbn [app]. fold x. rewrite <- !app_assoc. reflexivity.
  - intros k. cbn [marks]. cbv zeta. cbn [thaw meaning1]. rewrite Eb. fold a.
    rewrite !marks_app, !(marks_nops nops Hn), !(mean_nops nops Hn), !app_nil_r. change (zlen (@nil Z)) with 0. rewrite !Z.add_0_r. cbn [app].
    rewrite (marks_empty nop_copy _ _ _ eq_refl). rewrite La, Lab, app_assoc.
    cbn [marks]. cbv zeta. fold x. rewrite Lx.
    destruct X as [|[]]; try contradiction; rewrite Z.add_assoc; reflexivity.
Qed.

Section Loop.
Context (b : Z) (merge : nat -> option bool) (trial : nat -> bool).
Definition shape (l : list icmd) (el index : nat) : Prop :=
  exists d e nops rest, l = d ++ e :: nops ++ rest /\ el = length d /\
    index = (length d + 1 + length nops)%nat /\ Forall (fun c => is_empty_copy c = true) nops.
Lemma same_refl l : same l l.
Proof. intros pos h P G. auto. Qed.
Lemma same_trans l1 l2 l3 : same l1 l2 -> same l2 l3 -> same l1 l3.
Proof.
  intros H1 H2 pos h P G. destruct (H1 pos h P G) as (A & B & C). destruct (H2 pos h P A) as (A' & B' & C').
  split; [exact A'|]. split; [congruence|]. intros k. rewrite C'. apply C.
Qed.

Lemma unsplit_sub l l' : (forall off len he, In (ILit off len he) l' -> In (ILit off len he) l \/ ~ (off < b < off + len)) ->
  unsplit b l -> unsplit b l'.
Proof. intros H U off len he I. destruct (H off len he I) as [J|J]; [eapply U; eauto|exact J]. Qed.

Lemma good_at d t pos h : 0 <= pos -> good pos h (d ++ t) -> exists p h', 0 <= p /\ good p h' t.
Proof. intros P G. rewrite good_app in G. destruct G as [_ G]. do 2 eexists. split; [|exact G]. unfold zlen. lia. Qed.

Lemma step_ok l el index pos h : shape l el index -> (index < length l)%nat -> 0 <= pos -> good pos h l ->
  match ir_step b merge trial l el index with
  | IrOk (l', el') => shape l' el' (S index) /\ length l' = length l /\ same l l' /\ (unsplit b l -> unsplit b l')
  | IrErr => True
  | IrPanic => False
  end.
Proof.
  intros (d & e & nops & rest & -> & -> & -> & Hn) Lt P G.
  destruct rest as [|X rest]; [rewrite !app_length in Lt; cbn [length] in Lt; rewrite app_length in Lt; cbn [length] in Lt; lia|].
  unfold ir_step. rewrite nth_error_mid.
  assert (Ei : d ++ e :: nops ++ X :: rest = (d ++ e :: nops) ++ X :: rest) by (rewrite <- app_assoc; reflexivity).
  assert (Li : (length d + 1 + length nops)%nat = length (d ++ e :: nops)) by (rewrite app_length; cbn [length]; lia).
  rewrite Li. replace (nth_error (d ++ e :: nops ++ X :: rest) (length (d ++ e :: nops))) with (Some X) by (rewrite Ei, nth_error_mid; reflexivity). cbv zeta.
  assert (STEP : match (if trial (length (d ++ e :: nops)) then IrOk (d ++ e :: nops ++ X :: rest, length (d ++ e :: nops)) else IrErr) with
    | IrOk (l', el') => shape l' el' (S (length (d ++ e :: nops))) /\ length l' = length (d ++ e :: nops ++ X :: rest) /\
        same (d ++ e :: nops ++ X :: rest) l' /\ (unsplit b (d ++ e :: nops ++ X :: rest) -> unsplit b l')
    | IrErr => True | IrPanic => False end).
  { destruct (trial _); [|exact I]. split; [|split; [reflexivity|split; [apply same_refl|auto]]].
    exists (d ++ e :: nops), X, [], rest. rewrite Ei. split; [reflexivity|]. split; [reflexivity|]. split; [cbn [length]; lia|constructor]. }
  assert (MERGE : forall off n he m, e = ILit off n he -> 0 <= m ->
    (forall h, good (off + n) h [X] -> zlen (m1 h X) = m) ->
    match X with ILit _ _ _ | IOther (Copy _ _) => True | _ => False end ->
    ~ (off < b < off + n + m) ->
    let l' := upd (upd (d ++ e :: nops ++ X :: rest) (length d) (ILit off (n + m) he)) (length (d ++ e :: nops)) nop_copy in
    shape l' (length d) (S (length (d ++ e :: nops))) /\ length l' = length (d ++ e :: nops ++ X :: rest) /\
        same (d ++ e :: nops ++ X :: rest) l' /\ (unsplit b (d ++ e :: nops ++ X :: rest) -> unsplit b l')).
  { intros off n he m -> M HX K Nb l'.
    assert (El : l' = d ++ ILit off (n + m) he :: nops ++ nop_copy :: rest).
    { unfold l'. rewrite upd_app.
      replace (d ++ ILit off (n + m) he :: nops ++ X :: rest) with ((d ++ ILit off (n + m) he :: nops) ++ X :: rest) by (rewrite <- app_assoc; reflexivity).
      replace (length (d ++ ILit off n he :: nops)) with (length (d ++ ILit off (n + m) he :: nops)) by (rewrite !app_length; reflexivity).
      rewrite upd_app, <- app_assoc. reflexivity. }
    rewrite El. split; [|split; [|split]].
    - exists d, (ILit off (n + m) he), (nops ++ [nop_copy]), rest. split; [rewrite <- app_assoc; reflexivity|]. split; [reflexivity|].
      split; [rewrite !app_length; cbn [length]; lia|]. apply Forall_app. split; [exact Hn|]. apply Forall_cons; [reflexivity|constructor].
    - rewrite !app_length. cbn [length]. rewrite !app_length. reflexivity.
    - apply same_app, same_merge; auto.
    - apply unsplit_sub. intros o2 n2 h2 J. apply in_app_iff in J. cbn [In] in J. rewrite in_app_iff in J. cbn [In] in J.
      destruct J as [J|[J|[J|[J|J]]]].
      + left. apply in_app_iff. auto.
      + injection J as <- <- <-. right. lia.
      + left. apply in_app_iff. right. right. apply in_app_iff. auto.
      + discriminate J.
      + left. apply in_app_iff. right. right. apply in_app_iff. right. right. exact J. }
  destruct e as [off n he|ce]; [|exact STEP].
  destruct (good_at _ _ _ _ P G) as (p & h' & P' & G').
  pose proof G' as G1. cbn [good] in G1. cbv zeta in G1. destruct G1 as ((E1 & N1 & B1) & _ & G1). subst p.
  assert (La : zlen (m1 h' (ILit off n he)) = n).
  { cbn [thaw meaning1]. unfold zlen. rewrite slice_len by lia. lia. }
  rewrite La in G1. rewrite good_app in G1. destruct G1 as [_ G1].
  rewrite (mean_nops nops Hn) in G1. change (zlen (@nil Z)) with 0 in G1. rewrite Z.add_0_r in G1.
  destruct X as [off' len' he'|cx].
  - destruct ((off <? b) && (b <? off + n + len')) eqn:Eb; [exact STEP|].
    cbn [good] in G1. cbv zeta in G1. destruct G1 as ((E1 & N2 & B2) & _ & _). subst off'.
    rewrite Z.eqb_refl. apply (MERGE off n he len'); auto; [|lia].
    intros h2 G2. cbn [good] in G2. cbv zeta in G2. cbn [thaw meaning1]. unfold zlen. rewrite slice_len by lia. lia.
  - destruct cx as [dist m| | | | | |]; try exact STEP.
    destruct (merge _) as [mm|]; [|exact I].
    destruct (mm && negb ((off <? b) && (b <? off + n + m))) eqn:Em; [|exact STEP].
    cbn [good] in G1. cbv zeta in G1. destruct G1 as (N2 & _ & _).
    apply (MERGE off n he m); auto.
    + intros h2 G2. cbn [thaw meaning1]. unfold zlen. rewrite copied_length. lia.
    + lia.
Qed.

Lemma loop_ok n : forall l el index pos h, shape l el index -> (index + n <= length l)%nat -> 0 <= pos -> good pos h l ->
  match ir_loop b merge trial n l el index with
  | IrOk l' => same l l' /\ (unsplit b l -> unsplit b l')
  | IrErr => True
  | IrPanic => False
  end.
Proof.
  induction n as [|n IH]; intros l el index pos h Sh L P G; cbn [ir_loop].
  - split; [apply same_refl|auto].
  - assert (H := step_ok l el index pos h Sh ltac:(lia) P G).
    destruct (ir_step b merge trial l el index) as [[l' el']| |]; [|exact I|exact H].
    destruct H as (S' & L' & E & U). destruct (E pos h P G) as (G' & _).
    assert (H := IH l' el' (S index) pos h S' ltac:(lia) P G').
    destruct (ir_loop b merge trial n l' el' (S index)) as [l2| |]; [|exact I|exact H].
    destruct H as (E2 & U2). split; [eapply same_trans; eauto|auto].
Qed.

Lemma optimize_ok l pos h : 0 <= pos -> good pos h l ->
  match ir_optimize b merge trial l with
  | IrOk l' => same l l' /\ (unsplit b l -> unsplit b l') /\ Forall (fun c => is_empty_copy c = false) l'
  | IrErr => True
  | IrPanic => False
  end.
Proof.
  intros P G. unfold ir_optimize. destruct l as [|c l]; [split; [apply same_refl|auto]|].
  assert (H := loop_ok (length (c :: l) - 1) (c :: l) 0 1 pos h).
  destruct (ir_loop b merge trial (length (c :: l) - 1) (c :: l) 0 1) as [l1| |]; [| exact I | ].
  - destruct H as (E & U); [exists [], c, [], l; repeat split; constructor|cbn [length]; lia|exact P|exact G|].
    destruct (trial 0%nat); [|exact I].
    assert (F := compact_filter (length l1) l1 0 0 ltac:(lia) ltac:(lia)).
    destruct (ir_compact (length l1) l1 0 0) as [l2 el]. rewrite F. cbn [firstn app skipn].
    split; [eapply same_trans; [exact E|apply same_filter]|]. split.
    + intros V. apply U in V. intros off len he J. apply filter_In in J. apply (V off len he), J.
    + apply Forall_forall. intros x J. apply filter_In in J. destruct (is_empty_copy x); [destruct J; discriminate|reflexivity].
  - apply H; [exists [], c, [], l; repeat split; constructor|cbn [length]; lia|exact P|exact G].
Qed.
End Loop.

(** ** [describes] is [good] *)
Lemma piece_app pos (x y : list Z) n : 0 <= pos -> x ++ y = firstn n (skipn (Z.to_nat pos) inp) ->
  piece pos x /\ y = firstn (n - length x) (skipn (Z.to_nat (pos + zlen x)) inp).
Proof.
  intros P E. unfold piece.
  assert (L : (length x <= n)%nat) by (pose proof (f_equal (@length Z) E) as F; rewrite app_length, firstn_length in F; lia).
  rewrite <- (firstn_skipn (length x) (firstn n (skipn (Z.to_nat pos) inp))) in E.
  assert (Lf : length (firstn (length x) (firstn n (skipn (Z.to_nat pos) inp))) = length x).
  { pose proof (f_equal (@length Z) E) as F. rewrite firstn_skipn, app_length, firstn_length in F. rewrite !firstn_length. lia. }
  apply app_eq_app in E. destruct E as (z & [[E1 E2]|[E1 E2]]).
  - pose proof (f_equal (@length Z) E1) as F. rewrite app_length in F. assert (z = []) by (destruct z; [reflexivity|cbn [length] in F; lia]). subst z.
    cbn [app] in E2. rewrite app_nil_r in E1. split.
    + rewrite E1 at 1. rewrite firstn_firstn. f_equal. lia.
    + rewrite <- E2. rewrite skipn_firstn_comm. rewrite skipn_skipn. f_equal. f_equal. unfold zlen. lia.
  - pose proof (f_equal (@length Z) E1) as F. rewrite app_length in F. assert (z = []) by (destruct z; [reflexivity|cbn [length] in F; lia]). subst z.
    cbn [app] in E2. rewrite app_nil_r in E1. split.
    + rewrite <- E1 at 1. rewrite firstn_firstn. f_equal. lia.
    + rewrite E2. rewrite skipn_firstn_comm. rewrite skipn_skipn. f_equal. f_equal. unfold zlen. lia.
Qed.
Lemma describes_good l : forall pos h, 0 <= pos -> describes dict inp pos h l -> good pos h l.
Proof.
  induction l as [|c l IH]; intros pos h P (D1 & D2 & D3 & D4); [exact I|]. cbn [good]. cbv zeta.
  destruct D1 as (n & D1). rewrite mean_cons in D1. destruct (piece_app pos _ _ _ P D1) as (Px & Rx).
  split; [|split; [exact Px|]].
  - destruct c as [off len he|[]]; auto.
    + destruct (D2 [] off len he l eq_refl) as (E & N & B). change (zlen (mean h [])) with 0 in E. lia.
    + apply (D3 distance num_bytes). left. reflexivity.
    + eapply D4. left. reflexivity.
  - apply IH; [unfold zlen; lia|]. split; [eauto|]. split; [|split].
    + intros pre off len he post ->. destruct (D2 (c :: pre) off len he post eq_refl) as (E & N & B).
      rewrite mean_cons, zlen_app' in E. rewrite <- Z.add_assoc. auto.
    + intros d m J. apply (D3 d m). right. exact J.
    + intros s he J. apply (D4 s he). right. exact J.
Qed.
Lemma good_describes l : forall pos h, 0 <= pos -> good pos h l -> describes dict inp pos h l.
Proof.
  intros pos h P G. split; [|split; [|split]].
  - revert pos h P G. induction l as [|c l IH]; intros pos h P G; [exists 0%nat; reflexivity|].
    cbn [good] in G. cbv zeta in G. destruct G as (_ & Px & G).
    assert (P' : 0 <= pos + zlen (m1 h c)) by (unfold zlen; lia). destruct (IH _ _ P' G) as (n & E). clear P'. exists (length (m1 h c) + n)%nat.
    rewrite mean_cons, E. rewrite Px at 1. set (x := m1 h c) in *. clear -P Px.
    assert (B : (length x <= length inp - Z.to_nat pos)%nat).
    { pose proof (f_equal (@length Z) Px) as F. rewrite firstn_length, skipn_length in F. lia. }
    assert (E := slice_app (zlen x) (Z.of_nat n) pos). unfold zlen in *. rewrite !Nat2Z.id in E.
    destruct (le_lt_dec (Z.to_nat pos) (length inp)) as [Q|Q].
    + rewrite E by lia. f_equal. lia.
    + rewrite !skipn_all2 by lia. rewrite !firstn_nil. reflexivity.
  - intros pre off len he post ->. rewrite good_app in G. destruct G as [_ G]. cbn [good] in G. cbv zeta in G. tauto.
  - intros d n J. apply in_split in J. destruct J as (a & b & ->). rewrite good_app in G. destruct G as [_ G]. cbn [good] in G. tauto.
  - intros s he J. apply in_split in J. destruct J as (a & b & ->). rewrite good_app in G. destruct G as [_ G]. cbn [good] in G. tauto.
Qed.
End Ir.
