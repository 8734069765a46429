(** C73, continued: the variables after the line are what was said. *)
From Coq Require Import String Ascii.
From Verif Require Import Prelude ModelMux ModelText ModelArgs SpecText SpecArgs ProofText ProofArgs.

Lemma after_snoc args a v : after_args (args ++ [a]) v = apply (after_args args v) a.
Proof. unfold after_args. rewrite fold_left_app. reflexivity. Qed.
Lemma last_snoc {A} (f : arg -> option A) d args a : last_said f d (args ++ [a]) = match f a with Some b => b | None => last_said f d args end.
Proof. unfold last_said. rewrite fold_left_app. reflexivity. Qed.
Lemma said_snoc g args a : said g (args ++ [a]) = said g args || g a.
Proof. unfold said. rewrite existsb_app. cbn [existsb]. now rewrite orb_false_r. Qed.
Lemma field_last {A} (fld : vars -> A) (f : arg -> option A) : (forall v a, fld (apply v a) = match f a with Some b => b | None => fld v end) ->
  forall args v, fld (after_args args v) = last_said f (fld v) args.
Proof. intros H args v. induction args as [|a args IH] using rev_ind; [reflexivity|]. rewrite after_snoc, last_snoc, H, IH. reflexivity. Qed.
Lemma field_said (fld : vars -> bool) g : (forall v a, fld (apply v a) = fld v || g a) -> forall args v, fld (after_args args v) = fld v || said g args.
Proof. intros H args v. induction args as [|a args IH] using rev_ind; [cbn; now rewrite orb_false_r|]. rewrite after_snoc, said_snoc, H, IH. now rewrite orb_assoc. Qed.
Lemma field_unsaid (fld : vars -> bool) g : (forall v a, fld (apply v a) = fld v && negb (g a)) -> forall args v, fld (after_args args v) = fld v && negb (said g args).
Proof. intros H args v. induction args as [|a args IH] using rev_ind; [cbn; now rewrite andb_true_r|]. rewrite after_snoc, said_snoc, H, IH, negb_orb. now rewrite andb_assoc. Qed.
Ltac by_arg := let v := fresh "w" in let a := fresh "b" in intros v a; destruct a; cbn [apply option_map]; repeat match goal with |- context [if ?c then _ else _] => destruct c end; try reflexivity;
  try (destruct (v_stride v); reflexivity); try (cbn; rewrite ?orb_false_r, ?andb_true_r, ?orb_true_r, ?andb_false_r; reflexivity);
  try (destruct (v_stride v); cbn; rewrite ?orb_false_r, ?andb_true_r, ?orb_true_r, ?andb_false_r; reflexivity).
Definition dir (v : vars) : direction := if v_do_compress v && negb (v_raw_compress v) then DText else if v_do_compress v then DCompress else DDecompress.
Lemma dir_step : forall v a, dir (apply v a) = match directed a with Some d => d | None => dir v end.
Proof. by_arg. Qed.
Lemma stride_after args : v_stride (after_args args vars0) = stride_said (rev args).
Proof.
  induction args as [|a args IH] using rev_ind; [reflexivity|]. rewrite after_snoc, rev_app_distr. cbn [rev app]. rewrite <- IH || idtac.
  destruct a; cbn [apply stride_said]; rewrite <- ?IH; try reflexivity; repeat match goal with |- context [if ?c then _ else _] => destruct c end; try reflexivity.
  destruct (v_stride (after_args args vars0)) eqn:E; cbn; rewrite ?E; reflexivity.
Qed.
(** the speeds *)
Definition said_at (place : nat) (a : arg) : option (option (Z * Z)) := match a with ASpeed q s => if Nat.eqb q place then Some (Some s) else None | _ => None end.
Definition silent (a : arg) : Prop := match a with ASpeed _ _ => False | _ => True end.
Definition placed (a : arg) : Prop := match a with ASpeed q _ => (q < 4)%nat | _ => True end.
Record sp_inv (args : list arg) (v : vars) : Prop := SPI {
  i_none : v_adapt v = None <-> Forall silent args;
  i_len : forall l, v_adapt v = Some l -> length l = 4%nat;
  i_low : v_low v = false -> last_said (said_at 0) None args = None /\ last_said (said_at 2) None args = None;
  i_at : forall place s, last_said (said_at place) None args = Some s -> exists l, v_adapt v = Some l /\ nth_error l place = Some s;
  i_all : forall l, v_adapt v = Some l -> Forall (fun s => exists place, In (ASpeed place s) args) l }.
Lemma put_all {A} (P : A -> Prop) l i x : Forall P l -> P x -> Forall P (firstn i l ++ x :: skipn (S i) l).
Proof.
  intros F X. rewrite Forall_forall in F. apply Forall_forall. intros y I. apply in_app_or in I. destruct I as [I|[<-|I]]; [|exact X|].
  - apply F. rewrite <- (firstn_skipn i l). apply in_or_app. now left.
  - apply F. rewrite <- (firstn_skipn (S i) l). apply in_or_app. now right.
Qed.
Lemma said_more (args : list arg) a l : Forall (fun s : Z * Z => exists place, In (ASpeed place s) args) l -> Forall (fun s => exists place, In (ASpeed place s) (args ++ [a])) l.
Proof. intros F. refine (Forall_impl _ _ F). intros s (place & I). exists place. apply in_or_app. now left. Qed.
Lemma put_len {A} (l : list A) i x : (i < length l)%nat -> length (firstn i l ++ x :: skipn (S i) l) = length l.
Proof. intros H. rewrite app_length. cbn [length]. rewrite firstn_length, skipn_length. lia. Qed.
Lemma put_at {A} (l : list A) i j x : (i < length l)%nat -> nth_error (firstn i l ++ x :: skipn (S i) l) j = if Nat.eqb i j then Some x else nth_error l j.
Proof.
  intros H. destruct (Nat.eqb_spec i j) as [->|N].
  - rewrite nth_error_app2 by (rewrite firstn_length; lia). rewrite firstn_length. replace (j - Nat.min j (length l))%nat with 0%nat by lia. reflexivity.
  - destruct (Nat.lt_ge_cases j i) as [L|L].
    + rewrite nth_error_app1 by (rewrite firstn_length; lia). rewrite <- (firstn_skipn i l) at 2. rewrite nth_error_app1 by (rewrite firstn_length; lia). reflexivity.
    + rewrite nth_error_app2 by (rewrite firstn_length; lia). rewrite firstn_length. replace (j - Nat.min i (length l))%nat with (S (j - S i))%nat by lia. cbn [nth_error].
      rewrite <- (firstn_skipn (S i) l) at 2. rewrite nth_error_app2 by (rewrite firstn_length; lia). rewrite firstn_length. replace (j - Nat.min (S i) (length l))%nat with (j - S i)%nat by lia. reflexivity.
Qed.
Lemma silent_last place args : Forall silent args -> last_said (said_at place) None args = None.
Proof. induction args as [|a args IH] using rev_ind; [reflexivity|]. intros F. apply Forall_app in F. destruct F as (F & S). apply Forall_inv in S. rewrite last_snoc. destruct a; cbn [said_at]; auto. destruct S. Qed.
Lemma nth4 (s : Z * Z) place : (place < 4)%nat -> nth_error [s; s; s; s] place = Some s.
Proof. intros P. destruct place as [|[|[|[|]]]]; try reflexivity. lia. Qed.
Lemma speeds_after args : Forall placed args -> sp_inv args (after_args args vars0).
Proof.
  induction args as [|a args IH] using rev_ind; intros F.
  - split; [split; [intros _; constructor|reflexivity]|discriminate|intros _; split; reflexivity|discriminate|discriminate].
  - apply Forall_app in F. destruct F as (F & P). apply Forall_inv in P. destruct (IH F) as [IN IL LO AT AL]. rewrite after_snoc. set (v := after_args args vars0) in *.
    destruct a as [ | | | | | | | | | | | | | | | | | | | | | | | | | |place s].
    all: try (split; [cbn [apply]; rewrite Forall_app; match goal with |- context [v_adapt ?w] => replace (v_adapt w) with (v_adapt v) by (repeat match goal with |- context [if ?c then _ else _] => destruct c end; reflexivity || (destruct (v_stride v); reflexivity)) end;
        rewrite IN; split; [intros X; split; [exact X|repeat constructor]|intros (X & _); exact X]
      |cbn [apply]; match goal with |- context [v_adapt ?w] => replace (v_adapt w) with (v_adapt v) by (repeat match goal with |- context [if ?c then _ else _] => destruct c end; reflexivity || (destruct (v_stride v); reflexivity)) end; exact IL
      |rewrite !last_snoc; cbn [said_at apply]; match goal with |- context [v_low ?w] => replace (v_low w) with (v_low v) by (repeat match goal with |- context [if ?c then _ else _] => destruct c end; reflexivity || (destruct (v_stride v); reflexivity)) end; exact LO
      |intros q0 s0; rewrite last_snoc; cbn [said_at apply]; match goal with |- context [v_adapt ?w] => replace (v_adapt w) with (v_adapt v) by (repeat match goal with |- context [if ?c then _ else _] => destruct c end; reflexivity || (destruct (v_stride v); reflexivity)) end; apply AT
      |cbn [apply]; match goal with |- context [v_adapt ?w] => replace (v_adapt w) with (v_adapt v) by (repeat match goal with |- context [if ?c then _ else _] => destruct c end; reflexivity || (destruct (v_stride v); reflexivity)) end; intros l0 E0; apply said_more, AL, E0]).
    cbn [placed] in P.
    assert (EA : v_adapt (apply v (ASpeed place s)) = Some (adapted v place (speed_other place) s)) by (cbn [apply]; destruct (_ || _); reflexivity).
    assert (EL : v_low (apply v (ASpeed place s)) = (Nat.eqb place 0 || Nat.eqb place 2) || v_low v) by (cbn [apply]; destruct (Nat.eqb place 0 || Nat.eqb place 2); reflexivity).
    assert (OT : (speed_other place = 0%nat \/ speed_other place = 2%nat) /\ speed_other place <> place) by (destruct place as [|[|[|[|]]]]; cbn [speed_other]; lia).
    destruct OT as (OT & OP).
    split; rewrite ?EA.
    + split; [discriminate|]. intros X. apply Forall_app in X. destruct X as (_ & X). apply Forall_inv in X. destruct X.
    + intros l E. assert (l = adapted v place (speed_other place) s) as -> by congruence. unfold adapted. destruct (v_adapt v) as [l0|] eqn:E0; [|reflexivity].
      pose proof (IL l0 eq_refl) as L0. cbv zeta. destruct (v_low v); rewrite put_len; rewrite ?put_len; lia.
    + rewrite EL. intros X. apply orb_false_elim in X. destruct X as (X1 & X2). apply orb_false_elim in X1. destruct X1 as (X0 & X1). rewrite !last_snoc. cbn [said_at]. rewrite X0, X1. auto.
    + intros q s1. rewrite last_snoc. cbn [said_at]. intros E. exists (adapted v place (speed_other place) s). split; [reflexivity|]. unfold adapted.
      destruct (v_adapt v) as [l0|] eqn:E0.
      * pose proof (IL l0 eq_refl) as L0. cbv zeta.
        assert (BASE : nth_error (firstn place l0 ++ s :: skipn (S place) l0) q = Some s1).
        { rewrite put_at by lia. destruct (Nat.eqb place q); [congruence|]. destruct (AT q s1 E) as (l & El & N). congruence. }
        destruct (v_low v) eqn:EV; [exact BASE|]. rewrite put_at by (rewrite put_len; lia). destruct (Nat.eqb_spec (speed_other place) q) as [Q|Q]; [|exact BASE].
        destruct (Nat.eqb_spec place q) as [Q2|Q2]; [congruence|]. destruct (LO eq_refl) as (L1 & L2). destruct OT as [O|O]; rewrite <- Q, O in E; congruence.
      * destruct (Nat.eqb_spec place q) as [->|Q].
        { assert (s1 = s) as -> by congruence. now apply nth4. }
        { rewrite silent_last in E by (now apply IN). discriminate. }
    + intros l E. assert (l = adapted v place (speed_other place) s) as -> by congruence.
      assert (X : exists q, In (ASpeed q s) (args ++ [ASpeed place s])) by (exists place; apply in_or_app; right; left; reflexivity).
      unfold adapted. destruct (v_adapt v) as [l0|] eqn:E0; [|repeat constructor; exact X].
      pose proof (said_more args (ASpeed place s) l0 (AL l0 eq_refl)) as F0. cbv zeta. destruct (v_low v); repeat apply put_all; assumption.
Qed.
(** everything together *)
Lemma spelled_placed args strs : Forall2 spelled args strs -> Forall placed args.
Proof.
  induction 1 as [|a s args strs S _ IH]; constructor; [|exact IH]. destruct a as [ | | | | | | | | | | | | | | | | | | | | | | | | | |place sp]; cbn [placed]; try exact I.
  remember (ASpeed place sp) as a eqn:EA. destruct S as [c t C|a s I|a p max m d I N M|m d N B|pl sp' t P T]; try discriminate.
  - subst a. cbn [In] in I. repeat (destruct I as [X|I]; [apply pair_equal_spec in X; destruct X as (X & _); discriminate X|]). destruct I.
  - cbn [In] in I. repeat (destruct I as [X|I]; [apply pair_equal_spec in X; destruct X as (X & _); apply pair_equal_spec in X; destruct X as (X & _); rewrite <- X in EA; discriminate EA|]). destruct I.
  - assert (pl = place) as <- by congruence. exact P.
Qed.
Definition times (args : list arg) : Z := last_said (fun a => match a with ATimes n => Some n | _ => None end) 1 args.
Lemma plan_as_said args v ns : Forall placed args -> v = after_args args vars0 -> named v ns -> filled ns -> times args = 1 \/ length ns = 2%nat -> exists p, the_plan v = MRun p /\ as_said args ns p.
Proof.
  intros PL V N FI T.
  assert (TI : v_bench v = times args) by (rewrite V; refine (field_last v_bench _ _ args vars0); by_arg).
  assert (RC : v_recode v = said (fun a => match a with ARecode => true | _ => false end) args) by (rewrite V; refine (field_said v_recode _ _ args vars0); by_arg).
  assert (J : the_job v = job_said args).
  { unfold job_said. pose proof (field_last dir directed dir_step args vars0) as DD. change (dir vars0) with DCompress in DD. rewrite <- DD, <- V. clear DD. unfold dir, the_job. destruct (v_do_compress v); destruct (v_raw_compress v); cbn [andb negb]; try reflexivity;
      rewrite RC; reflexivity. }
  pose proof (speeds_after args PL) as SP. rewrite <- V in SP. destruct SP as [IN IL _ AT AL].
  assert (ALL : forall from to_, from = from_names ns -> to_ = to_names ns -> as_said args ns (PLAN (the_job v) from to_ (times args) (options v) (v_bs v) (v_force v) (v_skipcrc v) (v_par v))).
  { intros from to_ EF ET. unfold as_said, options, number. cbn [p_job p_from p_to p_times p_buffer p_force p_skipcrc p_threads p_opts o_score o_brotli o_mixing o_cmap o_depth o_stride o_quality o_q95 o_window o_lgblock o_strideq o_speedq o_findprior o_lmode o_optimise o_adapt].
    split; [exact J|]. split; [exact EF|]. split; [exact ET|]. split; [reflexivity|].
    split; [rewrite V; refine (field_last v_bs _ _ args vars0); by_arg|]. split; [rewrite V; refine (field_said v_force _ _ args vars0); by_arg|]. split; [rewrite V; refine (field_said v_skipcrc _ _ args vars0); by_arg|].
    split; [rewrite V; refine (field_unsaid v_par _ _ args vars0); by_arg|].
    split; [rewrite V; refine (field_last v_score _ _ args vars0); by_arg|]. split; [rewrite V; refine (field_unsaid v_brotli _ _ args vars0); by_arg|]. split; [rewrite V; refine (field_last v_mixing _ _ args vars0); by_arg|].
    split; [rewrite V; refine (field_last v_cmap _ _ args vars0); by_arg|]. split; [rewrite V; refine (field_last v_depth _ _ args vars0); by_arg|]. split; [rewrite V; apply stride_after|].
    split; [rewrite V; refine (field_last v_quality _ _ args vars0); by_arg|]. split; [rewrite V; refine (field_said v_q95 _ _ args vars0); by_arg|]. split; [rewrite V; refine (field_last v_window _ _ args vars0); by_arg|].
    split; [rewrite V; refine (field_last v_lgwin _ _ args vars0); by_arg|]. split; [rewrite V; refine (field_last v_strideq _ _ args vars0); by_arg|]. split; [rewrite V; refine (field_last v_speedq _ _ args vars0); by_arg|].
    split; [rewrite V; refine (field_last v_findprior _ _ args vars0); by_arg|]. split; [rewrite V; refine (field_last v_lmode _ _ args vars0); by_arg|]. split; [rewrite V; refine (field_said v_irx _ _ args vars0); by_arg|].
    split; [exact IN|]. split; [intros place s E; destruct (AT place s E) as (l & El & Nl); exists l; split; [exact El|]; split; [exact (IL l El)|exact Nl]|].
    intros l El. split; [exact (IL l El)|exact (AL l El)]. }
  unfold the_plan. rewrite TI. destruct ns as [|a [|b [|c ns]]]; cbn [named length from_names to_names] in *; [| | |destruct N].
  - destruct N as (-> & _). cbn [same]. destruct T as [T|T]; [|discriminate]. rewrite T, Z.eqb_refl. eexists. split; [reflexivity|]. rewrite <- T. apply ALL; reflexivity.
  - destruct N as (E0 & E1). rewrite E0, E1, (same_nil a) by exact (Forall_inv FI). cbn [same]. destruct T as [T|T]; [|discriminate]. rewrite T, Z.eqb_refl. eexists. split; [reflexivity|]. rewrite <- T. apply ALL; reflexivity.
  - destruct N as (E0 & E1). rewrite E0, E1, (same_nil a) by exact (Forall_inv FI). rewrite (same_nil b) by exact (Forall_inv (Forall_inv_tail FI)). eexists. split; [reflexivity|]. apply ALL; reflexivity.
Qed.
