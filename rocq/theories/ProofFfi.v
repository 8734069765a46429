(** Proofs about the C API model (C40). *)
From Verif Require Import Prelude ModelMux ModelFfi SpecFfi.

Lemma nth_upd {A} (a : list A) s k : (k < length a)%nat ->
  nth_error (firstn k a ++ s :: skipn (S k) a) k = Some s /\
  (forall j, j <> k -> nth_error (firstn k a ++ s :: skipn (S k) a) j = nth_error a j) /\
  length (firstn k a ++ s :: skipn (S k) a) = length a.
Proof.
  revert k. induction a as [|x a IH]; intros k H; cbn [length] in H; [lia|].
  destruct k as [|k]; cbn [firstn app skipn nth_error].
  - repeat split. intros [|j] J; [congruence|reflexivity].
  - destruct (IH k) as (A1 & A2 & A3); [lia|]. repeat split.
    + exact A1.
    + intros [|j] J; [reflexivity|]. cbn [nth_error]. apply A2. congruence.
    + cbn [length]. f_equal. exact A3.
Qed.

Lemma setting_dec : forall a b : setting, {a = b} + {a <> b}.
Proof. decide equality. decide equality. Qed.

Ltac easy_set t :=
  eexists; split; [exact eq_refl|]; split; [reflexivity|]; split;
  [intros t' N; left; destruct t'; first [reflexivity | congruence] | assumption].

Lemma set_adaptation_spec o sel k v :
  target sel = Some (Adapt k) -> (k < 4)%nat -> adapt_ok o -> 0 <= v ->
  (v <= 14 -> exists o', set_adaptation o k v = Some o' /\ set_effect o sel v o') /\
  (14 < v -> set_adaptation o k v = None).
Proof.
  intros T Hk O V. unfold set_adaptation. change (zlen PALETTE) with 15.
  destruct (Z.leb_spec 15 v); (split; intros; [try lia|try lia]); [reflexivity|].
  eexists; split; [reflexivity|]. exists (Adapt k). split; [exact T|].
  unfold requested. rewrite T. set (s := nth (Z.to_nat v) PALETTE (0, 0)). clearbody s.
  unfold adapt_ok in *. destruct (o_literal_adaptation o) as [a|] eqn:La.
  - destruct (nth_upd a s k) as (A1 & A2 & A3); [lia|].
    split; [unfold read; cbn [o_literal_adaptation set_o_literal_adaptation]; rewrite A1; reflexivity|].
    split.
    + intros t' N. left. destruct t' as [| | | | | | | | | | | | | | |k']; try reflexivity.
      unfold read. cbn [o_literal_adaptation set_o_literal_adaptation]. rewrite La, A2; [reflexivity|congruence].
    + cbn [o_literal_adaptation set_o_literal_adaptation]. rewrite A3. exact O.
  - split; [unfold read; cbn [o_literal_adaptation set_o_literal_adaptation];
            destruct k as [|[|[|[|k]]]]; try reflexivity; lia|].
    split.
    + intros t' N. destruct t' as [| | | | | | | | | | | | | | |k']; try (left; reflexivity).
      destruct (le_lt_dec 4 k') as [G|G].
      * left. unfold read. cbn [o_literal_adaptation set_o_literal_adaptation]. rewrite La.
        destruct k' as [|[|[|[|k']]]]; try lia. cbn [nth_error]. destruct k'; reflexivity.
      * right. split; [reflexivity|]. split; [eexists; reflexivity|]. split; [exists k'; auto|].
        unfold read. cbn [o_literal_adaptation set_o_literal_adaptation].
        destruct k' as [|[|[|[|k']]]]; try reflexivity; lia.
    + reflexivity.
Qed.

Lemma sel_cases sel : 1 <= sel <= 20 ->
  sel = 1 \/ sel = 2 \/ sel = 3 \/ sel = 4 \/ sel = 5 \/ sel = 6 \/ sel = 7 \/ sel = 8 \/ sel = 9 \/ sel = 10 \/
  sel = 11 \/ sel = 12 \/ sel = 13 \/ sel = 14 \/ sel = 15 \/ sel = 16 \/ sel = 17 \/ sel = 18 \/ sel = 19 \/ sel = 20.
Proof. lia. Qed.

Lemma set_match_valid o sel v : 0 <= v < 2 ^ 32 -> adapt_ok o -> valid_option sel v ->
  exists o', set_option_match o sel v = Some o' /\ set_effect o sel v o'.
Proof.
  intros V O (R & V5 & V6 & V7 & V9 & VA).
  destruct (sel_cases sel R) as [E|[E|[E|[E|[E|[E|[E|[E|[E|[E|[E|[E|[E|[E|[E|[E|[E|[E|[E|E]]]]]]]]]]]]]]]]]]]; subst sel;
    match goal with |- context [set_option_match o ?n v] =>
      unfold set_option_match;
      repeat match goal with |- context [n =? ?m] =>
        let b := eval vm_compute in (n =? m) in change (n =? m) with b; cbv iota end end.
  1, 2, 3, 4, 10, 11, 15, 16, 17, 19, 20: (eexists; split; [reflexivity|]; easy_set tt).
  - assert (v = 0 \/ v = 1 \/ v = 2) as [E|[E|E]] by lia; subst v; (eexists; split; [reflexivity|]; easy_set tt).
  - assert (v = 1) by lia; subst v. (eexists; split; [reflexivity|]; easy_set tt).
  - assert (v = 0 \/ v = 1) as [E|E] by lia; subst v; (eexists; split; [reflexivity|]; easy_set tt).
  - apply (set_adaptation_spec o 8 3 v); auto; lia.
  - assert ((0 <=? v) && (v <=? 8) = true) as -> by lia.
    (eexists; split; [reflexivity|]; easy_set tt).
  - apply (set_adaptation_spec o 12 1 v); auto; lia.
  - apply (set_adaptation_spec o 13 2 v); auto; lia.
  - apply (set_adaptation_spec o 14 0 v); auto; lia.
  - eexists; split; [reflexivity|]. exists Q95. split; [reflexivity|]. split.
    + unfold read, requested, of_bool, u8c. cbn [o_q9_5 set_o_q9_5].
      change (target 18) with (Some Q95). cbv iota. destruct (v mod 256 =? 0); reflexivity.
    + split; [intros t' N; left; destruct t'; first [reflexivity | congruence] | assumption].
Qed.

Lemma set_match_invalid o sel v : 0 <= v -> adapt_ok o -> set_option_match o sel v <> None -> valid_option sel v.
Proof.
  intros V O H. unfold set_option_match in H.
  assert (B : forall k, set_adaptation o k v <> None -> v <= 14).
  { intros k. unfold set_adaptation. change (zlen PALETTE) with 15.
    destruct (Z.leb_spec 15 v); [congruence|lia]. }
  unfold valid_option.
  repeat match type of H with
  | (if sel =? ?n then _ else _) <> None => destruct (Z.eqb_spec sel n) as [->|?]
  end; try congruence; try apply B in H;
  repeat match type of H with
  | (if ?b then _ else _) <> None => destruct b eqn:?
  end; try congruence; lia.
Qed.

Section Hist.
Context {X A : Type} (mki mkb : opts -> X) (enc fl : X -> A -> dres * X).
Notation run := (api_run mki mkb enc fl).
Notation step := (api mki mkb enc fl).

Lemma run_started h : forall x rs s, run (Started x) h = (rs, s) ->
  let '(ds, x') := drive enc fl x h in
  s = Started x' /\ codes_of true h rs = map code ds /\
  Forall (eq DIVANS_FAILURE) (codes_of false h rs).
Proof.
  induction h as [|c h IH]; intros x rs s H; cbn [api_run] in H.
  - injection H as <- <-. cbn. auto.
  - cbn [drive]. destruct c as [p sel v|p1 p2 p3 a|p1 p2 a]; cbn [api] in H.
    + cbn [reaches]. assert (step (Started x) (CSet p sel v) = (DIVANS_FAILURE, Started x)) as E by (destruct p; reflexivity).
      cbn [api] in E. rewrite E in H. destruct (run (Started x) h) as [rs' s'] eqn:E'.
      injection H as <- <-. apply IH in E'. destruct (drive enc fl x h) as [ds x'].
      destruct E' as (A1 & A2 & A3). cbn [codes_of reaches Bool.eqb]. auto.
    + destruct (reaches (CEnc p1 p2 p3 a)) eqn:R; cbn [reaches] in R.
      * assert (p1 = true /\ p2 = true /\ p3 = true) as (-> & -> & ->) by (destruct p1, p2, p3; auto).
        unfold cs_encode in H. cbn [started] in H. destruct (enc x a) as [r x1].
        destruct (run (Started x1) h) as [rs' s'] eqn:E'. injection H as <- <-.
        apply IH in E'. destruct (drive enc fl x1 h) as [ds x'].
        destruct E' as (A1 & A2 & A3). cbn [codes_of reaches Bool.eqb andb map]. rewrite A2. auto.
      * assert (step (Started x) (CEnc p1 p2 p3 a) = (DIVANS_FAILURE, Started x)) as E
          by (destruct p1, p2, p3; first [reflexivity | discriminate R]).
        cbn [api] in E. rewrite E in H. destruct (run (Started x) h) as [rs' s'] eqn:E'.
        injection H as <- <-. apply IH in E'. destruct (drive enc fl x h) as [ds x'].
        destruct E' as (A1 & A2 & A3). cbn [codes_of reaches]. rewrite R. cbn [Bool.eqb]. auto.
    + destruct (reaches (CFlush p1 p2 a)) eqn:R; cbn [reaches] in R.
      * assert (p1 = true /\ p2 = true) as (-> & ->) by (destruct p1, p2; auto).
        unfold cs_flush in H. cbn [started] in H. destruct (fl x a) as [r x1].
        destruct (run (Started x1) h) as [rs' s'] eqn:E'. injection H as <- <-.
        apply IH in E'. destruct (drive enc fl x1 h) as [ds x'].
        destruct E' as (A1 & A2 & A3). cbn [codes_of reaches Bool.eqb andb map]. rewrite A2. auto.
      * assert (step (Started x) (CFlush p1 p2 a) = (DIVANS_FAILURE, Started x)) as E
          by (destruct p1, p2; first [reflexivity | discriminate R]).
        cbn [api] in E. rewrite E in H. destruct (run (Started x) h) as [rs' s'] eqn:E'.
        injection H as <- <-. apply IH in E'. destruct (drive enc fl x h) as [ds x'].
        destruct E' as (A1 & A2 & A3). cbn [codes_of reaches]. rewrite R. cbn [Bool.eqb]. auto.
Qed.

(** the first call that reaches the compressor behaves as if it had been
    started with the options of that moment *)
Lemma step_reaches o (c : call A) : reaches c = true ->
  step (OptionStage o) c = step (Started (start mki mkb o)) c.
Proof.
  destruct c as [p sel v|p1 p2 p3 a|p1 p2 a]; cbn [reaches]; intros R; [discriminate| |].
  - destruct p1, p2, p3; try discriminate R. reflexivity.
  - destruct p1, p2; try discriminate R. reflexivity.
Qed.

Lemma run_options h : forall o rs s, run (OptionStage o) h = (rs, s) ->
  let o' := options_of o h in
  let '(ds, x') := drive enc fl (start mki mkb o') h in
  (if existsb reaches h then s = Started x' else s = OptionStage o') /\
  codes_of true h rs = map code ds.
Proof.
  induction h as [|c h IH]; intros o rs s H.
  - cbn in H. injection H as <- <-. cbn. auto.
  - cbn [options_of existsb].
    destruct (reaches c) eqn:R; cbv zeta; cbn [orb].
    + assert (run (Started (start mki mkb o)) (c :: h) = (rs, s)) as H'
        by (rewrite <- H; cbn [api_run]; rewrite step_reaches by exact R; reflexivity).
      apply run_started in H'. destruct (drive enc fl (start mki mkb o) (c :: h)) as [ds x'].
      destruct H' as (A1 & A2 & A3). auto.
    + cbn [api_run] in H.
      set (o1 := match c with
                 | CSet true sel v => match set_option_match o sel v with Some o' => o' | None => o end
                 | _ => o end).
      assert (exists k, step (OptionStage o) c = (k, OptionStage o1)) as (k & E).
      { unfold o1. destruct c as [p sel v|p1 p2 p3 a|p1 p2 a]; cbn [reaches] in R.
        - destruct p; cbn [api set_option]; [destruct (set_option_match o sel v)|]; eexists; reflexivity.
        - destruct p1, p2, p3; try discriminate R; eexists; reflexivity.
        - destruct p1, p2; try discriminate R; eexists; reflexivity. }
      rewrite E in H. destruct (run (OptionStage o1) h) as [rs' s'] eqn:E'.
      injection H as <- <-. apply IH in E'. cbv zeta in E'.
      cbn [drive]. rewrite R. destruct (drive enc fl (start mki mkb (options_of o1 h)) h) as [ds x'].
      destruct E' as (A1 & A2). cbn [codes_of]. rewrite R. cbn [Bool.eqb]. auto.
Qed.
End Hist.

Lemma code_inj a b : code a = code b -> a = b.
Proof. destruct a, b; cbn; intros; first [reflexivity | discriminate]. Qed.
