(** C40: options and return codes of the C API. *)
From Verif Require Import Prelude ModelMux ModelFfi SpecFfi ProofFfi.

(** C40: before encoding starts, divans_set_option returns success exactly for
    the documented selectors and values; then the named setting has the
    requested value and the others are as before.  In every other case it
    returns failure and changes nothing. *)
Theorem C40_set_option : forall (X : Type) (s : cstate X) sel v,
  0 <= v < 2 ^ 32 ->
  (forall o, s = OptionStage o -> adapt_ok o) ->
  (exists o o', s = OptionStage o /\ valid_option sel v /\
     set_option s sel v = (DIVANS_SUCCESS, OptionStage o') /\ set_effect o sel v o') \/
  (((exists x, s = Started x) \/ ~ valid_option sel v) /\ set_option s sel v = (DIVANS_FAILURE, s)).
Proof.
  intros X [o|x] sel v V O.
  - specialize (O o eq_refl). cbn [set_option]. destruct (set_option_match o sel v) as [o'|] eqn:E.
    + left. assert (W : valid_option sel v) by (apply (set_match_invalid o); [lia|exact O|congruence]).
      destruct (set_match_valid o sel v V O W) as (o1 & E1 & F).
      exists o, o'. rewrite E in E1. injection E1 as <-. auto.
    + right. split; [|reflexivity]. right. intros W.
      destruct (set_match_valid o sel v V O W) as (o1 & E1 & _). congruence.
  - right. split; [left; eauto|reflexivity].
Qed.

(** the default options and every reachable ones satisfy the side condition *)
Theorem C40_options_reachable : forall (A : Type) (h : list (call A)) o,
  (forall p sel v, In (CSet p sel v) h -> 0 <= v < 2 ^ 32) -> adapt_ok o -> adapt_ok (options_of o h).
Proof.
  intros A h. induction h as [|c h IH]; intros o V O; [exact O|]. cbn [options_of].
  destruct (reaches c); [exact O|]. apply IH; [intros; eapply V; right; eauto|].
  destruct c as [[|] sel v|? ? ? ?|? ? ?]; auto.
  destruct (set_option_match o sel v) as [o'|] eqn:E; auto.
  assert (V1 := V true sel v (or_introl eq_refl)).
  assert (W : valid_option sel v) by (apply (set_match_invalid o); [lia|exact O|congruence]).
  destruct (set_match_valid o sel v V1 O W) as (o1 & E1 & t & _ & _ & _ & K). congruence.
Qed.

(** C40: for every history of calls on one compressor - settings, encodes and
    flushes, with or without null pointers - the compressor is created once,
    from the options accepted before the first call that reaches it; the state
    is that of the compressor driven by exactly the calls that reached it; each
    such call returns the code of the compressor's own result; and after that
    moment every other call returns failure and changes nothing. *)
Theorem C40_history : forall (X A : Type) (mki mkb : opts -> X) (enc fl : X -> A -> dres * X)
  (h : list (call A)) rs s,
  api_run mki mkb enc fl cs_new h = (rs, s) ->
  let o' := options_of opts_default h in
  let '(ds, x') := drive enc fl (if match o_use_brotli o' with UseInternalCommandSelection => true | _ => false end
                                 then mki o' else mkb o') h in
  (if existsb reaches h then s = Started x' else s = OptionStage o') /\
  codes_of true h rs = map code ds.
Proof.
  intros X A mki mkb enc fl h rs s H. apply run_options in H. cbv zeta in *.
  unfold start in H. destruct (o_use_brotli (options_of opts_default h)); exact H.
Qed.
Theorem C40_started_frozen : forall (X A : Type) (mki mkb : opts -> X) (enc fl : X -> A -> dres * X)
  (h : list (call A)) x rs s,
  api_run mki mkb enc fl (Started x) h = (rs, s) ->
  let '(ds, x') := drive enc fl x h in
  s = Started x' /\ codes_of true h rs = map code ds /\
  Forall (eq DIVANS_FAILURE) (codes_of false h rs).
Proof. exact @run_started. Qed.
(** C40: a null pointer is refused without effect, whatever the state. *)
Theorem C40_null_refused : forall (X A : Type) (mki mkb : opts -> X) (enc fl : X -> A -> dres * X) s (c : call A),
  match c with CSet p _ _ => p = false | CEnc p1 p2 p3 _ => p1 && p2 && p3 = false | CFlush p1 p2 _ => p1 && p2 = false end ->
  api mki mkb enc fl s c = (DIVANS_FAILURE, s).
Proof.
  intros X A mki mkb enc fl s [p sel v|p1 p2 p3 a|p1 p2 a] H; cbn [api].
  - subst. reflexivity.
  - destruct p1, p2, p3; first [reflexivity | discriminate H].
  - destruct p1, p2; first [reflexivity | discriminate H].
Qed.
(** C40: the four results have four different codes, 0 to 3. *)
Theorem C40_codes : (forall a b, code a = code b -> a = b) /\
  code RSuccess = 0 /\ code RNeedsMoreInput = 1 /\ code RNeedsMoreOutput = 2 /\ code RFailure = 3.
Proof. split; [exact code_inj|repeat split]. Qed.

(** quality 7, a stride of 9 (refused), the internal compressor, an encode,
    then a late option *)
Example C40_case :
  let mk (b : Z) (o : opts) := (b, o_quality o, 0) in
  let enc (x : Z * option Z * Z) (a : Z) := let '(b, q, n) := x in (RNeedsMoreInput, (b, q, n + a)) in
  api_run (mk 0) (mk 1) enc enc cs_new
    [CSet true 1 7; CSet true 9 9; CSet true 5 0; CEnc true true true 5; CSet true 1 8; CFlush true true 6]
  = ([0; 3; 0; 1; 3; 1], Started (0, Some 7, 11)).
Proof. vm_compute. reflexivity. Qed.
Example C40_case_adapt : adapt_ok opts_default /\ valid_option 14 3 /\
  exists o1 o2, set_option_match opts_default 8 5 = Some o1 /\ set_option_match o1 14 3 = Some o2 /\
    o_literal_adaptation o2 = Some [(1, 16384); (4, 1024); (4, 1024); (4, 1024)].
Proof.
  split; [exact I|]. split; [unfold valid_option; lia|]. do 2 eexists.
  split; [reflexivity|]. split; [reflexivity|]. vm_compute. reflexivity.
Qed.

Print Assumptions C40_set_option.
Print Assumptions C40_options_reachable.
Print Assumptions C40_history.
Print Assumptions C40_started_frozen.
Print Assumptions C40_null_refused.
Print Assumptions C40_codes.
