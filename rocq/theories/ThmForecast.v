(** C70: the distance cache of the command optimiser. *)
From Verif Require Import Prelude ModelCdf ModelMux ModelCmd ModelCodec SpecLz ModelIr SpecIr ProofIr ThmIr ModelForecast SpecForecast ProofForecast.

(** C70: whenever the codec's four recent distances are different - they are when it is
    new, and coding commands keeps them so - the cache built over a list of commands holds
    the codec's recent distances, and every reference it recorded tells the truth: it names
    a later copy (or command 0 itself) and the code the codec will give to that copy's
    distance. *)
Theorem C70_cache_follows_codec : forall b l, recent4 b -> Z.of_nat (length l) < 2 ^ 32 ->
  recent4 (after_copies b l) /\
  let c := populate_all (fcache_new (distance_lru b) (length l)) l 0 in
  map ce_dist (fc_cache c) = distance_lru (after_copies b l) /\
  forall k, (k < length l)%nat -> log_miss (hit_log c k) = false ->
    exists j d n, log_offset (hit_log c k) = Z.of_nat j /\ ((k < j)%nat \/ (k = 0 /\ j = 0)%nat) /\
      nth_error l j = Some (IOther (Copy d n)) /\ entry_id (hit_log c k) = code_at b l j d /\ code_at b l j d < 15.
Proof.
  intros b l R LN. split; [apply after_recent4; exact R|]. cbv zeta.
  set (c := populate_all (fcache_new (distance_lru b) (length l)) l 0).
  assert (I : finv b l (length l) c) by (apply populate_all_inv; [exact R|exact LN|reflexivity|apply finv_new; exact R|reflexivity]).
  destruct I as (Hd & _ & Hh & _ & Hr). rewrite firstn_all in Hd. split; [exact Hd|].
  intros k K M. unfold hit_log in *. assert (RI : row_index c k = k) by (unfold row_index; rewrite Hh; replace (k <? length l)%nat with true by (symmetry; apply Nat.ltb_lt; exact K); reflexivity).
  rewrite RI in *. destruct (Hr k K M) as (j & d & n & A & B & C & D & E & F).
  exists j, d, n. split; [exact A|]. split; [exact F|]. split; [exact C|]. split; [exact D|]. rewrite <- D. exact E.
Qed.
Print Assumptions C70_cache_follows_codec.
Theorem C70_new_codec : recent4 bk_new.
Proof. split; [reflexivity|]. change (distance_lru bk_new) with [4; 11; 15; 16]. repeat rewrite NoDup_cons_iff. cbn [In]. repeat split; try (intuition lia). apply NoDup_nil. Qed.
Print Assumptions C70_new_codec.

(** C70: the forecast does what it is for: in a build without overflow checks, whatever
    distances the trial coder had, once they are set for the recorded code the copy's own
    distance has a code, at most the recorded one. *)
Theorem C70_forecast_serves : forall lru id d, length lru = 4%nat -> 0 <= id < 15 -> 0 < d < 2 ^ 31 ->
  exists lru', forecast wrapping lru id d = Some lru' /\ distance_mnemonic_code lru' d <= id.
Proof. exact forecast_serves. Qed.
Print Assumptions C70_forecast_serves.

(** C70: in a build without overflow checks the optimiser with its cache is the optimiser
    of C41, for every list of commands, boundary and cost model. *)
Theorem C70_release_build : forall b merge trial lru l,
  f_optimize wrapping b merge trial lru l = ir_optimize b merge trial l.
Proof.
  intros b merge trial lru l. apply f_optimize_same. apply Forall_forall. intros x _.
  destruct x as [? ? ?|[]]; try exact I. split; intros k _ E; discriminate E.
Qed.
Print Assumptions C70_release_build.

(** C70: so it is in a build with overflow checks, when no copy has distance 1 or 2 (or
    one within three of 2^32). *)
Theorem C70_checked_build : forall b merge trial lru l,
  (forall d n, In (IOther (Copy d n)) l -> 3 <= d < 2 ^ 32 - 3) ->
  f_optimize checked b merge trial lru l = ir_optimize b merge trial l.
Proof.
  intros b merge trial lru l H. apply f_optimize_same. apply Forall_forall. intros x J.
  destruct x as [? ? ?|[]]; try exact I. specialize (H _ _ J). split; intros k K E; unfold checked in E; cbn [a_add a_sub] in E.
  - replace (distance + k <? 2 ^ 32) with true in E by lia. discriminate E.
  - replace (k <=? distance) with true in E by lia. discriminate E.
Qed.
Print Assumptions C70_checked_build.

(** C70, finding: with overflow checks the optimiser can panic, on commands that describe
    the input and whatever the cost model answers: the copy of distance 1 is followed by
    one of distance 3, so the cache records the code "two more", and the trial coder is to
    be told that 1 - 2 was a recent distance. *)
Definition under_list : list icmd :=
  [ILit 8 1 false; IOther (BlockSwitchCommand 1); IOther (Copy 7 2); ILit 11 1 false; IOther (Copy 1 4); IOther (Copy 3 4)].
Theorem C70_no_panic_refuted : exists inp pos h l,
  0 <= pos /\ describes (fun _ _ _ => None) inp pos h l /\
  forall merge trial, (forall i, merge i <> None) -> (forall i, trial i = true) ->
    (exists l', f_optimize wrapping (zlen inp) merge trial (distance_lru bk_new) l = IrOk l') /\
    f_optimize checked (zlen inp) merge trial (distance_lru bk_new) l = IrPanic.
Proof.
  exists (repeat 0 20), 8, (repeat 0 8), under_list. split; [lia|].
  assert (D : describes (fun _ _ _ => None) (repeat 0 20) 8 (repeat 0 8) under_list).
  { apply good_describes; [lia|]. unfold under_list. cbn [good]. cbv zeta.
    repeat match goal with |- _ /\ _ => split end; try exact I; try (vm_compute; congruence). }
  split; [exact D|]. intros merge trial Hm Ht. split.
  - rewrite C70_release_build. exact (C41_ir_optimize_succeeds _ _ 8 _ _ merge trial _ ltac:(lia) D Hm Ht).
  - change (zlen (repeat 0 20)) with 20. change (distance_lru bk_new) with lru_new.
    unfold f_optimize. change (length under_list - 1)%nat with 5%nat.
    set (c := populate_all _ _ _). vm_compute in c. unfold under_list. cbn [f_loop].
    unfold f_step at 1. cbn [nth_error]. unfold ir_step at 1. cbn [nth_error]. cbv zeta. rewrite Ht. cbn [Nat.eqb lru_step].
    unfold f_step at 1. cbn [nth_error]. unfold ir_step at 1. cbn [nth_error]. cbv zeta. rewrite Ht. cbn [Nat.eqb lru_step].
    unfold f_step at 1. cbn [nth_error]. unfold ir_step at 1. cbn [nth_error]. cbv zeta. rewrite Ht. cbn [Nat.eqb lru_step].
    unfold f_step at 1. cbn [nth_error]. change ((11 <? 20) && (20 <? 11 + 1 + 4)) with false. cbv iota.
    match goal with |- context [prepare ?A ?x ?m ?i ?d] => assert (P : prepare A x m i d = None) by (vm_compute; reflexivity); rewrite P end.
    reflexivity.
Qed.
Print Assumptions C70_no_panic_refuted.

(** a list in which references are recorded: command 2 (distance 7, three more than 4)
    refers from command 0 to itself, the copy of distance 1 (command 4) to the copy of distance 3, code 8 *)
Example C70_case :
  let c := populate_all (fcache_new (distance_lru bk_new) 6) under_list 0 in
  map (fun k => (log_miss (hit_log c k), entry_id (hit_log c k), log_offset (hit_log c k))) [0; 1; 2; 3; 4; 5]%nat
  = [(false, 12, 2); (true, 0, 2 ^ 64 - 1); (true, 0, 2 ^ 64 - 1); (true, 0, 2 ^ 64 - 1); (false, 8, 5); (true, 0, 2 ^ 64 - 1)] /\
  code_at bk_new under_list 5 3 = 8 /\
  (forecast wrapping [7; 4; 11; 15] 8 1 = Some [2 ^ 32 - 1; 4; 11; 15] /\ distance_mnemonic_code [2 ^ 32 - 1; 4; 11; 15] 1 = 8).
Proof. vm_compute. repeat split. Qed.
