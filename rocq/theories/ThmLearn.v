(** C80: distributions learn what they are shown. *)
From Verif Require Import Prelude ModelAns SpecAns ModelMux ModelCdf SpecCdf ProofCdf ThmCdf SpecCost SpecLearn ProofLearn.

(** C80.  A distribution that has seen nothing prefers nothing: every symbol owns 4 of 64
    counts, and a sixteenth of the coder's range less the one that keeps intervals apart. *)
Theorem C80_fresh : forall s, nibble s ->
  share (run_ref Fresh) s = 4 /\ total (run_ref Fresh) = 64 /\
  ref_interval (run_ref Fresh) s = (2 ^ 15 / 16 * s + 1, 2 ^ 15 / 16 - 1) /\ opt_interval (run_opt Fresh) s = ref_interval (run_ref Fresh) s.
Proof.
  intros s N. assert (E : In s [0; 1; 2; 3; 4; 5; 6; 7; 8; 9; 10; 11; 12; 13; 14; 15]) by (unfold nibble in N; cbn [In]; lia).
  split; [|split; [reflexivity|split]].
  - clear N. revert s E. apply Forall_forall. repeat (apply Forall_cons; [reflexivity|]). apply Forall_nil.
  - clear N. revert s E. apply Forall_forall. repeat (apply Forall_cons; [reflexivity|]). apply Forall_nil.
  - apply (C06_opt_equals_reference (Single Fresh)); [exact Logic.I|exact N].
Qed.
Print Assumptions C80_fresh.

(** C80.  One update, after every history: below the limit the symbol seen owns [inc] more
    and every other symbol what it owned; at the limit everything is scaled by 3/4, each
    share rounded up by at most 1.5. *)
Theorem C80_update : forall h v inc lim s, hist_ok (Seen h v inc lim) -> nibble s ->
  let before := run_ref h in let after := run_ref (Seen h v inc lim) in
  let own := share before s + (if s =? v then inc else 0) in
  (total before + inc < lim -> share after s = own /\ total after = total before + inc) /\
  (lim <= total before + inc ->
     3 * own <= 4 * share after s <= 3 * own + 6 /\ 3 * (total before + inc + 16) <= 4 * total after <= 3 * (total before + inc + 16) + 3).
Proof.
  intros h v inc lim s (H & NV & I & L) N. cbn zeta. cbn [run_ref]. apply share_blend; auto. apply run_ref_ok, H.
Qed.
Print Assumptions C80_update.

(** Whatever was seen before: once one symbol has been shown until its increments add up
    to 200000, all others together own at most 51 counts, and do so as long as that symbol
    is repeated; its probability on the coder's scale is then at least
    [1 - 68 / lim - 2 ^ -14]. *)
Theorem C80_learns : forall h v inc lim n, hist_ok h -> nibble v -> 0 <= inc <= 5444 -> 0 < lim <= 16384 -> 200000 <= inc * Z.of_nat n ->
  let c := run_ref (repeated h v inc lim n) in
  others c v <= 51 /\ 3 * lim <= 4 * total c /\
  (2 ^ 15 - 2 - snd (ref_interval c v)) * lim <= 68 * 2 ^ 15 /\
  opt_interval (run_opt (repeated h v inc lim n)) v = ref_interval c v.
Proof.
  intros h v inc lim n H NV I L N. cbn zeta. destruct (learned h v inc lim n H NV I ltac:(lia) N) as (A & B). split; [exact A|]. split; [exact B|]. split.
  - pose proof (learned_freq h v inc lim n H NV I L N) as F. lia.
  - apply (C06_opt_equals_reference (Single (repeated h v inc lim n))); [|exact NV]. cbn [dist_ok]. apply repeated_ok; auto. lia.
Qed.
Print Assumptions C80_learns.

(** Coding a run: [n] equal nibbles, each with the distribution adapted to the ones before
    it, at any speed with limit 16384.  Whatever the distribution had seen before the run,
    once it has learned ([n0] symbols at 15 bits at most) a nibble costs 1/118 bit, beside
    the coder's 130 bits per group of 65536. *)
Theorem C80_runs_are_cheap : forall h v inc n0 n, hist_ok h -> nibble v -> 0 <= inc <= 5444 -> 200000 <= inc * Z.of_nat n0 -> (n0 <= n)%nat ->
  exists out, ans_encode (run_of h v inc 16384 n) = Some out /\
    8 * zlen out <= 15 * Z.of_nat n0 + (Z.of_nat (n - n0) / 118 + 1) + 130 * groups (Z.of_nat n).
Proof. exact run_cost. Qed.
Print Assumptions C80_runs_are_cheap.

(** A distribution that has seen 100 times the nibble 3 at ROCKET speed and is then shown
    the nibble 12 at the same speed. *)
Definition ex_hist : hist := repeated Fresh 3 384 16384 100.
Example C80_case : hist_ok ex_hist /\ others (run_ref ex_hist) 12 = 13642 /\ share (run_ref ex_hist) 12 = 3 /\
  others (run_ref (repeated ex_hist 12 384 16384 521)) 12 = 48 /\ snd (ref_interval (run_ref ex_hist) 12) = 6 /\
  snd (ref_interval (run_ref (repeated ex_hist 12 384 16384 521)) 12) = 32664 /\ 200000 <= 384 * 521.
Proof. split; [apply repeated_ok; try exact I; unfold nibble; lia|]. repeat split; try lia; vm_compute; reflexivity. Qed.
