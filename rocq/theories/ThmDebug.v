(** C84: the debugging bit coder. *)
From Verif Require Import Prelude ModelMux ModelBits ModelDebug SpecDebug ProofDebug.

(** C84.  However putting, draining, filling and getting are interleaved, each question is
    answered from the bit it belongs to, and questions asked with another probability are
    answered as [reply] says. *)
Theorem C84_answers : forall debug ops,
  puts_ok ops -> in_turn 0 0 0 ops -> link_run debug link_new ops = replies (puts ops) (gets ops).
Proof. exact link_answers. Qed.
Print Assumptions C84_answers.

(** C84.  Asked with the probabilities used by the encoder, the decoder returns the bits put. *)
Theorem C84_roundtrip : forall debug ops n,
  puts_ok ops -> in_turn 0 0 0 ops -> gets ops = map snd (firstn n (puts ops)) ->
  link_run debug link_new ops = Some (map fst (firstn n (puts ops))).
Proof. intros debug ops n OK T E. rewrite (link_answers debug ops OK T), E. apply replies_same. Qed.
Print Assumptions C84_roundtrip.

(** A decoder out of step by the lowest digit of one probability is not noticed: it gets the
    opposite bit. *)
Theorem C84_notices_refuted : forall debug, exists b p asked,
  byte p /\ byte asked /\ asked <> p /\ link_run debug link_new [Put b p; Drain 8; Fill 1; Get asked] = Some [negb b].
Proof. intros debug. exists true, 100, 101. unfold byte. repeat split; try lia. destruct debug; reflexivity. Qed.
Print Assumptions C84_notices_refuted.

(** Draining a full buffer at once panics in a debug build; in a release build the bits put
    next are lost. *)
Theorem C84_full_drain_refuted :
  let eight := repeat (Put false 255) 8 in
  link_run true link_new (eight ++ [Drain 8]) = None /\
  link_run false link_new (eight ++ [Drain 8; Put true 64; Drain 1; Fill 9; Get 255; Fill 9] ++ repeat (Get 255) 7 ++ [Get 64]) = None /\
  replies (repeat (false, 255) 8 ++ [(true, 64)]) (repeat 255 8 ++ [64]) = Some (repeat false 8 ++ [true]).
Proof. cbv zeta. split; [reflexivity|]. split; vm_compute; reflexivity. Qed.
Print Assumptions C84_full_drain_refuted.

Example C84_case :
  let ops := [Put true 200; Put false 0; Drain 1; Put true 0; Fill 5; Get 200; Drain 7; Fill 1; Put false 77; Get 0; Fill 3; Get 0] in
  puts_ok ops /\ in_turn 0 0 0 ops /\ gets ops = map snd (firstn 3 (puts ops)) /\
  link_run true link_new ops = Some [true; false; true].
Proof. cbv zeta. cbn [puts_ok in_turn]. unfold byte. split; [repeat split; lia|]. split; [repeat split; vm_compute; congruence|]. split; reflexivity. Qed.
