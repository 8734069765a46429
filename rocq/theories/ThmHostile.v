(** C29: the command decoder on nibbles that no encoder wrote. *)
From Verif Require Import Prelude ModelAns ModelCdf SpecCdf ModelMux ModelCmd ModelPriors ModelCodec ModelLit ModelPm ModelTop ModelDec SpecCodec SpecHostile ProofHostile.

(** For every pair of nibble streams the decoder comes to a stop within three rounds per
    nibble (plus three).  Until then it has read a prefix of the streams, every nibble
    under a distribution that makes all sixteen values decodable, every command it
    reported is in range, and it has not panicked: it reached the end marker, ran out of
    nibbles, reported an error, or met one of the three hazards. *)
Theorem C29_any_nibbles : forall R (RR : replayer R) wl D r q, big D -> (forall r c, sane_command D c -> rpop RR r c <> Panic) -> any_nibbles q ->
  exists xs es w rest, dec_run RR wl D true (3 * S (nibbles_in q)) (codec_new D r) q = Some (xs, es, w, rest) /\
    q = chan_of es rest /\ Forall (sane_command D) xs /\ writable es /\ w <> Panics /\ (forall st, w = Needs st -> take rest st = None).
Proof.
  intros R RR wl D r q B S A. apply (run_total RR wl D B S); [apply (sane_new RR D B S)|exact A|]. cbn [codec_new k_st rank]. lia.
Qed.
(** The decoder without guards does the same, except that an oversize copy is a panic and
    that nothing is claimed after the other two hazards. *)
Theorem C29_unguarded : forall R (RR : replayer R) wl D fuel c q xs es w rest, dec_run RR wl D true fuel c q = Some (xs, es, w, rest) -> w <> WildSpeeds -> w <> HugeLiteral ->
  dec_run RR wl D false fuel c q = Some (xs, es, match w with HugeCopy => Panics | _ => w end, rest).
Proof. intros R RR wl D fuel c q xs es w rest. apply run_plain. Qed.
(** So the unguarded decoder never panics on streams without hazards. *)
Theorem C29_total : forall R (RR : replayer R) wl D r q, big D -> (forall r c, sane_command D c -> rpop RR r c <> Panic) -> any_nibbles q ->
  exists xs es w rest, dec_run RR wl D true (3 * S (nibbles_in q)) (codec_new D r) q = Some (xs, es, w, rest) /\
    (w <> HugeCopy -> w <> HugeLiteral -> w <> WildSpeeds ->
     dec_run RR wl D false (3 * S (nibbles_in q)) (codec_new D r) q = Some (xs, es, w, rest) /\
     Forall (sane_command D) xs /\ (w = AtEnd \/ (exists st, w = Needs st) \/ exists e, w = Fails e)).
Proof.
  intros R RR wl D r q B S A. destruct (C29_any_nibbles R RR wl D r q B S A) as (xs & es & w & rest & E & _ & X & _ & P & _).
  exists xs, es, w, rest. split; [exact E|]. intros H1 H3 H2. pose proof (C29_unguarded _ _ _ _ _ _ _ _ _ _ _ E H2 H3) as U.
  destruct w; try congruence; (split; [exact U|split; [exact X|eauto]]).
Qed.

(** ** the property as first stated is false *)
(** Four nibbles make a fresh decoder panic. *)
Theorem C29_length_refuted : forall R (RR : replayer R) wl D r v, 14 <= v < 16 ->
  match dec_run RR wl D false 9 (codec_new D r) (CH [1; 15; 15; v] []) with Some (_, _, Panics, _) => True | _ => False end.
Proof.
  intros R RR wl D r v H. assert (v = 14 \/ v = 15) as [->| ->] by lia; vm_compute; exact Logic.I.
Qed.
Definition no_words : word_len_fn := fun _ _ _ => 0.
(** Speed code 127 in a prediction mode makes the decoder panic when the command is
    complete (small maps, so that it can be computed). *)
Theorem C29_speeds_refuted :
  match dec_run no_replayer no_words (DIMS 1 1 1) false 30 (codec_new (DIMS 1 1 1) tt)
          (CH ([7; 0; 0; 0] ++ [15; 7; 0; 0; 0; 0; 0; 0; 0; 0; 0; 0; 0; 0; 0; 0] ++ [14; 14; 0]) []) with
  | Some (_, _, Panics, _) => True | _ => False end.
Proof. vm_compute. exact Logic.I. Qed.
(** A stream whose commands include a copy of distance zero. *)
Theorem C29_distance_zero_refuted :
  match dec_run no_replayer no_words (DIMS 1 1 1) false 60 (codec_new (DIMS 1 1 1) tt)
          (CH [1; 1; 15; 1; 1;  1; 1; 1;  1; 1; 15; 15;  15] []) with
  | Some (xs, _, AtEnd, _) => xs = [Copy 3 1; Copy 4 1; Copy 0 1] | _ => False end.
Proof. vm_compute. reflexivity. Qed.

(** The hypotheses hold for the decoder's worker (whose replay buffer does nothing) with
    the real map sizes; a stream with commands, then garbage. *)
Example C29_case : big real_dims /\ (forall r c, sane_command real_dims c -> rpop no_replayer r c <> Panic) /\
  any_nibbles (CH [3; 2; 1; 5; 9; 0] [6; 1; 6; 2; 6; 3]) /\
  match dec_run no_replayer no_words (DIMS 1 1 1) true 21 (codec_new (DIMS 1 1 1) tt) (CH [5; 7; 1; 5; 9; 0] []) with
  | Some (xs, _, w, _) => xs = [BlockSwitchCommand 5; Copy 2 5] /\ w = Fails CommandCodeOutOfBounds | _ => False end /\
  match dec_run no_replayer no_words (DIMS 1 1 1) true 40 (codec_new (DIMS 1 1 1) tt) (CH [3; 14; 15; 15; 15; 15; 15; 15; 15; 15; 15; 15] []) with
  | Some (xs, _, w, _) => xs = [] /\ w = HugeLiteral | _ => False end.
Proof.
  split; [unfold big, real_dims; cbn [n_lit n_dist n_mix]; lia|]. split; [discriminate|]. split.
  - split; cbn [ch_cmd ch_lit]; repeat (apply Forall_cons; [unfold nibble; lia|]); apply Forall_nil.
  - split; vm_compute; auto.
Qed.
Print Assumptions C29_any_nibbles.
Print Assumptions C29_unguarded.
Print Assumptions C29_total.
Print Assumptions C29_length_refuted.
Print Assumptions C29_speeds_refuted.
Print Assumptions C29_distance_zero_refuted.
