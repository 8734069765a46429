(** C83: the wire format of the two nibble streams. *)
From Verif Require Import Prelude ProofList ModelAns SpecAns ModelCdf SpecCdf ModelMux ProofZlist ModelCmd ModelPriors ModelCodec ModelLit ModelPm ModelTop SpecCodec ProofCodecInv ProofCodecInv2 ProofRun ThmCodec SpecCost SpecWorst ProofWorst ThmWorst SpecWire ProofWire ProofWire2.

(** C83, one command.  In whatever state, the nibbles written for a command are the ones the
    format lists for it; only the recent distances and the block types matter. *)
Theorem C83_command : forall R (RR : replayer R) wl D g c fuel cmd c' x es,
  big D -> reachable RR wl D c -> encodable D g cmd -> enc_cmd RR wl D fuel g cmd false c = Some (c', x, es) ->
  vals CMD es = command_wire D g (past_of (k_bk c)) cmd /\ vals LIT es = content_wire cmd.
Proof.
  intros R RR wl D g c fuel cmd c' x es B RC HE E. pose proof (reachable_near RR wl D c B RC) as NR. pose proof (proj2 (reachable_inv RR wl D c B RC)) as T. destruct B as (_ & _ & B).
  destruct (one_wire RR wl D g ltac:(lia) cmd false HE fuel c c' x es ltac:(unfold tsok; rewrite T; exact Logic.I) E) as (A1 & A2). unfold tsc, tsl in A1, A2. rewrite T in A1, A2. rewrite coded_wire in A1 by (first [exact NR|exact HE]). auto.
Qed.
Print Assumptions C83_command.

(** C83, whole streams: what the encoder writes for a list of commands. *)
Theorem C83_streams : forall R (RR : replayer R) wl D fuel g r0 cmds c es,
  big D -> Forall (encodable D g) cmds ->
  enc_all RR wl D fuel g cmds (codec_new D r0) = Some (c, coded_all wl D g (pm_new D) cmds, es) ->
  vals CMD es = stream_wire D g past0 cmds /\ vals LIT es = flat_map content_wire cmds.
Proof.
  intros R RR wl D fuel g r0 cmds c es (_ & _ & B) F E.
  refine (all_wire RR wl D g _ fuel cmds (codec_new D r0) c (pm_new D) es eq_refl F _ E); [lia|exact near0].
Qed.
Print Assumptions C83_streams.

(** C83, the reader: streams spelled by hand from the format are decoded to the commands they
    spell, and nothing beyond their ends is touched. *)
Theorem C83_reader : forall R (RR : replayer R) wl D g r0 cmds r,
  big D -> cfg_ok g -> Forall (encodable D g) cmds -> replay_to RR r0 (coded_all wl D g (pm_new D) cmds) = Some r ->
  exists fuel c es, forall more_cmd more_lit,
    dec_all RR wl D fuel (S (length cmds)) (codec_new D r0) (CH (stream_wire D g past0 cmds ++ more_cmd) (flat_map content_wire cmds ++ more_lit)) =
    Some (c, coded_all wl D g (pm_new D) cmds, es, CH more_cmd more_lit).
Proof.
  intros R RR wl D g r0 cmds r B G F RP. destruct (C26_stream_roundtrip R RR wl D g r0 cmds r B G F RP) as (fuel & c & es & E & _ & _ & H).
  destruct (C83_streams R RR wl D fuel g r0 cmds c es B F E) as (A1 & A2). exists fuel, c, es. intros a b. specialize (H (CH a b)). unfold chan_of in H. rewrite A1, A2 in H. exact H.
Qed.
Print Assumptions C83_reader.

(** C83, no ambiguity: even under different options, two lists of commands whose spellings
    agree, or go on to agree, are decoded as the same commands and end at the same place: no
    spelling is the beginning of another. *)
Lemma dec_more {R} (RR : replayer R) wl D : forall f1 f2 c q r, dec_cmd RR wl D f1 c q = Some r -> (f1 <= f2)%nat -> dec_cmd RR wl D f2 c q = Some r.
Proof.
  induction f1 as [|f1 IH]; intros f2 c q r H L; [discriminate|]. destruct f2 as [|f2]; [lia|]. cbn [dec_cmd] in *.
  destruct (top_node RR wl D c) as [st d k|o|c' x|]; [|destruct o as [c'| |]; try discriminate H; apply IH; [exact H|lia]|exact H|exact H].
  destruct (take q st) as [(v, q')|]; [|discriminate H]. cbn [bind] in *. destruct (k v) as [c'| |]; try discriminate H.
  destruct (dec_cmd RR wl D f1 c' q') as [(((c2, x), es), q2)|] eqn:E; [|discriminate H]. rewrite (IH f2 c' q' _ E ltac:(lia)). exact H.
Qed.
Lemma dec_all_more {R} (RR : replayer R) wl D f1 f2 : (f1 <= f2)%nat -> forall n1 n2 c q r,
  dec_all RR wl D f1 n1 c q = Some r -> (n1 <= n2)%nat -> dec_all RR wl D f2 n2 c q = Some r.
Proof.
  intros LF. induction n1 as [|n1 IH]; intros n2 c q r H L; [discriminate|]. destruct n2 as [|n2]; [lia|]. cbn [dec_all] in *.
  destruct (dec_cmd RR wl D f1 c q) as [(((c2, x), es), q2)|] eqn:E; [|discriminate H]. rewrite (dec_more RR wl D f1 f2 c q _ E LF). cbn [bind] in *.
  destruct x as [x|]; [|exact H]. destruct (dec_all RR wl D f1 n1 c2 q2) as [(((c3, xs), es2), q3)|] eqn:E2; [|discriminate H].
  rewrite (IH n2 c2 q2 _ E2 ltac:(lia)). exact H.
Qed.
Lemma idle_replays : forall cmds, replay_to idle tt cmds = Some tt.
Proof. induction cmds as [|c cmds IH]; [reflexivity|]. cbn [replay_to idle rpop]. destruct (moves_data c); exact IH. Qed.
Theorem C83_unambiguous : forall wl D g1 g2 cmds1 cmds2 more_cmd1 more_cmd2 more_lit1 more_lit2,
  big D -> cfg_ok g1 -> cfg_ok g2 -> Forall (encodable D g1) cmds1 -> Forall (encodable D g2) cmds2 ->
  stream_wire D g1 past0 cmds1 ++ more_cmd1 = stream_wire D g2 past0 cmds2 ++ more_cmd2 ->
  flat_map content_wire cmds1 ++ more_lit1 = flat_map content_wire cmds2 ++ more_lit2 ->
  coded_all wl D g1 (pm_new D) cmds1 = coded_all wl D g2 (pm_new D) cmds2 /\ more_cmd1 = more_cmd2 /\ more_lit1 = more_lit2.
Proof.
  intros wl D g1 g2 cmds1 cmds2 a1 a2 b1 b2 B G1 G2 F1 F2 EC EL.
  destruct (C83_reader unit idle wl D g1 tt cmds1 tt B G1 F1 (idle_replays _)) as (f1 & c1 & es1 & H1). specialize (H1 a1 b1).
  destruct (C83_reader unit idle wl D g2 tt cmds2 tt B G2 F2 (idle_replays _)) as (f2 & c2 & es2 & H2). specialize (H2 a2 b2).
  rewrite EC, EL in H1.
  apply (dec_all_more idle wl D f1 (Nat.max f1 f2) ltac:(lia) _ (S (Nat.max (length cmds1) (length cmds2)))) in H1; [|lia].
  apply (dec_all_more idle wl D f2 (Nat.max f1 f2) ltac:(lia) _ (S (Nat.max (length cmds1) (length cmds2)))) in H2; [|lia].
  rewrite H1 in H2. clear H1. split; [|split]; congruence.
Qed.
Print Assumptions C83_unambiguous.

(** Spelled out: "hi", 40 bytes from 2 back, 3 bytes from 500000 back, block switches, a
    dictionary word, 300 bytes marked as high entropy; and a context map. *)
Definition spelled : list command :=
  [Literal [104; 105] false; Copy 2 40; Copy 500000 3; BlockSwitchCommand 1; Dict 20 100 7 20; BlockSwitchLiteral 77 5; Literal (repeat 97 300) true].
Definition plain_cfg : cfg := cfg_new 0 0 None true 9.
Example C83_case :
  Forall (encodable real_dims plain_cfg) spelled /\ cfg_ok plain_cfg /\ big real_dims /\
  replay_to idle tt (coded_all demo_wl real_dims plain_cfg (pm_new real_dims) spelled) = Some tt /\
  stream_wire real_dims plain_cfg past0 spelled =
    [3; 1;  1; 15; 2; 0; 8; 9;  1; 3; 15; 14; 4; 3; 10; 1; 2; 0;  5; 0;  2; 15; 1; 6; 4; 0; 7;  4; 15; 13; 4; 5;  3; 15; 14; 9; 1; 13;  15] /\
  flat_map content_wire [Literal [104; 105] false] = [6; 8; 6; 9] /\
  map_wire recent0 [0; 0; 1; 13; 200; 201; 0] = [0; 0; 1; 13; 15; 12; 8; 13; 4; 14].
Proof.
  split; [|split; [|split; [exact (proj1 C20_case)|split; [reflexivity|split; [vm_compute; reflexivity|split; reflexivity]]]]].
  - unfold spelled. repeat (apply Forall_cons); try apply Forall_nil; cbn [encodable]; try (unfold byte, nibble; lia).
    + split; [repeat (apply Forall_cons; [unfold byte; lia|]); apply Forall_nil|vm_compute; split; discriminate].
    + split; [lia|]. split; [vm_compute; split; [discriminate|reflexivity]|lia].
    + split; [apply Forall_forall; intros x H; apply repeat_spec in H; subst; unfold byte; lia|vm_compute; split; discriminate].
  - unfold cfg_ok, plain_cfg, cfg_new, nibble. cbn. repeat split; try lia. vm_compute. discriminate.
Qed.
