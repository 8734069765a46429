(** C20-C26: every encodable command survives coding, in every reachable coder state. *)
From Verif Require Import Prelude ModelAns ModelCdf SpecCdf ProofCdf ModelMux ProofZlist ModelCmd ModelPriors ModelRecode SpecLz ModelCodec ModelLit ModelPm ModelTop SpecCodec SpecReplay ProofCodecInv ProofCodecInv2 ProofRun ProofCopy ProofDict ProofLit ProofPm ProofTop.

Section Thm.
Context {R : Type} (RR : replayer R) (wl : word_len_fn) (D : dims).
Lemma enc_det g cmd e : forall f1 f2 c r1 r2, enc_cmd RR wl D f1 g cmd e c = Some r1 -> enc_cmd RR wl D f2 g cmd e c = Some r2 -> r1 = r2.
Proof.
  intros f1 f2 c r1 r2 H1 H2. pose proof (enc_mono RR wl D g cmd e f1 (Nat.max f1 f2) c r1 H1 ltac:(lia)) as A.
  pose proof (enc_mono RR wl D g cmd e f2 (Nat.max f1 f2) c r2 H2 ltac:(lia)) as B. congruence.
Qed.
Lemma reachable_inv c : big D -> reachable RR wl D c -> inv adapted tame D c /\ k_st c = TBegin.
Proof.
  intros B H. induction H as [r|c g cmd fuel c' x es _ (I & T) G E M X].
  - split; [apply inv_codec_new; [exact adapted0|exact adapted_blend|exact tame_pos|exact B]|reflexivity].
  - destruct (run_cmd RR wl D B g G c cmd I T E M) as (f & c2 & y & es2 & E2 & _ & _ & I2 & T2 & _).
    pose proof (enc_det _ _ _ _ _ _ _ _ X E2) as Q. injection Q as -> _ _. auto.
Qed.
Lemma one_cmd g c cmd : big D -> cfg_ok g -> reachable RR wl D c -> encodable D g cmd ->
  (moves_data cmd = true -> exists r', rpop RR (k_rec c) (coded wl D g (k_pm c) cmd) = Next r') ->
  round_trips RR wl D g c cmd (coded wl D g (k_pm c) cmd).
Proof.
  intros B G RC E M. destruct (reachable_inv c B RC) as (I & T).
  destruct (run_cmd RR wl D B g G c cmd I T E M) as (f & c2 & y & es2 & E2 & W & -> & _).
  exists f, c2, es2. split; [exact E2|]. split; [exact W|]. intros rest. apply dec_of_enc with (1 := E2).
Qed.
End Thm.

(** C20 *)
Theorem C20_copy_roundtrip : forall R (RR : replayer R) wl D g c d n r,
  big D -> cfg_ok g -> reachable RR wl D c -> 1 <= d < 2 ^ 30 -> 0 <= n < 2 ^ 32 -> rpop RR (k_rec c) (Copy d n) = Next r ->
  round_trips RR wl D g c (Copy d n) (Copy d n).
Proof. intros R RR wl D g c d n r B G RC HD HN P. apply (one_cmd RR wl D g c (Copy d n) B G RC); [cbn; auto|cbn; eauto]. Qed.
(** C21: the length of the transformed word is the decoder's own, not the one given *)
Theorem C21_dict_roundtrip : forall R (RR : replayer R) wl D g c ws wid tr fs r,
  big D -> cfg_ok g -> reachable RR wl D c -> 4 <= ws <= 24 -> 0 <= wid < 2 ^ round_up_mod_4 (znth DICT_BITS ws) -> 0 <= tr < 121 ->
  rpop RR (k_rec c) (Dict ws wid tr (wl ws wid tr mod 256)) = Next r ->
  round_trips RR wl D g c (Dict ws wid tr fs) (Dict ws wid tr (wl ws wid tr mod 256)).
Proof. intros R RR wl D g c ws wid tr fs r B G RC H1 H2 H3 P. apply (one_cmd RR wl D g c (Dict ws wid tr fs) B G RC); [cbn; auto|cbn; eauto]. Qed.
(** C22 *)
Theorem C22_literal_roundtrip : forall R (RR : replayer R) wl D g c data he r,
  big D -> cfg_ok g -> reachable RR wl D c -> bytes data -> 1 <= zlen data <= 2 ^ 30 + 14 -> rpop RR (k_rec c) (Literal data he) = Next r ->
  round_trips RR wl D g c (Literal data he) (Literal data he).
Proof. intros R RR wl D g c data he r B G RC H1 H2 P. apply (one_cmd RR wl D g c (Literal data he) B G RC); [cbn [encodable]; auto|cbn [moves_data coded]; eauto]. Qed.
(** C23: the stride of a literal block switch is the option's unless the option leaves it
    open (9) *)
Theorem C23_block_switch_roundtrip : forall R (RR : replayer R) wl D g c t s,
  big D -> cfg_ok g -> reachable RR wl D c -> byte t -> nibble s ->
  round_trips RR wl D g c (BlockSwitchCommand t) (BlockSwitchCommand t) /\
  round_trips RR wl D g c (BlockSwitchDistance t) (BlockSwitchDistance t) /\
  round_trips RR wl D g c (BlockSwitchLiteral t s) (BlockSwitchLiteral t (if want_stride g =? 9 then s else want_stride g)).
Proof.
  intros R RR wl D g c t s B G RC HT HS. split; [|split].
  - apply (one_cmd RR wl D g c (BlockSwitchCommand t) B G RC); [exact HT|cbn; discriminate].
  - apply (one_cmd RR wl D g c (BlockSwitchDistance t) B G RC); [exact HT|cbn; discriminate].
  - apply (one_cmd RR wl D g c (BlockSwitchLiteral t s) B G RC); [split; assumption|cbn; discriminate].
Qed.
(** C24 *)
Theorem C24_prediction_mode_roundtrip : forall R (RR : replayer R) wl D g c p speeds,
  big D -> cfg_ok g -> reachable RR wl D c -> pm_encodable D g p -> desired_speeds g p = Some speeds ->
  exists q, round_trips RR wl D g c (PredictionMode p) (PredictionMode q) /\
    pm_mode q = pm_mode p /\
    (* context maps: what was sent, then what the previous command left *)
    (want_cmap g = true -> zfirst (zlen (lit_map p)) (lit_map q) = lit_map p /\
       zskip (zlen (lit_map p)) (lit_map q) = zskip (zlen (lit_map p)) (lit_map (k_pm c)) /\
       zfirst (zlen (src_map p true)) (dist_map q) = src_map p true /\
       zskip (zlen (src_map p true)) (dist_map q) = zskip (zlen (src_map p true)) (dist_map (k_pm c))) /\
    (want_cmap g = false -> lit_map q = lit_map (k_pm c) /\ dist_map q = dist_map (k_pm c)) /\
    (* mixing values *)
    zlen (mixing q) = n_mix D /\
    (sends_mixing g p = true -> mixing q = zfirst (n_mix D) (mixing p)) /\
    (sends_mixing g p = false -> Forall (fun x => x = if want_cmap g then 0 else 4) (mixing q)) /\
    (* mixing parameters *)
    4 * pm_adv q + pm_math q = want_mixing g + 8 * pm_adv p /\ 0 <= pm_math q < 4 /\
    (* speeds: never faster, at most 1/8 slower, exact when exactly representable (C44) *)
    (forall i, 0 <= i < 4 -> exists a b, speed_of_f8 (nth_pair (stride_f8 q ++ cm_f8 q) i) = Some (a, b) /\
       let s := nth_pair speeds i in
       u8_to_speed (speed_to_u8 (fst s)) = Some a /\ u8_to_speed (speed_to_u8 (snd s)) = Some b /\
       a <= fst s /\ 8 * (fst s - a) <= fst s /\ b <= snd s /\ 8 * (snd s - b) <= snd s).
Proof.
  intros R RR wl D g c p speeds B G RC E DS. exists (pm_coded D g (k_pm c) p).
  split; [apply (one_cmd RR wl D g c (PredictionMode p) B G RC); [exact E|cbn; discriminate]|].
  pose proof E as (E1 & E2 & (sp & E3 & F3 & L3) & E4 & E5). rewrite E3 in DS. injection DS as ->.
  unfold pm_coded. rewrite E3. cbn [pm_mode lit_map dist_map mixing pm_math pm_adv stride_f8 cm_f8]. split; [reflexivity|]. split.
  { intros W. rewrite W. unfold overlay.
    assert (X : forall a b : list Z, zfirst (zlen a) (a ++ zskip (zlen a) b) = a /\ zskip (zlen a) (a ++ zskip (zlen a) b) = zskip (zlen a) b)
      by (intros; split; [apply zfirst_app_exact; reflexivity|apply zskip_app_exact; reflexivity]).
    split; [apply X|]. split; [apply X|]. split; apply X. }
  split; [intros W; rewrite W; auto|]. destruct B as (_ & _ & B3).
  split; [apply (WM_ok D g p ltac:(lia) E)|]. split; [intros S; rewrite S; reflexivity|]. split.
  { intros S. rewrite S. apply Forall_forall. intros x X. apply repeat_spec in X. exact X. }
  split; [|split; [apply land3|]].
  - destruct G as (_ & _ & M & _). unfold mixing_nibble.
    assert (ML : Z.lor (want_mixing g) (Z.shiftl (pm_adv p) 3) = want_mixing g + 8 * pm_adv p).
    { rewrite lor_shift_add by (try change (2 ^ 3) with 8; lia). change (2 ^ 3) with 8. lia. }
    rewrite ML. change 3 with (2 ^ 2 - 1) at 1. rewrite land_mask by lia. rewrite Z.shiftr_div_pow2 by lia. change (2 ^ 2) with 4. lia.
  - intros i I. assert (H : sane_speed (nth_pair speeds i)) by (apply Forall_nth_pair; [exact F3|exact sane0]).
    assert (N : nth_pair ([f8_of (nth_pair speeds 0); f8_of (nth_pair speeds 1)] ++ [f8_of (nth_pair speeds 2); f8_of (nth_pair speeds 3)]) i = f8_of (nth_pair speeds i)).
    { assert (C : i = 0 \/ i = 1 \/ i = 2 \/ i = 3) by lia. destruct C as [->|[->|[->| ->]]]; reflexivity. }
    rewrite N. destruct (f8_close _ H) as (a & b & Q). exists a, b. exact Q.
Qed.
(** C25: short codes.  Code 0..3 is the cache entry itself; code 4..14 is entry 0 or 1
    (bit 1) plus or minus (bit 0) a quarter of the code.  The second component says
    whether the code is usable (the distance is positive). *)
Theorem C25_short_code_meaning : forall l code, 0 <= znth l 0 < 2 ^ 31 - 4 -> 0 <= znth l 1 < 2 ^ 31 - 4 ->
  (0 <= code < 4 -> distance_from_code l code = (znth l code, true)) /\
  (4 <= code < 15 -> let x := znth l (code / 2 mod 2) + (if Z.odd code then - (code / 4) else code / 4) in
     snd (distance_from_code l code) = (0 <? x) /\ (0 < x -> fst (distance_from_code l code) = x)).
Proof.
  intros l code H0 H1. split; intros C.
  - unfold distance_from_code. destruct (Z.ltb_spec code 4); [reflexivity|lia].
  - assert (E : code = 4 \/ code = 5 \/ code = 6 \/ code = 7 \/ code = 8 \/ code = 9 \/ code = 10 \/ code = 11 \/ code = 12 \/ code = 13 \/ code = 14) by lia.
    repeat (destruct E as [E|E]; [subst code|]); [.. |subst code]; unfold distance_from_code; cbv zeta;
    match goal with |- context[Z.shiftr ?c 2] => const (Z.shiftr c 2); const (Z.land c 1); const (Z.land c 2); const (c / 4); const (c / 2 mod 2); const (c <? 4); const (Z.odd c) end; cbv iota; cbn [fst snd];
    repeat match goal with |- context[Z.land ?a ?b] => const (Z.land a b) end; repeat match goal with |- context[Z.shiftl ?a ?b] => const (Z.shiftl a b) end;
    repeat match goal with |- context[Z.shiftr ?a ?b] => const (Z.shiftr a b) end;
    unfold i32;
    match goal with |- context[znth l ?i] => set (x := znth l i) in *; clearbody x end; clear - H0 H1; lia.
Qed.
(** Whatever the encoder writes other than "no short code" (15), the decoder reads back. *)
Theorem C25_short_code_exact : forall l d, distance_mnemonic_code l d <> 15 ->
  0 <= distance_mnemonic_code l d < 15 /\ distance_from_code l (distance_mnemonic_code l d) = (d, true).
Proof. intros l d N. destruct (mnemonic_spec l d) as (M1 & M2). split; [lia|apply M2; lia]. Qed.
(** The cache holds four different distances in every reachable state, and a coded
    distance moves to its front. *)
Theorem C25_cache : forall R (RR : replayer R) wl D c d, big D -> reachable RR wl D c ->
  let l := distance_lru (k_bk c) in
  zlen l = 4 /\ NoDup l /\
  distance_lru (obs_distance (k_bk c) d) = firstn 4 (d :: filter (fun x => negb (x =? d)) l).
Proof.
  intros R RR wl D c d B RC. cbv zeta. destruct (reachable_inv RR wl D c B RC) as (I & _). destruct (ib_dlru _ _ (ic_bk _ _ _ _ I)) as (L & N).
  split; [exact L|]. split; [exact N|]. apply obs_distance_mtf; assumption.
Qed.
(** C26: the decoder's two nibble streams hold what the encoder wrote, then anything. *)
Theorem C26_stream_roundtrip : forall R (RR : replayer R) wl D g r0 cmds r,
  big D -> cfg_ok g -> Forall (encodable D g) cmds -> replay_to RR r0 (coded_all wl D g (pm_new D) cmds) = Some r ->
  exists fuel c es, enc_all RR wl D fuel g cmds (codec_new D r0) = Some (c, coded_all wl D g (pm_new D) cmds, es) /\ writable es /\ k_rec c = r /\
    forall rest, dec_all RR wl D fuel (S (length cmds)) (codec_new D r0) (chan_of es rest) = Some (c, coded_all wl D g (pm_new D) cmds, es, rest).
Proof.
  intros R RR wl D g r0 cmds r B G F RP.
  destruct (run_all RR wl D B g G cmds (codec_new D r0) r) as (f & c & es & E & W & _ & RE); [apply inv_codec_new; [exact adapted0|exact adapted_blend|exact tame_pos|exact B]|reflexivity|exact F|exact RP|].
  exists f, c, es. split; [exact E|]. split; [exact W|]. split; [exact RE|]. intros rest. apply dec_all_of_enc with (1 := E).
Qed.
(** Commands that come back unchanged: all but prediction modes, provided the stride
    option is open or agrees and the dictionary length given is the true one. *)
Definition unchanged (wl : word_len_fn) (g : cfg) (c : command) : Prop :=
  match c with
  | PredictionMode _ => False
  | Dict ws wid tr fs => fs = wl ws wid tr mod 256
  | BlockSwitchLiteral _ s => want_stride g = 9 \/ s = want_stride g
  | _ => True
  end.
Lemma coded_unchanged wl D g : forall cmds old, Forall (unchanged wl g) cmds -> coded_all wl D g old cmds = cmds.
Proof.
  induction cmds as [|c cmds IH]; intros old F; [reflexivity|]. inversion F as [|? ? F1 F2]; subst. cbn [coded_all]. rewrite IH by exact F2. f_equal.
  destruct c; cbn [unchanged coded] in *; try reflexivity; [congruence|destruct F1|]. destruct F1 as [-> | ->]; [reflexivity|]. destruct (want_stride g =? 9); reflexivity.
Qed.
(** With the history as replay buffer: exactly the same commands come back, and both sides
    have replayed their LZ77 meaning. *)
Lemma replay_lz dict wlen : forall cmds h, Forall (replayable dict wlen) cmds -> replay_to (lz_replayer dict wlen) h cmds = Some (h ++ meaning dict h cmds).
Proof.
  induction cmds as [|c cmds IH]; intros h F; cbn [replay_to meaning]; [rewrite app_nil_r; reflexivity|]. inversion F as [|? ? F1 F2]; subst.
  assert (RB : replayableb dict wlen c = true).
  { destruct c; cbn [replayable replayableb] in *; try reflexivity; [|destruct F1 as (w & -> & F3 & F4)]; repeat (apply andb_true_intro; split); try apply Z.leb_le; try apply Z.ltb_lt; try lia. }
  cbv zeta. cbn [rpop lz_replayer]. rewrite RB. destruct (moves_data c) eqn:M; [rewrite IH by exact F2; rewrite app_assoc; reflexivity|].
  destruct c; try discriminate; cbn [meaning1 app]; rewrite app_nil_r; apply IH; exact F2.
Qed.
Theorem C26_same_commands : forall dict wlen wl D g h0 cmds,
  big D -> cfg_ok g -> Forall (encodable D g) cmds -> Forall (unchanged wl g) cmds -> Forall (replayable dict wlen) cmds ->
  exists fuel c es, enc_all (lz_replayer dict wlen) wl D fuel g cmds (codec_new D h0) = Some (c, cmds, es) /\ writable es /\
    k_rec c = h0 ++ meaning dict h0 cmds /\
    forall rest, dec_all (lz_replayer dict wlen) wl D fuel (S (length cmds)) (codec_new D h0) (chan_of es rest) = Some (c, cmds, es, rest).
Proof.
  intros dict wlen wl D g h0 cmds B G F U RP.
  pose proof (C26_stream_roundtrip _ (lz_replayer dict wlen) wl D g h0 cmds (h0 ++ meaning dict h0 cmds) B G F) as H.
  rewrite (coded_unchanged wl D g cmds _ U) in H. apply H. apply replay_lz. exact RP.
Qed.

(** ** Cases *)
Definition demo_dict : dict_fn := fun ws wid tr => if (ws =? 4) && (wid =? 1) && (tr =? 0) then Some [116; 105; 109; 101] else None.
Definition demo_wl : word_len_fn := fun ws wid tr => match demo_dict ws wid tr with Some w => zlen w | None => 0 end.
Definition demo_cfg : cfg := CFG 2 None true 9 4.
Definition demo_pm : predmode := PM [0; 1; 2; 1] [0; 3; 0; 1] (repeat 4 (Z.to_nat 8192)) 2 0 1 [(0, 0); (0, 0)] [(0, 0); (0, 0)] [(64, 56); (0, 0)] true.
Definition demo_cmds : list command :=
  [Literal [104; 101; 108; 108; 111] false; Copy 5 7; BlockSwitchLiteral 3 2; Dict 4 1 0 4; Copy 2 70; BlockSwitchCommand 200; BlockSwitchDistance 1; Literal [7; 255] true].
Example C20_case : big real_dims /\ cfg_ok demo_cfg /\ Forall (encodable real_dims demo_cfg) demo_cmds /\ encodable real_dims demo_cfg (PredictionMode demo_pm) /\
  Forall (unchanged demo_wl demo_cfg) demo_cmds /\ Forall (replayable demo_dict 64) demo_cmds.
Proof.
  split; [vm_compute; intuition discriminate|]. split; [unfold cfg_ok, nibble; cbn; lia|]. split; [|split; [|split]].
  - unfold demo_cmds. repeat constructor; cbn; unfold byte, nibble; try lia; change (zlen [104; 101; 108; 108; 111]) with 5; change (zlen [7; 255]) with 2; try lia; vm_compute; intuition discriminate.
  - unfold demo_pm. cbn [encodable]. split; [cbn; lia|]. split; [cbn; lia|]. split.
    + eexists. split; [vm_compute; reflexivity|]. split; [|reflexivity]. repeat (apply Forall_cons; [unfold sane_speed; cbn [fst snd]; lia|]). apply Forall_nil.
    + split; [intros _|intros _].
      * cbn [lit_map src_map dist_map]. assert (BB : forall l, forallb (fun x => (0 <=? x) && (x <? 256)) l = true -> bytes l).
        { intros l H. rewrite forallb_forall in H. apply Forall_forall. intros x X. specialize (H x X). unfold byte. lia. }
        split; [apply BB; reflexivity|]. split; [vm_compute; discriminate|]. split; [apply BB; reflexivity|]. split; vm_compute; discriminate.
      * cbn [mixing]. split; [apply Forall_forall; intros x X; apply repeat_spec in X; subst x; unfold nibble; lia|]. unfold zlen. rewrite repeat_length. cbn [real_dims n_mix]. lia.
  - unfold demo_cmds. repeat constructor; cbn; auto.
  - unfold demo_cmds. repeat (constructor; [cbn [replayable]; try exact Logic.I; try lia|]); try constructor.
    exists [116; 105; 109; 101]. split; [reflexivity|]. split; [vm_compute; reflexivity|right; reflexivity].
Qed.
(** one run computed: the nibbles on both streams (small tables only to keep it quick) *)
Example C26_case : exists c es, enc_all (lz_replayer demo_dict 64) demo_wl (DIMS 4 4 4) 200 demo_cfg demo_cmds (codec_new (DIMS 4 4 4) (repeat 0 64)) = Some (c, demo_cmds, es) /\
  vals CMD es = [3; 4; 1; 7; 4; 4; 5; 2; 2; 0; 0; 0; 1; 0; 0; 1; 15; 3; 0; 6; 11; 5; 15; 8; 12; 6; 0; 3; 15; 1; 15] /\ vals LIT es = [6; 8; 6; 5; 6; 12; 6; 12; 6; 15; 0; 7; 15; 15].
Proof. eexists _, _. split; [vm_compute; reflexivity|]. split; vm_compute; reflexivity. Qed.
Example C25_case : distance_mnemonic_code [4; 11; 15; 16] 13 = 10 /\ distance_from_code [4; 11; 15; 16] 10 = (13, true) /\
  distance_from_code [2; 11; 15; 16] 13 = (2 ^ 32 - 1, false).
Proof. vm_compute. auto. Qed.
Print Assumptions C20_copy_roundtrip.
Print Assumptions C21_dict_roundtrip.
Print Assumptions C22_literal_roundtrip.
Print Assumptions C23_block_switch_roundtrip.
Print Assumptions C24_prediction_mode_roundtrip.
Print Assumptions C25_short_code_meaning.
Print Assumptions C25_short_code_exact.
Print Assumptions C25_cache.
Print Assumptions C26_stream_roundtrip.
Print Assumptions C26_same_commands.
