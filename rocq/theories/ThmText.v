(** The textual command format and the two tools that read it. *)
From Coq Require Import String Ascii.
From Verif Require Import Prelude ProofList ModelAns SpecAns ProofAnsRt ModelCdf SpecCdf ModelMux SpecMux ProofZlist ProofMux ProofMuxW ProofMuxR ModelCmd ModelCrc SpecCrc ProofCrc ModelHeader SpecHeader ProofHeader ThmHeader ModelRecode SpecLz ModelPriors ModelCodec ModelLit ModelPm ModelTop SpecCodec SpecReplay ProofCodecInv ProofCodecInv2 ProofRun ProofCopy ProofTop ThmCodec ModelEnc SpecEnc SpecFile ProofEnc ProofEnc2 ProofEnc3 ProofEnc4 ProofSim ThmEnc ProofRecode ProofRecode2 ProofRecode3 ModelIo SpecIo ModelTool SpecTool ThmTool ModelText SpecText ProofText ProofText2 ProofText3.

(** C58.  A line of the textual format is read as the command it describes, a line that
    stands for none is read as none, and ... *)
Theorem C58_line_is_read : forall c s, describes c s -> command_parse s = PCmd c.
Proof. exact describes_ok. Qed.
Theorem C58_nothing_is_read : forall s, says_nothing s -> command_parse s = PNone.
Proof. exact nothing_ok. Qed.
(** ... no line makes the parser panic except "ltype" with a number and nothing else. *)
Theorem C58_panics_exactly_on : forall s, command_parse s = PPanic <->
  exists t n d, s = str "ltype" ++ [32] ++ t /\ numeral n d /\ n < 2 ^ 32 /\ (t = d \/ t = 43 :: d).
Proof. exact panic_iff. Qed.
(** So the claim that a malformed line is reported as an error is false. *)
Theorem C58_never_panics_refuted : ~ (forall s, command_parse s <> PPanic).
Proof. intros H. apply (H (str "ltype 1")). vm_compute. reflexivity. Qed.
(** Numbers that do not fit their field are cut off silently: this is not a description
    of block type 0, and yet it is read as one. *)
Theorem C58_overflow_is_reported_refuted :
  command_parse (str "ctype 256") = PCmd (BlockSwitchCommand 0) /\
  command_parse (str "dict 260 word 260,1 func 256") = PCmd (Dict 4 1 0 4).
Proof. split; vm_compute; reflexivity. Qed.

(** C59.  Compressing a text: whatever the line reads and the writes do, the tool ends;
    if no write fails it ends with success and has written a complete file for exactly
    the commands of the text. *)
Theorem C59_text_is_compressed : forall dict wl D g w cmds a b,
  big D -> cfg_ok g -> acceptable dict wl D g (choose_window (Some w)) cmds -> streams_of dict wl D g (choose_window (Some w)) cmds a b ->
  exists fuel0 n0, forall fuel n src f, (fuel0 <= fuel)%nat -> (n0 <= n)%nat -> text w cmds src ->
  exists f' e, tool_compress_ir dict wl D g fuel n src f = (f', e) /\
    ((exists o, e = TDone /\ f_got f' = f_got f ++ o /\ is_file (choose_window (Some w)) a b o) \/ e = TError /\ ~ good_output (f_evs f)).
Proof.
  intros dict wl D g w cmds a b B G AC (fuel0 & c & es & E & W & EA & EB). set (ws := choose_window (Some w)) in *.
  pose proof (choose_window_range (Some w)) as WR. fold ws in WR.
  destruct (enc_ring dict ws (window ws) wl D g fuel0 cmds c _ es ltac:(lia) (window_len ws ltac:(lia)) E) as (c' & E').
  destruct (header_bytes ws (choose_window_byte (Some w))) as (BH & HL).
  pose proof (BA es a W EA) as BA. pose proof (ProofEnc4.BB es b W EB) as BB.
  set (most := bound a b + 16). exists fuel0, (S (Z.to_nat most)). intros fuel n src f LE LN TX. unfold tool_compress_ir.
  destruct (first_line_ok _ _ _ TX) as (l & rest & -> & -> & SC).
  pose (Inv := fun cs s T => sinv dict wl D g es a b (make_header ws) fuel0 cs s T /\ ec_phase (cm_codec s) = PRun).
  pose (Fin := fun s T => sinv dict wl D g es a b (make_header ws) fuel0 [] s T /\ ec_phase (cm_codec s) <> PDone).
  pose (Comp := complete a b (make_header ws)).
  destruct (loop_spec (commands_compressor dict wl D g fuel) false Inv Fin Comp most) with (T0 := f_got f) (n := n) (cmds := cmds) (src := rest) (buf := @nil command) (p := compressor_new D (Some w)) (T := @nil Z) (f := f) as (f' & e & EL & K).
  - intros cs later s T (I & P) N. destruct (ProofEnc4.encode_commands_spec dict wl D g es a b (make_header ws) W EA EB BH HL fuel0 fuel cs later s T OBUF I P N LE ltac:(unfold OBUF; lia)) as (o & s' & rs & r & E1 & L1 & I1 & P1 & K).
    exists o, s', rs, (enc_eres r). cbn [take commands_compressor]. rewrite E1. cbn [bind]. split; [reflexivity|]. split; [exact L1|]. split; [split; assumption|]. destruct K as [(-> & ->)|(-> & Z & _)]; [left|right]; auto.
  - intros s T (I & P). destruct (ProofEnc4.flush_spec dict wl D g es a b (make_header ws) W EA EB BH HL fuel0 fuel s T OBUF I P LE ltac:(unfold OBUF; lia)) as (o & s' & r & E1 & L1 & I1 & K).
    exists o, s', (enc_eres r). cbn [finish commands_compressor]. rewrite E1. cbn [bind]. split; [reflexivity|]. split; [exact L1|]. destruct K as [(-> & PD)|(-> & Z & PD)]; [left|right; split; [reflexivity|split; [exact Z|split; assumption]]]. split; [reflexivity|].
    destruct I1 as (O & E2 & HB & HS & _ & PI & _). unfold phinv in PI. rewrite PD in PI. destruct PI as (_ & X & FR & ->). exists X. split; [exact FR|]. rewrite E2. destruct (Nat.eq_dec (cm_hdr s') 16) as [Q|Q]; [rewrite Q, (H16 (make_header ws) HL); reflexivity|]. destruct (HS ltac:(lia)) as (_ & X1). congruence.
  - intros s T (I & P). split; [exact I|congruence].
  - intros cs s T (I & P). exact (sinv_bounds dict wl D g es a b (make_header ws) W EA EB HL fuel0 cs s T I).
  - intros s T (I & P). exact (sinv_bounds dict wl D g es a b (make_header ws) W EA EB HL fuel0 [] s T I).
  - exact SC.
  - split; [|reflexivity]. exists []. cbn [compressor_new cm_hdr cm_codec cm_ws firstn app ecodec_new ec_phase]. split; [reflexivity|]. split; [lia|]. split; [split; reflexivity|]. split; [reflexivity|]. split; [|split; [|constructor]].
    + unfold phinv. cbn [ec_phase ec_parts ec_codec]. exists [], es. split; [reflexivity|]. split; [apply einv_new|]. split; [|reflexivity]. eexists _, _. exact E'.
    + unfold crcok. cbn [ec_phase ec_frozen ec_crc]. split; reflexivity.
  - rewrite app_nil_r. reflexivity.
  - lia.
  - exists f', e. split; [exact EL|]. destruct K as [(o & -> & EO & X & FR & EX)|(Q & NG)]; [left|right; split; [destruct Q as [Q|Q]; exact Q|exact NG]]. exists o. split; [reflexivity|]. split; [exact EO|].
    exists X. split; [apply framed_framing, FR|]. split; [apply framed_carries; assumption|]. rewrite EX.
    assert (BX : bytes X). { destruct FR as (fs & GG & -> & P0 & P1). apply bytes_app; [apply enc_bytes; [exact GG|rewrite P0; exact BA|rewrite P1; exact BB]|]. repeat constructor; unfold byte; lia. }
    rewrite checksum_bytes_trailer, crc0_spec by (apply bytes_app; assumption). reflexivity.
Qed.

(** C59, with C55: the text compressed with the tool and decompressed with the tool gives
    the bytes that the commands of the text stand for. *)
Theorem C59_text_round_trip : forall dict wl D g w cmds skip,
  big D -> cfg_ok g -> acceptable dict wl D g (choose_window (Some w)) cmds ->
  exists fuel0 n0, forall fuel n src evs, (fuel0 <= fuel)%nat -> (n0 <= n)%nat -> text w cmds src -> good_output evs ->
  exists f', tool_compress_ir dict wl D g fuel n src (OF [] evs) = (f', TDone) /\
    forall src2 bs evs2, Forall honest src2 -> content src2 = f_got f' -> 0 <= bs -> writable_file evs2 -> faulty src2 = false ->
    exists n2, forall n', (n2 <= n')%nat ->
    exists f2, tool_decompress dict wl D fuel n' bs skip [] src2 (OF [] evs2) = (f2, TDone) /\ f_got f2 = meaning dict (window (choose_window (Some w))) cmds.
Proof.
  intros dict wl D g w cmds skip B G AC. destruct (C28_streams_exist dict wl D g _ cmds B G AC) as (a & b & ST & _).
  destruct (C59_text_is_compressed dict wl D g w cmds a b B G AC ST) as (N1 & n0 & HC).
  destruct (C55_decompress_tool dict wl D g _ cmds a b skip B G (choose_window_range (Some w)) AC ST) as (N2 & HD).
  exists (Nat.max N1 N2), n0. intros fuel n src evs LE LN TX GO.
  destruct (HC fuel n src (OF [] evs) ltac:(lia) LN TX) as (f' & e & E & [(o & -> & EO & IF)|(_ & Q)]); [|contradiction]. cbn [f_got app] in EO. exists f'. split; [exact E|].
  intros src2 bs evs2 HO ET BS WF FA. destruct (HD fuel o [] src2 bs evs2 ltac:(lia) IF ltac:(constructor) HO ltac:(rewrite app_nil_r; congruence) BS) as (n2 & H2). exists n2. intros n' LN'.
  destruct (H2 n' LN') as (f2 & e2 & E2 & [(-> & K)|(_ & _ & [Q|Q])]); [|contradiction|congruence]. exists f2. auto.
Qed.

(** C60.  Replaying a text: the tool writes exactly the bytes the commands stand for; the
    only way not to is a failing write, and a window outside 10..24 is an error. *)
Theorem C60_text_is_replayed : forall dict w cmds,
  10 <= w <= 24 -> Forall (replayable dict (2 ^ w)) cmds ->
  exists fuel0 n0, forall fuel n src f, (fuel0 <= fuel)%nat -> (n0 <= n)%nat -> text w cmds src ->
  exists f' e, tool_recode dict fuel n src f = (f', e) /\
    (e = TDone /\ f_got f' = f_got f ++ meaning dict (window w) cmds \/ (e = TError \/ e = TPanic) /\ ~ good_output (f_evs f)).
Proof.
  intros dict w cmds WR V. set (goal := window w ++ meaning dict (window w) cmds). assert (ZW : zlen (window w) = 2 ^ w) by (apply window_len; lia).
  assert (P2 : 1 < 2 ^ w) by (change 1 with (2 ^ 0); apply Z.pow_lt_mono_r; lia).
  assert (MA : forall cs h later, h ++ meaning dict h (cs ++ later) = (h ++ meaning dict h cs) ++ meaning dict (h ++ meaning dict h cs) later).
  { induction cs as [|x cs IH]; intros h later; [cbn [app meaning]; rewrite app_nil_r; reflexivity|]. cbn [app]. rewrite !meaning_cons, IH. reflexivity. }
  exists (list_max (map (cmd_fuel dict) cmds)), (S (Z.to_nat (zlen goal))). intros fuel n src f LE LN TX. unfold tool_recode.
  destruct (first_line_ok _ _ _ TX) as (l & rest & -> & -> & SC). destruct (Z.leb_spec 10 w); [|lia]. destruct (Z.leb_spec w 24); [|lia]. cbn [andb].
  assert (FU : forall c, In c cmds -> (cmd_fuel dict c <= fuel)%nat). { intros c Hc. pose proof (proj1 (list_max_le (map (cmd_fuel dict) cmds) _) (le_n _)) as Q. rewrite Forall_forall in Q. specialize (Q _ (in_map _ _ _ Hc)). lia. }
  pose (Inv := fun cs r T => len r = 2 ^ w /\ valid dict (2 ^ w) cs /\ (forall c, In c cs -> (cmd_fuel dict c <= fuel)%nat) /\ exists h, st dict r cs h (window w ++ T) /\ h ++ meaning dict h cs = goal).
  pose (Fin := fun r T => idle r goal (window w ++ T)).
  pose (Comp := fun T => window w ++ T = goal).
  assert (LB : forall T y, goal = (window w ++ T) ++ y -> zlen T <= zlen goal). { intros T y Q. rewrite Q, !zlen_app. pose proof (zlen_nonneg y). pose proof (zlen_nonneg (window w)). lia. }
  destruct (loop_spec (recoder dict fuel) true Inv Fin Comp (zlen goal)) with (T0 := f_got f) (n := n) (cmds := cmds) (src := rest) (buf := @nil command) (p := rc_new (window w)) (T := @nil Z) (f := f) as (f' & e & EL & K).
  - intros cs later r T (L & VA & FC & h & S & M) N. assert (SC' : st dict r cs h (window w ++ T)) by (destruct cs; [contradiction N; reflexivity|exact S]).
    assert (VC : valid dict (len r) cs) by (rewrite L; unfold valid in *; apply Forall_app in VA; apply VA).
    destruct (ProofRecode3.encode_commands_spec dict cs fuel r h (window w ++ T) OBUF ltac:(rewrite L; exact P2) VC SC' ltac:(unfold OBUF; lia) ltac:(intros c Hc; apply FC, in_or_app; left; exact Hc)) as (res & o & r' & k & E1 & L1 & Z1 & K1 & _ & K).
    exists o, r', (skipn k cs), (rec_eres res). cbn [take recoder]. rewrite E1. cbn [bind]. split; [reflexivity|]. split; [exact Z1|].
    assert (IN : forall c, In c (skipn k cs ++ later) -> In c (cs ++ later)). { intros c Hc. apply in_app_or in Hc. apply in_or_app. destruct Hc as [Hc|Hc]; [left|right; exact Hc]. rewrite <- (firstn_skipn k cs). apply in_or_app. right. exact Hc. }
    assert (B0 : len r' = 2 ^ w /\ valid dict (2 ^ w) (skipn k cs ++ later) /\ (forall c, In c (skipn k cs ++ later) -> (cmd_fuel dict c <= fuel)%nat)).
    { split; [congruence|]. split; [|intros c Hc; apply FC, IN, Hc]. unfold valid in *. rewrite Forall_forall in *. intros c Hc. apply VA, IN, Hc. }
    destruct B0 as (B1 & B2 & B3). unfold Inv. destruct res; [| |contradiction].
    + destruct K as (-> & EO & ID). rewrite skipn_all in *. cbn [app] in *. split; [|left; auto]. split; [exact B1|]. split; [exact B2|]. split; [exact B3|]. exists (h ++ meaning dict h cs). split; [apply idle_st; rewrite app_assoc; exact ID|]. rewrite <- MA. exact M.
    + destruct K as (ZO & h1 & M1 & S1). split; [|right; auto]. split; [exact B1|]. split; [exact B2|]. split; [exact B3|]. exists h1. split; [|rewrite MA, M1, <- MA; exact M]. rewrite app_assoc. destruct (skipn k cs); [apply idle_st; exact S1|exact S1].
  - intros r T ID. destruct (flush_done r goal (window w ++ T) OBUF ID ltac:(unfold OBUF; lia)) as (res & o & r' & E1 & I1 & _ & _ & Z1 & K).
    exists o, r', (rec_eres res). cbn [finish recoder]. rewrite E1. cbn [bind]. split; [reflexivity|]. split; [exact Z1|]. destruct K as [(-> & Q)|(-> & Q)]; [left|right]; [split; [reflexivity|]; unfold Comp; rewrite app_assoc; exact Q|split; [reflexivity|]; split; [exact Q|]; unfold Fin; rewrite app_assoc; exact I1].
  - intros r T (_ & _ & _ & h & S & M). cbn [st meaning] in *. rewrite app_nil_r in M. unfold Fin. rewrite <- M. exact S.
  - intros cs r T (_ & _ & _ & h & S & M). destruct (st_prefix dict _ _ _ _ S) as (y & Y). rewrite M in Y. exact (LB T y Y).
  - intros r T ID. destruct (idle_prefix _ _ _ ID) as (y & Y). exact (LB T y Y).
  - exact SC.
  - cbn [app]. split; [unfold len; cbn [rc_new ring]; exact ZW|]. split; [exact V|]. split; [exact FU|]. exists (window w). split; [rewrite app_nil_r; apply st_new; rewrite ZW; lia|reflexivity].
  - rewrite app_nil_r. reflexivity.
  - pose proof (zlen_nonneg goal). lia.
  - exists f', e. split; [exact EL|]. destruct K as [(o & -> & EO & X)|(Q & NG)]; [left|right; split; [exact Q|exact NG]]. split; [reflexivity|]. rewrite EO. f_equal. exact (app_inv_head _ _ _ X).
Qed.
Theorem C60_window_out_of_range : forall dict w cmds src fuel n f, text w cmds src -> ~ 10 <= w <= 24 -> tool_recode dict fuel n src f = (f, TError).
Proof.
  intros dict w cmds src fuel n f TX W. unfold tool_recode. destruct (first_line_ok _ _ _ TX) as (l & rest & -> & -> & _). destruct (Z.leb_spec 10 w), (Z.leb_spec w 24); cbn [andb]; try reflexivity. lia.
Qed.
(** C60, the bound of the claim: a failing write in the middle is not reported as an error,
    and neither is a malformed line; both are panics here, while the compressing tool
    reports them. *)
Theorem C60_errors_reported_refuted : forall dict fuel n f,
  tool_recode dict fuel n [LnText (str "window 10"); LnText (str "nonsense")] f = (f, TPanic) /\
  forall wl D g, tool_compress_ir dict wl D g fuel n [LnText (str "window 10"); LnText (str "nonsense")] f = (f, TError).
Proof. intros. split; [|intros]; reflexivity. Qed.

(** ** The claims on a concrete text *)
Ltac a_numeral := split; [vm_compute; discriminate|split; [repeat (apply Forall_cons; [unfold digit; vm_compute; split; discriminate|]); apply Forall_nil|vm_compute; reflexivity]].
Definition demo_lines : list line_event :=
  [LnIntr; LnText (str " window 10 len 90"); LnText (str "insert 5 ""h\x65llo"""); LnText (str "copy 7 from 5 ctx 3"); LnText (str "insert 0"); LnIntr; LnText (str "ltype 3 2");
   LnText (str "dict 4 word 4,1 func 0"); LnText (str "copy 70 from 2"); LnText (str "ctype 200 "); LnText (str "dtype 1"); LnText (str "rndins 2 07fF")].
Ltac pad m c := unfold padded; exists (@nil Z), (@nil Z), (hd 0 (str m)), c, (removelast (tl (str m))); vm_compute; repeat split; auto.
Lemma demo_is_text : text 10 demo_cmds demo_lines.
Proof.
  unfold demo_lines. apply tx_intr. apply (tx_window 10 (str "10") [str "len"; str "90"]).
  { a_numeral. } { lia. } { repeat (apply Forall_cons; [a_word|]). apply Forall_nil. }
  { unfold padded. exists [32], [], 119, 48, (removelast (tl (str "window 10 len 90"))). vm_compute. repeat split; auto. }
  unfold demo_cmds. eapply sc_cmd.
  { apply (ds_insert [104; 101; 108; 108; 111] false (str "5") (str """h\x65llo""")); [discriminate|a_numeral|reflexivity|]. right. exists (str "h\x65llo"). split; [|reflexivity].
    apply (qt_plain 104); [discriminate|discriminate|]. apply (qt_hex 6 5 [108; 108; 111] 54 53); [unfold hex_digit; lia|unfold hex_digit; lia|]. repeat (apply qt_plain; [discriminate|discriminate|]). apply qt_nil. }
  { pad "insert 5 ""h\x65llo"""%string 34. }
  eapply sc_cmd. { apply (ds_copy 7 5 (str "7") (str "5") [str "ctx"; str "3"]); try a_numeral; try lia. repeat (apply Forall_cons; [a_word|]). apply Forall_nil. } { pad "copy 7 from 5 ctx 3"%string 51. }
  eapply sc_skip. { apply (sn_insert false). } { pad "insert 0"%string 48. }
  apply sc_intr.
  eapply sc_cmd. { apply (ds_ltype 3 (str "3") 2 (str "2")); try a_numeral; lia. } { pad "ltype 3 2"%string 50. }
  eapply sc_cmd. { apply (ds_dict 4 1 0 4 (str "4") (str "1") (str "0") (str "4") [] []); try a_numeral; try lia; try apply Forall_nil. intros []. } { pad "dict 4 word 4,1 func 0"%string 48. }
  eapply sc_cmd. { apply (ds_copy 70 2 (str "70") (str "2") []); try a_numeral; try lia. apply Forall_nil. } { pad "copy 70 from 2"%string 50. }
  eapply sc_cmd. { apply (ds_ctype 200 (str "200")); try a_numeral; lia. } { unfold padded. exists [], [32], 99, 48, (removelast (tl (str "ctype 200"))). vm_compute. repeat split; auto. }
  eapply sc_cmd. { apply (ds_dtype 1 (str "1")); try a_numeral; lia. } { pad "dtype 1"%string 49. }
  eapply sc_cmd. { apply (ds_insert [7; 255] true (str "2") (str "07fF")); [discriminate|a_numeral|reflexivity|]. left. apply (hx_cons 0 7); [unfold hex_digit; cbn; lia|unfold hex_digit; cbn; lia|]. apply (hx_cons 15 15); [unfold hex_digit; cbn; lia|unfold hex_digit; cbn; lia|]. apply hx_nil. } { pad "rndins 2 07fF"%string 70. }
  apply sc_nil.
Qed.
Example C58_case : describes (Copy 5 7) (str "copy 7 from 5") /\ command_parse (str "copy 7 from 5") = PCmd (Copy 5 7) /\ command_parse (str "copy x from 5") = PErr /\
  describes (PredictionMode (mode_of [(str "lcontextmap", [str "0"; str "7"]); (str "cmspeedinc", [str "16"; str "1"])] 2)) (str "prediction utf8 lcontextmap 0 7 cmspeedinc 16 1").
Proof.
  split; [apply (ds_copy 7 5 (str "7") (str "5") []); try a_numeral; try lia; apply Forall_nil|]. split; [vm_compute; reflexivity|]. split; [vm_compute; reflexivity|].
  apply (ds_prediction 2 (str "utf8") [(str "lcontextmap", [str "0"; str "7"]); (str "cmspeedinc", [str "16"; str "1"])]); [cbn [In]; auto|].
  apply Forall_cons; [|apply Forall_cons; [|apply Forall_nil]].
  - left. split; [reflexivity|]. apply Forall_cons; [exists 0; split; [a_numeral|lia]|]. apply Forall_cons; [exists 7; split; [a_numeral|lia]|apply Forall_nil].
  - right. right. right. split; [left; reflexivity|]. split; [|vm_compute; discriminate]. apply Forall_cons; [exists 16; split; [a_numeral|lia]|]. apply Forall_cons; [exists 1; split; [a_numeral|lia]|apply Forall_nil].
Qed.
Example C59_case : big real_dims /\ cfg_ok demo_cfg /\ acceptable demo_dict demo_wl real_dims demo_cfg (choose_window (Some 10)) demo_cmds /\ text 10 demo_cmds demo_lines /\
  good_output [WTake 5; WIntr; WTake 100] /\
  (let '(f, e) := tool_compress_ir demo_dict demo_wl (DIMS 4 4 4) demo_cfg 200 5 demo_lines (OF [] [WTake 5; WIntr; WTake 100]) in e = TDone /\ zlen (f_got f) = 77) /\
  snd (tool_compress_ir demo_dict demo_wl (DIMS 4 4 4) demo_cfg 200 5 demo_lines (OF [] [WTake 5; WFault])) = TError.
Proof.
  destruct C28_case as (B & G & A & _). split; [exact B|]. split; [exact G|]. split; [exact A|]. split; [exact demo_is_text|]. split; [repeat constructor|]. split; [vm_compute; split; reflexivity|vm_compute; reflexivity].
Qed.
Example C60_case : Forall (replayable demo_dict (2 ^ 10)) demo_cmds /\ text 10 demo_cmds demo_lines /\
  tool_recode demo_dict 200 5 demo_lines (OF [] [WTake 5; WIntr; WTake 100]) = (OF (meaning demo_dict (window 10) demo_cmds) [], TDone).
Proof.
  split; [|split; [exact demo_is_text|vm_compute; reflexivity]]. destruct C20_case as (_ & _ & _ & _ & _ & R). revert R. apply Forall_impl. intros x. destruct x; cbn [replayable]; auto; [lia|]. intros (w & W1 & W2 & W3). exists w. split; [exact W1|]. split; [lia|exact W3].
Qed.

Print Assumptions C58_line_is_read.
Print Assumptions C58_nothing_is_read.
Print Assumptions C58_panics_exactly_on.
Print Assumptions C58_never_panics_refuted.
Print Assumptions C58_overflow_is_reported_refuted.
Print Assumptions C59_text_is_compressed.
Print Assumptions C59_text_round_trip.
Print Assumptions C60_text_is_replayed.
Print Assumptions C60_window_out_of_range.
Print Assumptions C60_errors_reported_refuted.
