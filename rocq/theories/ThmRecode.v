(** C16, C17, C18: replaying commands through the history window. *)
From Verif Require Import Prelude ProofList ModelMux ModelCmd ModelRecode SpecLz ProofZlist ProofRecode ProofRecode2 ProofRecode3.

(** C16, one call per command (the codec's use of encode_cmd).  For every initial window
    content, every list of replayable commands and every sequence of output capacities:
    the replay never panics and never fails; the output is always a prefix of the LZ77
    meaning; once it reports completion it is exactly the meaning; the reported byte
    count is the number of bytes output; and enough non-empty buffers always complete. *)
Theorem C16_replay : forall dict window cs rooms,
  1 < zlen window -> Forall (replayable dict (zlen window)) cs ->
  exists out r left fin, replay dict (rc_new window) cs rooms = Some (RR out r left fin) /\
    (exists y, meaning dict window cs = out ++ y) /\
    (fin = true -> left = [] /\ out = meaning dict window cs) /\
    total_offset r = zlen out /\
    (Forall (fun n => 0 < n)%nat rooms -> (length cs + length (meaning dict window cs) < length rooms)%nat -> fin = true).
Proof.
  intros dict w cs rooms L V.
  destruct (replay_spec dict rooms cs (rc_new w) w w L V (st_new dict w cs ltac:(lia))) as (out & r & l & f & E & [P D T RM SF II LL] & N).
  exists out, r, l, f. split; [exact E|]. split.
  - destruct P as (y & P). exists y. rewrite <- app_assoc in P. apply app_inv_head in P. exact P.
  - split.
    + intros F. destruct (D F) as (A & B). split; [exact A|]. apply app_inv_head in B. exact B.
    + split; [cbn [rc_new total_offset] in T; lia|]. intros R C. destruct f; [reflexivity|]. exfalso. specialize (N eq_refl R).
      rewrite zlen_app in N. unfold zlen in N. lia.
Qed.

(** C16 for the list interface (encode_commands): here every call that does not finish
    fills its buffer, so the sum of the capacities alone decides completion. *)
Theorem C16_replay_list : forall dict window cs rooms,
  1 < zlen window -> Forall (replayable dict (zlen window)) cs ->
  exists out r left fin, replay_list dict (rc_new window) cs rooms = Some (RR out r left fin) /\
    (exists y, meaning dict window cs = out ++ y) /\
    (fin = true -> left = [] /\ out = meaning dict window cs) /\
    total_offset r = zlen out /\
    ((length (meaning dict window cs) < list_sum rooms)%nat -> fin = true).
Proof.
  intros dict w cs rooms L V.
  destruct (replay_list_spec dict rooms cs (rc_new w) w w L V (st_new dict w cs ltac:(lia))) as (out & r & l & f & E & [P D T RM SF II LL] & N).
  exists out, r, l, f. split; [exact E|]. split.
  - destruct P as (y & P). exists y. rewrite <- app_assoc in P. apply app_inv_head in P. exact P.
  - split.
    + intros F. destruct (D F) as (A & B). split; [exact A|]. apply app_inv_head in B. exact B.
    + split; [cbn [rc_new total_offset] in T; lia|]. intros C. destruct f; [reflexivity|]. exfalso. specialize (N eq_refl).
      rewrite zlen_app in N. unfold zlen in N. lia.
Qed.

Definition demo_dict : dict_fn := fun ws wid tr => if (ws =? 4) && (wid =? 1) then Some [116; 105; 109; 101] else None.
Definition demo_window : list Z := [0; 0; 0; 0; 0; 0; 0; 0].
Definition demo_cmds : list command :=
  [Literal [1; 2; 3] false; Copy 3 7; Dict 4 1 0 4; BlockSwitchLiteral 1 2; Copy 7 9; Copy 1 5; Literal [9] true].
Example C16_case : Forall (replayable demo_dict (zlen demo_window)) demo_cmds /\ 1 < zlen demo_window /\
  meaning demo_dict demo_window demo_cmds =
    [1;2;3; 1;2;3;1;2;3;1; 116;105;109;101; 2;3;1;116;105;109;101;2;3; 3;3;3;3;3; 9] /\
  (exists r, replay demo_dict (rc_new demo_window) demo_cmds (repeat 3%nat 40) =
    Some (RR (meaning demo_dict demo_window demo_cmds) r [] true)) /\
  (exists r, replay_list demo_dict (rc_new demo_window) demo_cmds (repeat 3%nat 10) =
    Some (RR (meaning demo_dict demo_window demo_cmds) r [] true)).
Proof.
  split; [|split; [reflexivity|split; [reflexivity|split; eexists; vm_compute; reflexivity]]].
  unfold demo_cmds. repeat (apply Forall_cons || apply Forall_nil); cbn [replayable]; try exact Logic.I;
    try (split; [vm_compute; split; congruence|vm_compute; congruence]).
  exists [116;105;109;101]. split; [reflexivity|]. split; [reflexivity|right; reflexivity].
Qed.

(** C17: after any replay that has completed, a copy with a distance below the window
    size returns within [n] + 2 rounds, without a panic and without an error, whatever
    the room in the output buffer; it writes at most that room. *)
Theorem C17_copy_terminates : forall dict window cs rooms out r d n room,
  1 < zlen window -> Forall (replayable dict (zlen window)) cs ->
  replay dict (rc_new window) cs rooms = Some (RR out r [] true) ->
  1 <= d < zlen window -> 0 <= n -> 0 <= room ->
  exists res o r', encode_cmd (Z.to_nat n + 2) dict r (Copy d n) room = Some (res, o, r') /\
    res <> OFailure /\ zlen o <= room /\ zlen (ring r') = zlen window /\
    (res = OSuccess -> exists m, copied (window ++ out) (Z.to_nat d) (Z.to_nat n) = o ++ m).
Proof.
  intros dict w cs rooms out r d n room L V E D N R.
  destruct (replay_spec dict rooms cs (rc_new w) w w L V (st_new dict w cs ltac:(lia))) as (out' & r' & l & f & E' & [P DN T RM SF II LL] & _).
  rewrite E in E'. injection E' as <- <- <- <-. specialize (II eq_refl). destruct (DN eq_refl) as (_ & B). change (len (rc_new w)) with (zlen w) in LL. rewrite <- B in II.
  destruct (encode_cmd_spec dict (Copy d n) (w ++ out) r (w ++ out) (w ++ out) room) as (res & o & r1 & E1 & L1 & O1 & T1 & X); try lia.
  - cbn [replayable]. lia.
  - apply idle_mid. exact II.
  - exists res, o, r1. split; [exact E1|]. split; [destruct res; [discriminate|discriminate|contradiction]|]. split; [exact O1|]. split; [unfold len in *; congruence|].
    intros ->. destruct (idle_prefix _ _ _ X) as (y & Y). exists y.
    rewrite <- !app_assoc in Y. apply app_inv_head in Y. apply app_inv_head in Y. exact Y.
Qed.
Example C17_case : exists out r, replay demo_dict (rc_new demo_window) demo_cmds (repeat 3%nat 40) = Some (RR out r [] true) /\ zlen out = 29.
Proof. eexists _, _. split; [vm_compute; reflexivity|reflexivity]. Qed.

(** Distances past everything the window can name are reported as an error... *)
Theorem C17_far_distance_error : forall dict window d n room,
  64 < zlen window -> zlen window < d -> 0 < n -> 0 <= room ->
  exists r, encode_cmd 1 dict (rc_new window) (Copy d n) room = Some (OFailure, [], r) /\ ring r = window.
Proof.
  intros dict w d n room L D N R. unfold encode_cmd. cbn [encode_loop parse_command]. unfold parse_copy. cbn [rc_new sub].
  unfold assert. destruct (Z.leb_spec 0 n); [|lia]. unfold REPEAT_BUFFER_MAX_SIZE. destruct (Z.leb_spec d 64); [lia|]. cbn [andb].
  unfold copy_some. cbn [rc_new di ring]. destruct (Z.leb_spec d 0); [lia|]. destruct (Z.leb_spec d (0 + zlen w)); [lia|].
  cbn [bind]. eexists. split; reflexivity.
Qed.
(** ... but a distance equal to the window size is not: the replay loop never ends
    (finding: no number of rounds is enough), although the window and the command are
    otherwise ordinary. *)
Theorem C17_window_distance_hangs_refuted : forall dict window n room fuel,
  64 < zlen window -> 0 < n -> 0 <= room ->
  encode_cmd fuel dict (rc_new window) (Copy (zlen window) n) room = None.
Proof.
  intros dict w n room fuel L N R. unfold encode_cmd. enough (E : encode_loop fuel dict (rc_new w) (Copy (zlen w) n) room = None) by (rewrite E; reflexivity).
  revert room R. induction fuel as [|fuel IH]; intros room R; [reflexivity|]. cbn [encode_loop parse_command].
  assert (PC : parse_copy (rc_new w) (zlen w) n = Some (ONeedsMoreOutput, rc_new w)).
  { unfold parse_copy. cbn [rc_new sub]. unfold assert. destruct (Z.leb_spec 0 n); [|lia]. unfold REPEAT_BUFFER_MAX_SIZE.
    destruct (Z.leb_spec (zlen w) 64); [lia|]. cbn [andb]. unfold copy_some, rc_new. cbn [di ring sub oi total_offset]. destruct (Z.leb_spec (zlen w) 0); [lia|].
    destruct (Z.leb_spec (zlen w) (0 + zlen w)); [|lia]. replace (0 + zlen w - zlen w) with 0 by lia. unfold assert.
    destruct (Z.leb_spec 0 (zlen w)); [|lia]. change (0 <? 0) with false. cbn match.
    match goal with |- context [slice w 0 ?t] => replace t with 0 by (unfold space_left; cbn [oi di ring]; change (0 <=? 0) with true; cbv iota; lia) end.
    rewrite slice_ok by lia. cbn [bind]. destruct (Z.leb_spec (0 + 0) (zlen w)); [|lia]. cbn [bind].
    destruct (Z.eqb_spec 0 (n - 0)); [lia|]. unfold set_sub, set_pos. cbn [ring sub di oi total_offset].
    change (0 + 0) with 0. destruct (Z.eqb_spec 0 (zlen w)); [lia|]. change (zfirst 0 (zskip 0 w)) with (@nil Z).
    reflexivity. }
  assert (FL : rflush (rc_new w) room = Some (OSuccess, [], rc_new w)).
  { unfold rflush, rc_new. cbn [di oi ring sub total_offset]. change (0 <? 0) with false. cbn [bind]. rewrite andb_false_r. reflexivity. }
  rewrite PC. cbn [bind]. rewrite FL. cbn [bind]. change (zlen (@nil Z)) with 0. rewrite Z.sub_0_r, (IH room R). reflexivity.
Qed.
(** ... a distance of zero divides by zero (panic) ... *)
Theorem C17_zero_distance_panics_refuted : forall dict r n room fuel,
  0 <= di r <= zlen (ring r) -> sub r = 0 -> 0 < n -> encode_cmd fuel dict r (Copy 0 n) room = None.
Proof.
  intros dict r n room fuel D S N. unfold encode_cmd. destruct fuel; [reflexivity|]. cbn [encode_loop parse_command].
  unfold parse_copy. rewrite S. unfold assert. destruct (Z.leb_spec 0 n); [|lia]. unfold REPEAT_BUFFER_MAX_SIZE. change (0 <=? 64) with true.
  destruct (Z.ltb_spec 0 (n - 0)); [|lia]. cbn [andb]. unfold copy_decoded. destruct (Z.ltb_spec (di r) 0); [lia|]. cbn [bind].
  change (0 =? 0) with true. cbn [negb bind]. reflexivity.
Qed.
(** ... and a distance between the window size and window size plus write position can
    panic on a slice bound. *)
Example C17_wrapped_distance_panics_refuted :
  exists out r, replay demo_dict (rc_new (repeat 0 128)) [Literal (repeat 7 70) false] [200%nat; 200%nat] = Some (RR out r [] true) /\
  encode_cmd 50 demo_dict r (Copy 130 40) 200 = None.
Proof. eexists _, _. split; [vm_compute; reflexivity|]. vm_compute. reflexivity. Qed.

(** C18: the eight bytes handed to the literal predictor.  They are always the last
    eight bytes of the history, and depend only on the history and the window size,
    never on the output schedule; but their order does depend on the write position. *)
Lemma nth_zskip (l : list Z) (i : Z) : 0 <= i < zlen l -> zfirst 1 (zskip i l) = [nth (Z.to_nat i) l 0].
Proof.
  intros H. unfold zfirst, zskip. change (Z.to_nat 1) with 1%nat. rewrite (nth_as_skip l (Z.to_nat i)) by (unfold zlen in H; lia). reflexivity.
Qed.
Lemma hist_nth r h j : ok r h -> 1 <= j <= len r ->
  nth (Z.to_nat (zlen h - j)) h 0 = nth (Z.to_nat ((di r + len r - j) mod len r)) (ring r) 0.
Proof.
  intros K J. pose proof K as (A & B & C & _).
  assert (G : forall a b c, [a] = [b] -> b = c -> a = c :> Z) by (intros a b c Q1 Q2; injection Q1; congruence).
  destruct (Z.le_gt_cases j (di r)) as [Q|Q].
  - assert (M : (di r + len r - j) mod len r = di r - j) by (replace (di r + len r - j) with (di r - j + 1 * len r) by lia; rewrite Z.mod_add, Z.mod_small by lia; reflexivity).
    rewrite M. eapply G; [|reflexivity]. rewrite <- (nth_zskip h) by lia. rewrite <- (nth_zskip (ring r)) by (unfold len in *; lia).
    apply hist_near; auto; lia.
  - rewrite Z.mod_small by lia. eapply G; [|reflexivity]. rewrite <- (nth_zskip h) by lia. rewrite <- (nth_zskip (ring r)) by (unfold len in *; lia).
    apply hist_far; auto; lia.
Qed.
Lemma last8_nth h : (8 <= length h)%nat -> last8 h = map (fun i => nth (length h - 8 + i) h 0) (seq 0 8).
Proof.
  intros L. unfold last8. assert (SL : length (skipn (length h - 8) h) = 8%nat) by (rewrite skipn_length; lia).
  assert (N : forall i, nth (length h - 8 + i) h 0 = nth i (skipn (length h - 8) h) 0).
  { intros i. rewrite <- (firstn_skipn (length h - 8) h) at 2. rewrite app_nth2; rewrite firstn_length; [|lia]. f_equal. lia. }
  erewrite map_ext; [|exact N]. destruct (skipn (length h - 8) h) as [|a [|b [|c [|d [|e [|f [|g [|i [|]]]]]]]]]; try discriminate. reflexivity.
Qed.

Theorem C18_last_8 : forall dict window k cs rooms out r,
  3 <= k -> zlen window = 2 ^ k -> Forall (replayable dict (zlen window)) cs ->
  replay dict (rc_new window) cs rooms = Some (RR out r [] true) ->
  let history := window ++ meaning dict window cs in
  last_8_literals r = Some (if zlen (meaning dict window cs) mod zlen window <? 8 then rev (last8 history) else last8 history).
Proof.
  intros dict w k cs rooms out r K8 L V E.
  assert (P8 : 8 <= 2 ^ k) by (change 8 with (2 ^ 3); apply Z.pow_le_mono_r; lia).
  destruct (replay_spec dict rooms cs (rc_new w) w w ltac:(change (len (rc_new w)) with (zlen w); lia) V (st_new dict w cs ltac:(lia))) as (out' & r' & l & f & E' & [P DN T RM SF II LL] & _).
  rewrite E in E'. injection E' as <- <- <- <-. specialize (II eq_refl). change (len (rc_new w)) with (zlen w) in LL.
  destruct II as (K & _ & _ & q & Q). cbv zeta.
  set (h := w ++ meaning dict w cs) in *. pose proof K as (A & B & C & _).
  assert (DI : zlen (meaning dict w cs) mod zlen w = di r).
  { unfold h in Q. rewrite zlen_app, LL in Q. replace (zlen (meaning dict w cs)) with (di r + (q - 1) * zlen w) by lia.
    rewrite Z.mod_add by lia. apply Z.mod_small. lia. }
  rewrite DI. unfold last_8_literals. assert (L8 : (8 <= length h)%nat) by (unfold zlen in *; lia).
  destruct (Z.ltb_spec (di r) 8) as [D|D].
  - f_equal. unfold fallback_last_8. fold (len r). rewrite (last8_nth h L8).
    assert (EQ : forall i, In i (seq 0 8) -> nth (Z.to_nat (Z.land (di r + len r - Z.of_nat i - 1) (len r - 1))) (ring r) 0 = nth (length h - 1 - i) h 0).
    { intros i I. apply in_seq in I. 
      replace (length h - 1 - i)%nat with (Z.to_nat (zlen h - (Z.of_nat i + 1))) by (unfold zlen; lia).
      rewrite (hist_nth r h (Z.of_nat i + 1) K) by lia. f_equal. f_equal. rewrite LL, L.
      replace (2 ^ k - 1) with (Z.ones k) by (rewrite Z.ones_equiv; lia). rewrite Z.land_ones by lia. f_equal. lia. }
    erewrite map_ext_in; [|exact EQ]. clear - L8. cbn [seq map rev app]. repeat (f_equal; try lia).
  - rewrite slice_ok by (unfold len in *; lia). f_equal. rewrite <- (hist_near r h 8 8 K) by lia.
    unfold last8. rewrite zfirst_all by (rewrite zlen_skip; lia). unfold zskip. f_equal. unfold zlen. lia.
Qed.
Theorem C18_order_depends_on_position_refuted : ~ (forall dict window k cs rooms out r,
  3 <= k -> zlen window = 2 ^ k -> Forall (replayable dict (zlen window)) cs ->
  replay dict (rc_new window) cs rooms = Some (RR out r [] true) ->
  last_8_literals r = Some (last8 (window ++ meaning dict window cs))).
Proof.
  intros H.
  specialize (H demo_dict (repeat 0 16) 4 [Literal [1;2;3] false] [20%nat; 20%nat] [1;2;3]).
  assert (R : replay demo_dict (rc_new (repeat 0 16)) [Literal [1;2;3] false] [20%nat;20%nat] = Some (RR [1;2;3] (RC [1;2;3;0;0;0;0;0;0;0;0;0;0;0;0;0] 3 0 3 3) [] true)) by (vm_compute; reflexivity).
  specialize (H _ ltac:(lia) eq_refl ltac:(repeat constructor) R). vm_compute in H. discriminate.
Qed.
Example C18_case : exists out r, replay demo_dict (rc_new demo_window) demo_cmds (repeat 3%nat 40) = Some (RR out r [] true) /\
  last_8_literals r = Some (rev [2; 3; 3; 3; 3; 3; 3; 9]) /\ zlen demo_window = 2 ^ 3.
Proof. eexists _, _. split; [vm_compute; reflexivity|split; reflexivity]. Qed.

Print Assumptions C16_replay.
Print Assumptions C16_replay_list.
Print Assumptions C17_copy_terminates.
Print Assumptions C17_far_distance_error.
Print Assumptions C17_window_distance_hangs_refuted.
Print Assumptions C17_zero_distance_panics_refuted.
Print Assumptions C18_last_8.
Print Assumptions C18_order_depends_on_position_refuted.
