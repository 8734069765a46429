(** C19: raw input to literal commands. *)
From Verif Require Import Prelude ProofList ModelMux ModelCmd ModelRecode SpecLz ModelRaw SpecRaw ProofZlist ProofRecode.

Definition lits (cs : list command) : list Z := flat_map (fun c => match c with Literal d _ => d | _ => [] end) cs.
Lemma lits_app a b : lits (a ++ b) = lits a ++ lits b.
Proof. apply flat_map_app. Qed.

(** all bytes taken so far are in the commands issued so far or in the window *)
Inductive pend (L : Z) (s : raws) : Z -> list Z -> Prop :=
| PA n q : roi s = 0 -> rdi s = n -> 0 <= n < L -> q = zfirst n (rring s) -> pend L s n q
| PB : roi s = L -> rdi s = L -> pend L s L []
| PC n q : roi s = L -> rdi s = n - L -> L <= n < 2 * L - 1 -> q = zfirst (n - L) (rring s) -> pend L s n q.
(** only literal or the one prediction mode command *)
Definition plain pm0 (cs : list command) := Forall (fun c => match c with Literal d h => h = false | PredictionMode pm => pm = pm0 | _ => False end) cs.

Lemma put_first_n (rb d : list Z) a : 0 <= a -> a + zlen d <= zlen rb -> zfirst (a + zlen d) (put_at rb a d) = zfirst a rb ++ d.
Proof.
  intros A B. unfold put_at. pose proof (zlen_nonneg d). rewrite app_assoc.
  rewrite zfirst_app_less by (rewrite zlen_app, zlen_first by lia; lia). apply zfirst_all. rewrite zlen_app, zlen_first by lia. lia.
Qed.

Lemma plain_hdr pm0 s : plain pm0 (if produced_header s then [] else [PredictionMode pm0]).
Proof. destruct (produced_header s); repeat constructor. Qed.
Definition hdr pm0 (s : raws) : list command := if produced_header s then [] else [PredictionMode pm0].
Lemma lits_hdr pm0 s : lits (hdr pm0 s) = [].
Proof. unfold hdr. destruct (produced_header s); reflexivity. Qed.

(** flushing a window that is not wrapped *)
Lemma flush_flat pm0 s n : roi s = 0 -> rdi s = n -> 0 < n <= zlen (rring s) ->
  raw_flush pm0 s CMD_BUFFER = Some (OSuccess, hdr pm0 s ++ [Literal (zfirst n (rring s)) false], RAW (rring s) n n true).
Proof.
  intros O D N.
  assert (F2 : forall h cap, 0 < cap -> raw_flush2 (RAW (rring s) (rdi s) (roi s) h) cap = Some (OSuccess, [Literal (zfirst n (rring s)) false], RAW (rring s) n n h)).
  { intros h cap C. unfold raw_flush2. cbn [rring rdi roi produced_header]. rewrite O, D. destruct (Z.ltb_spec n 0); [lia|]. cbn [bind rring rdi roi produced_header].
    destruct (Z.eqb_spec n 0); [lia|]. cbn [negb]. change (zlen (@nil command)) with 0. destruct (Z.eqb_spec 0 cap); [lia|].
    rewrite slice_ok by lia. cbn [bind]. unfold assert. destruct (Z.leb_spec 0 (zlen (rring s))); [|lia]. destruct (Z.leb_spec n (zlen (rring s))); [|lia].
    rewrite Z.sub_0_r. reflexivity. }
  unfold raw_flush, CMD_BUFFER, hdr. change (16 =? 0) with false. cbv iota. destruct s as [rb d o ph]; cbn [rring rdi roi produced_header] in *. destruct ph; cbn [negb].
  - rewrite F2 by lia. reflexivity.
  - change (16 =? 1) with false. cbv iota. rewrite F2 by lia. reflexivity.
Qed.
(** flushing when the window is full at [L] and nothing or a wrapped part is pending *)
Lemma flush_wrapped pm0 s n : roi s = zlen (rring s) -> rdi s = n -> 0 <= n < zlen (rring s) ->
  exists s', raw_flush pm0 s CMD_BUFFER = Some (OSuccess, hdr pm0 s ++ (if n =? 0 then [] else [Literal (zfirst n (rring s)) false]), s').
Proof.
  intros O D N.
  assert (F2 : forall h cap, 0 < cap -> exists s', raw_flush2 (RAW (rring s) (rdi s) (roi s) h) cap = Some (OSuccess, (if n =? 0 then [] else [Literal (zfirst n (rring s)) false]), s')).
  { intros h cap C. unfold raw_flush2. cbn [rring rdi roi produced_header]. rewrite O, D. destruct (Z.ltb_spec n (zlen (rring s))); [|lia]. rewrite Z.sub_diag. change (0 =? 0) with true. cbn [negb bind rring rdi roi produced_header].
    destruct (Z.eqb_spec n (zlen (rring s))); [lia|].
    destruct (Z.eqb_spec n 0) as [Q|Q]; cbn [negb]; [eexists; reflexivity|]. change (zlen (@nil command)) with 0. destruct (Z.eqb_spec 0 cap); [lia|].
    rewrite slice_ok by lia. cbn [bind]. unfold assert. destruct (Z.leb_spec 0 (zlen (rring s))); [|lia]. destruct (Z.leb_spec n (zlen (rring s))); [|lia].
    rewrite Z.sub_0_r. eexists. reflexivity. }
  unfold raw_flush, CMD_BUFFER, hdr. change (16 =? 0) with false. cbv iota. destruct s as [rb d o ph]; cbn [rring rdi roi produced_header] in *. destruct ph; cbn [negb].
  - destruct (F2 true 16 ltac:(lia)) as (s' & F). rewrite F. eexists. reflexivity.
  - change (16 =? 1) with false. cbv iota. destruct (F2 true (16 - 1) ltac:(lia)) as (s' & F). rewrite F. eexists. reflexivity.
Qed.

Lemma plain_app pm0 a b : plain pm0 a -> plain pm0 b -> plain pm0 (a ++ b).
Proof. intros. apply Forall_app. auto. Qed.
Lemma plain_lit pm0 s d : plain pm0 (hdr pm0 s ++ [Literal d false]).
Proof. apply plain_app; [apply plain_hdr|repeat constructor]. Qed.

(** one stream call *)
Lemma stream_spec pm0 L s n q input : 2 <= L -> zlen (rring s) = L -> pend L s n q -> n + zlen input < 2 * L - 1 ->
  exists res cs s' x input' q', raw_stream pm0 s input CMD_BUFFER = Some (res, cs, s', input') /\ input = x ++ input' /\
    zlen (rring s') = L /\ pend L s' (n + zlen x) q' /\ lits cs ++ q' = q ++ x /\ plain pm0 cs /\
    (res = SNeedsMoreInput -> input' = []) /\ (res = SNeedsMoreOutput -> n + zlen x = L /\ n < L).
Proof.
  intros L2 RL P T. pose proof (zlen_nonneg input) as NI.
  (* the wrapped case, shared by PB and PC *)
  assert (W : forall d rb ph, zlen rb = L -> 0 <= d -> d + zlen input < L - 1 ->
     raw_stream pm0 (RAW rb d L ph) input CMD_BUFFER = Some (SNeedsMoreInput, [], RAW (put_at rb d input) (d + zlen input) L ph, [])).
  { intros d rb ph RB D DT. unfold raw_stream. cbn [rring rdi roi produced_header]. destruct (Z.leb_spec L d); [lia|]. cbn [rring rdi roi produced_header].
    destruct (Z.ltb_spec d L); [|lia]. rewrite Z.min_r by lia. cbn [rring rdi roi produced_header]. rewrite zfirst_all, zskip_all by lia.
    unfold ring_full, CMD_BUFFER. cbn [rring rdi roi]. rewrite zlen_put by lia. rewrite RB.
    destruct (Z.eqb_spec (d + zlen input) L); [lia|]. destruct (Z.eqb_spec (d + zlen input + 1) L); [lia|].
    change ((0 <? 16) && (false || false)) with false. change (16 =? 0) with false. cbv iota. unfold assert. change (zlen (@nil Z) =? 0) with true. reflexivity. }
  destruct s as [rb d o ph]. cbn [rring] in RL. inversion P as [n' q' O D N Q|O D|n' q' O D N Q]; subst n' || idtac; cbn [rring rdi roi] in *.
  - (* filling *) subst o d. set (k := Z.min (L - n) (zlen input)).
    assert (K0 : 0 <= k <= zlen input) by (unfold k; lia).
    assert (FK : zlen (zfirst k input) = k) by (apply zfirst_len_sub; lia).
    unfold raw_stream. cbn [rring rdi roi produced_header]. rewrite RL. fold k. destruct (Z.leb_spec 0 n); [|lia]. change (negb (0 =? 0)) with false. cbv iota.
    cbn [rring rdi roi produced_header]. destruct (Z.ltb_spec (n + k) 0); [lia|].
    set (rb' := put_at rb n (zfirst k input)).
    assert (PL : zlen rb' = L) by (unfold rb'; rewrite zlen_put; lia).
    assert (PF : zfirst (n + k) rb' = q ++ zfirst k input) by (unfold rb'; rewrite <- FK at 1; rewrite put_first_n by lia; rewrite Q; reflexivity).
    assert (EI : input = zfirst k input ++ zskip k input) by (symmetry; apply zfirst_skip).
    destruct (Z.eqb_spec (n + k) L) as [FL|FL].
    + unfold ring_full. cbn [rring rdi roi]. rewrite PL, FL, Z.eqb_refl. cbn [orb]. change ((0 <? CMD_BUFFER) && true) with true. cbv iota.
      rewrite (flush_flat pm0 _ L) by (cbn [rring rdi roi]; lia). cbn [bind rring].
      assert (LQ : lits (hdr pm0 (RAW rb' L 0 ph) ++ [Literal (zfirst L rb') false]) ++ [] = q ++ zfirst k input).
      { rewrite app_nil_r, lits_app, lits_hdr, <- PF, FL. unfold lits. cbn [flat_map app]. apply app_nil_r. }
      assert (PB' : pend L (RAW rb' L L true) (n + zlen (zfirst k input)) []) by (rewrite FK, FL; apply PB; reflexivity).
      destruct (Z.eqb_spec (zlen (zskip k input)) 0) as [Z0|Z0]; cbn [negb].
      * unfold assert. eexists _, _, _, (zfirst k input), (zskip k input), []. split; [reflexivity|]. split; [exact EI|]. split; [exact PL|]. split; [exact PB'|]. split; [exact LQ|].
        split; [apply plain_lit|]. split; [intros _; apply zlen_0_nil; exact Z0|discriminate].
      * eexists _, _, _, (zfirst k input), (zskip k input), []. split; [reflexivity|]. split; [exact EI|]. split; [exact PL|]. split; [exact PB'|]. split; [exact LQ|].
        split; [apply plain_lit|]. split; [discriminate|]. intros _. rewrite FK. lia.
    + assert (KA : k = zlen input) by (unfold k in *; lia).
      unfold ring_full. cbn [rring rdi roi]. rewrite PL. destruct (Z.eqb_spec (n + k) L); [lia|]. destruct (Z.eqb_spec (n + k + 1) 0); [lia|].
      change ((0 <? CMD_BUFFER) && (false || false)) with false. change (CMD_BUFFER =? 0) with false. cbv iota. unfold assert.
      assert (SN : zskip k input = []) by (apply zskip_all; lia). rewrite SN. change (zlen (@nil Z) =? 0) with true. cbv iota.
      eexists _, _, _, (zfirst k input), [], (q ++ zfirst k input). split; [reflexivity|]. split; [rewrite <- SN; exact EI|]. split; [exact PL|].
      split; [|split; [reflexivity|split; [constructor|split; [reflexivity|discriminate]]]].
      rewrite FK. apply PA; cbn [rring rdi roi]; auto. lia.
  - (* just after the first flush *) subst o d n q.
    assert (ST : raw_stream pm0 (RAW rb L L ph) input CMD_BUFFER = raw_stream pm0 (RAW rb 0 L ph) input CMD_BUFFER).
    { unfold raw_stream. cbn [rring rdi roi produced_header]. rewrite Z.leb_refl, RL, Z.sub_diag. rewrite Z.min_l by lia. rewrite zskip_0, zfirst_0.
      destruct (Z.eqb_spec L 0); [lia|]. destruct (Z.leb_spec L 0); [lia|]. cbn [negb rring rdi roi produced_header].
      replace (put_at rb L []) with rb; [reflexivity|]. unfold put_at. rewrite zfirst_all by lia. cbn [app]. change (zlen (@nil Z)) with 0. rewrite zskip_all by lia. rewrite app_nil_r. reflexivity. }
    rewrite ST, W by lia. eexists _, _, _, input, [], input. split; [reflexivity|]. split; [rewrite app_nil_r; reflexivity|]. cbn [rring]. split; [rewrite zlen_put; lia|].
    split; [|split; [reflexivity|split; [constructor|split; [reflexivity|discriminate]]]].
    apply PC; cbn [rring rdi roi]; [reflexivity|lia|lia|]. replace (L + zlen input - L) with (0 + zlen input) by lia. rewrite put_first_n by lia. rewrite zfirst_0. reflexivity.
  - (* wrapped *) subst o d. rewrite W by lia.
    eexists _, _, _, input, [], (q ++ input). split; [reflexivity|]. split; [rewrite app_nil_r; reflexivity|]. cbn [rring]. split; [rewrite zlen_put; lia|].
    split; [|split; [reflexivity|split; [constructor|split; [reflexivity|discriminate]]]].
    apply PC; cbn [rring rdi roi]; [reflexivity|lia|lia|]. replace (n + zlen input - L) with (n - L + zlen input) by lia. rewrite put_first_n by lia. rewrite Q. reflexivity.
Qed.

Lemma encode_spec pm0 L s n q input fuel : 2 <= L -> zlen (rring s) = L -> pend L s n q -> n + zlen input < 2 * L - 1 -> (2 <= fuel)%nat ->
  exists cs s' q', raw_encode fuel pm0 s input = Some (cs, s') /\ zlen (rring s') = L /\ pend L s' (n + zlen input) q' /\
    lits cs ++ q' = q ++ input /\ plain pm0 cs.
Proof.
  intros L2 RL P T F. destruct fuel as [|[|fuel]]; try lia. cbn [raw_encode].
  destruct (stream_spec pm0 L s n q input L2 RL P T) as (res & cs & s1 & x & i1 & q1 & E & EI & R1 & P1 & LQ & PL & X1 & X2).
  rewrite E. cbn [bind]. destruct res.
  - rewrite (X1 eq_refl), app_nil_r in EI. subst x. eexists _, _, _. split; [reflexivity|]. split; [exact R1|]. split; [exact P1|]. split; [exact LQ|exact PL].
  - destruct (X2 eq_refl) as (NL & NN).
    assert (LE : zlen input = zlen x + zlen i1) by (rewrite EI, zlen_app; reflexivity).
    destruct (stream_spec pm0 L s1 (n + zlen x) q1 i1 L2 R1 P1 ltac:(lia)) as (res & cs2 & s2 & x2 & i2 & q2 & E2 & EI2 & R2 & P2 & LQ2 & PL2 & Y1 & Y2).
    rewrite E2. cbn [bind]. destruct res; [|destruct (Y2 eq_refl); lia].
    rewrite (Y1 eq_refl), app_nil_r in EI2. subst x2. eexists _, _, _. split; [reflexivity|]. split; [exact R2|]. split; [rewrite LE, Z.add_assoc; exact P2|].
    split; [|apply plain_app; auto]. rewrite lits_app, <- app_assoc, LQ2, app_assoc, LQ, EI, <- app_assoc. reflexivity.
Qed.

Lemma finish_spec pm0 L s n q : 2 <= L -> zlen (rring s) = L -> pend L s n q ->
  exists cs s', raw_finish 2 pm0 s = Some (cs, s') /\ lits cs = q /\ plain pm0 cs.
Proof.
  intros L2 RL P. cbn [raw_finish].
  assert (EMPTY : rdi s = roi s -> exists s', raw_flush pm0 s CMD_BUFFER = Some (OSuccess, hdr pm0 s, s')).
  { intros Q. unfold raw_flush, CMD_BUFFER, hdr, raw_flush2. destruct s as [rb d o ph]; cbn [rring rdi roi produced_header] in *. subst d.
    change (16 =? 0) with false. change (16 =? 1) with false. cbv iota. rewrite Z.ltb_irrefl. cbn [bind rdi roi]. rewrite Z.eqb_refl. cbn [negb].
    destruct ph; cbn [negb bind]; eexists; reflexivity. }
  inversion P as [n' q' O D N Q|O D|n' q' O D N Q]; subst n' || idtac.
  - destruct (Z.eq_dec n 0) as [Z0|Z0].
    + destruct EMPTY as (s' & E); [lia|]. rewrite E. cbn [bind]. eexists _, _. split; [reflexivity|]. rewrite lits_hdr, Q, Z0, zfirst_0. split; [reflexivity|apply plain_hdr].
    + rewrite (flush_flat pm0 s n) by lia. cbn [bind]. eexists _, _. split; [reflexivity|]. rewrite lits_app, lits_hdr, Q. split; [apply app_nil_r|apply plain_lit].
  - destruct EMPTY as (s' & E); [lia|]. rewrite E. cbn [bind]. eexists _, _. split; [reflexivity|]. rewrite lits_hdr. split; [reflexivity|apply plain_hdr].
  - destruct (flush_wrapped pm0 s (n - L)) as (s' & E); try lia. rewrite E. cbn [bind]. eexists _, _. split; [reflexivity|]. rewrite lits_app, lits_hdr, Q.
    destruct (Z.eqb_spec (n - L) 0) as [Z0|Z0].
    + rewrite Z0, zfirst_0. split; [reflexivity|rewrite app_nil_r; apply plain_hdr].
    + split; [apply app_nil_r|apply plain_lit].
Qed.

Lemma pieces_spec pm0 L : 2 <= L -> forall pieces s n q, zlen (rring s) = L -> pend L s n q -> n + zlen (concat pieces) < 2 * L - 1 ->
  exists cs, encode_pieces pm0 s pieces = Some cs /\ lits cs = q ++ concat pieces /\ plain pm0 cs.
Proof.
  intros L2. induction pieces as [|p pieces IH]; intros s n q RL P T; cbn [encode_pieces concat].
  - destruct (finish_spec pm0 L s n q L2 RL P) as (cs & s' & E & LQ & PL). rewrite E. cbn [bind]. exists cs. rewrite app_nil_r. auto.
  - cbn [concat] in T. rewrite zlen_app in T. pose proof (zlen_nonneg (concat pieces)).
    destruct (encode_spec pm0 L s n q p (length p + 3) L2 RL P ltac:(lia) ltac:(lia)) as (cs & s1 & q1 & E & R1 & P1 & LQ & PL).
    rewrite E. cbn [bind]. destruct (IH s1 (n + zlen p) q1 R1 P1 ltac:(lia)) as (cs2 & E2 & LQ2 & PL2). rewrite E2. cbn [bind].
    exists (cs ++ cs2). split; [reflexivity|]. split; [|apply plain_app; auto].
    rewrite lits_app, LQ2, app_assoc, LQ, <- app_assoc. reflexivity.
Qed.
Lemma meaning_plain dict pm0 cs : plain pm0 cs -> forall h, meaning dict h cs = lits cs.
Proof.
  induction 1 as [|c cs C PL IH]; intros h; [reflexivity|]. cbn [meaning]. unfold lits in *. cbn [flat_map]. rewrite IH. f_equal.
  destruct c; try contradiction; reflexivity.
Qed.

(** C19: for every window size, every input shorter than twice the window minus one and
    every split of it into encode calls (empty ones included), the issued commands mean
    exactly the input. *)
Theorem C19_raw_lossless : forall dict pm0 window pieces,
  2 <= zlen window -> zlen (concat pieces) < 2 * zlen window - 1 ->
  exists cs, encode_pieces pm0 (raw_new window) pieces = Some cs /\ forall h, meaning dict h cs = concat pieces.
Proof.
  intros dict pm0 w pieces L T. destruct (pieces_spec pm0 (zlen w) L pieces (raw_new w) 0 []) as (cs & E & LQ & PL).
  - reflexivity.
  - apply PA; cbn [raw_new rring rdi roi]; auto; lia.
  - lia.
  - exists cs. split; [exact E|]. intros h. rewrite (meaning_plain dict pm0 cs PL). exact LQ.
Qed.
Definition demo_pm : predmode := PM [0; 1; 2; 3] [0] [4] 2 0 0 [(0,0); (0,0)] [(0,0); (0,0)] [(0,0); (0,0)] true.
Example C19_case : exists cs, encode_pieces demo_pm (raw_new (repeat 0 8)) [[1;2;3]; []; [4;5;6;7;8;9;10]; [11;12]] = Some cs /\
  cs = [PredictionMode demo_pm; Literal [1;2;3;4;5;6;7;8] false; Literal [9;10;11;12] false].
Proof. eexists. split; vm_compute; reflexivity. Qed.

(** Without the length bound the claim is false (finding): with the smallest window the
    compressor accepts (2^10), 3071 bytes in one encode call come out as 3072 bytes, and
    2047 bytes followed by an empty encode call come out as 2048 bytes. *)
Definition count (o : option (list command)) : Z := match o with Some cs => zlen (lits cs) | None => -1 end.
Theorem C19_long_input_refuted : ~ (forall dict pm0 window pieces, 2 <= zlen window ->
  exists cs, encode_pieces pm0 (raw_new window) pieces = Some cs /\ forall h, meaning dict h cs = concat pieces).
Proof.
  intros H. destruct (H (fun _ _ _ => None) demo_pm (repeat 0 4) [[1;2;3;4;5;6;7]; []] ltac:(vm_compute; congruence)) as (cs & E & M).
  specialize (M []). vm_compute in E. injection E as <-. vm_compute in M. discriminate.
Qed.
Example C19_window_1024_single_call_refuted :
  count (encode_pieces demo_pm (raw_new (repeat 0 1024)) [repeat 1 3071]) = 3072.
Proof. vm_compute. reflexivity. Qed.
Example C19_window_1024_empty_call_refuted :
  count (encode_pieces demo_pm (raw_new (repeat 0 1024)) [repeat 1 2047; []]) = 2048.
Proof. vm_compute. reflexivity. Qed.

Print Assumptions C19_raw_lossless.
Print Assumptions C19_long_input_refuted.
