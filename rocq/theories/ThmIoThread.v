(** C69: the std::io adapters over the decompressor with two threads. *)
From Verif Require Import Prelude ProofList ModelAns SpecAns ModelCdf SpecCdf ModelRecode SpecLz ModelMux SpecMux ProofZlist ProofMux ProofMuxW ModelCmd ModelCrc SpecCrc ModelHeader SpecHeader ProofHeader ModelPriors ModelCodec ModelLit ModelPm ModelTop SpecCodec SpecReplay SpecFile ModelEnc ProofEnc3 ProofEnc4 ThmCodec ThmEnc ModelDec SpecEnc SpecDec ProofDec6 ProofDec7 ThmDec ModelRaw ModelRawEnc SpecRawEnc ModelThread SpecThread ProofThread2 ProofThread4 ProofThread5 ProofThread6 ThmThread.
From Verif Require ThmHeader.
From Verif Require Import ModelIo SpecIo ProofIo ThmIo ModelHybrid SpecHybrid ModelTool SpecTool ProofTool ThmTool ModelToolHybrid ThmHybrid ThmToolHybrid ModelToolThread ProofToolThread.
From Verif Require Import ThmToolThread ModelIoThread ProofIoThread ProofIoThread2.

Lemma new_pinv dict wl D skip ws W Tr out N n rounds : 10 <= ws <= 24 -> Forall fair_round rounds -> N0 N + 10 * Z.of_nat n + spurious (concat rounds) < zlen rounds ->
  pinv dict wl D skip ws W Tr out N n (parallel_new (concat rounds)) (make_header ws ++ W ++ Tr) [].
Proof.
  intros WS FR LR. exists (N0 N). split; [|exists [], rounds; split; [reflexivity|]; split; [exact FR|left; exact LR]]. exists []. split; [reflexivity|]. cbn [parallel_new ps_d pdec_new]. split; [exists [], (make_header ws); split; [exact hp_new_inv|auto]|]. split; [reflexivity|lia].
Qed.
(** C69, reading.  A file, complete or cut short, read through a DivansDecompressorReader
    that works with two threads: under every schedule that gives each thread enough turns,
    with any number of spurious wake-ups, for every way the source delivers its bytes and
    all sizes of the buffers: no read hangs or panics; the bytes read are a beginning of
    the original; a read of no bytes comes after the whole original, and only when the
    file was complete and the source did not fail; an error is due to one of these; and
    enough reads reach the end or an error. *)
Theorem C69_two_thread_reader : forall dict wl D g ws cmds a b skip,
  big D -> cfg_ok g -> 10 <= ws <= 24 -> acceptable dict wl D g ws cmds -> streams_of dict wl D g ws cmds a b ->
  forall T src missing cap, is_file ws a b T -> Forall honest src -> content src ++ missing = T -> 1 <= cap ->
  exists n0 k r0, forall n rooms rounds, (n0 <= n)%nat -> Forall (fun r => 1 <= r) rooms ->
    Forall fair_round rounds -> r0 + k * zlen rooms + spurious (concat rounds) < zlen rounds ->
  exists chunks h, reads (decompressing_parallel dict wl D skip) cap n (greader_new (parallel_new (concat rounds)) src false) rooms = (chunks, h) /\
    (exists more, meaning dict (window ws) cmds = concat chunks ++ more) /\
    (h = Fine \/ (h = Failed /\ (missing <> [] \/ faulty src = true))) /\
    (reached_end chunks -> missing = [] /\ faulty src = false) /\
    (forall c1 c2, chunks = c1 ++ [] :: c2 -> concat c1 = meaning dict (window ws) cmds /\ concat c2 = []) /\
    (zlen (meaning dict (window ws) cmds) < zlen rooms -> reached_end chunks \/ h = Failed).
Proof.
  intros dict wl D g ws cmds a b skip B G WS AC ST T src missing cap IF HO ET CAP. destruct (par_starts dict wl D g ws cmds a b skip B G WS AC ST) as (N & H). set (out := meaning dict (window ws) cmds) in *.
  set (n0 := (weight src + 3)%nat). exists n0, (10 * Z.of_nat n0), (N0 N). intros n rooms rounds LN RM FR LR. destruct (H T IF) as (W & Tr & ETT & TRE & AS & BTT). rewrite ETT in *.
  assert (PI : pinv dict wl D skip ws W Tr out N (length rooms * n0) (parallel_new (concat rounds)) (make_header ws ++ W ++ Tr) []) by (apply new_pinv; [exact WS|exact FR|]; unfold zlen in LR |- *; lia).
  pose proof (shadow_contract dict wl D skip ws WS W Tr out N TRE AS BTT) as C. set (s0 := Live (length rooms * n0) (parallel_new (concat rounds)) (make_header ws ++ W ++ Tr) []).
  destruct (reads_spec _ cap CAP _ _ _ _ _ _ _ _ _ C eq_refl missing (faulty src) (or_intror eq_refl) (weight src) n0 ltac:(unfold n0; lia) rooms (greader_new s0 src false) []) as (cs & h & E & PA & HH & FF & GO & LV).
  - split; [split; [cbn [greader_new g_off g_data]; change (zlen (@nil Z)) with 0; lia|split; [cbn [greader_new g_data]; change (zlen (@nil Z)) with 0; lia|cbn [greader_new g_src]; lia]]|].
    left. split; [|intros Q; exfalso; apply Q; reflexivity]. split; [reflexivity|]. split; [reflexivity|]. cbn [greader_new g_p g_off g_data g_src]. change (zskip 0 (@nil Z)) with (@nil Z). cbn [app]. rewrite ET.
    split; [split; [reflexivity|]; split; [reflexivity|exact PI]|]. split; [exact HO|]. split; [reflexivity|]. change (zlen (@nil Z)) with 0. lia.
  - exact RM.
  - assert (E2 : reads (decompressing_parallel dict wl D skip) cap n0 (greader_new (parallel_new (concat rounds)) src false) rooms = (cs, h)).
    { rewrite <- E. refine (reads_two _ _ cap srel srel_le (srel_proc dict wl D skip out) (srel_close dict wl D skip out) n0 rooms (parallel_new (concat rounds)) (greader_new s0 src false) _). cbn [greader_new g_p]. exists (length rooms * n0)%nat, (make_header ws ++ W ++ Tr), []. split; [reflexivity|lia]. }
    assert (E3 : reads (decompressing_parallel dict wl D skip) cap n (greader_new (parallel_new (concat rounds)) src false) rooms = (cs, h)).
    { replace n with (n0 + (n - n0))%nat by lia. apply reads_more; [exact E2|]. destruct HH as [->|(-> & _)]; discriminate. }
    exists cs, h. split; [exact E3|]. cbn [app] in *. change (zlen (@nil Z)) with 0 in LV. rewrite Z.sub_0_r in LV. split; [exact PA|]. split; [exact HH|]. split; [intros Q; destruct (FF Q); auto|]. split; [exact GO|exact LV].
Qed.
Print Assumptions C69_two_thread_reader.

(** C69, writing: the same file written in any pieces through a DivansDecompressorWriter
    that works with two threads. *)
Theorem C69_two_thread_writer : forall dict wl D g ws cmds a b skip,
  big D -> cfg_ok g -> 10 <= ws <= 24 -> acceptable dict wl D g ws cmds -> streams_of dict wl D g ws cmds a b ->
  exists n0 k r0, forall n T bufs missing cap faults rounds, (n0 <= n)%nat -> is_file ws a b T -> concat bufs ++ missing = T -> 1 <= cap ->
    Forall fair_round rounds -> r0 + k * zlen bufs + spurious (concat rounds) < zlen rounds ->
  exists w h, writes (decompressing_parallel dict wl D skip) cap n (gwriter_new (parallel_new (concat rounds)) (SK [] faults) false) bufs = (w, h) /\
    (h = Fine \/ (h = Failed /\ faults <> [])) /\
    (exists more, meaning dict (window ws) cmds = k_got (gw_sink w) ++ more) /\
    (h = Fine -> missing = [] -> k_got (gw_sink w) = meaning dict (window ws) cmds).
Proof.
  intros dict wl D g ws cmds a b skip B G WS AC ST. destruct (par_starts dict wl D g ws cmds a b skip B G WS AC ST) as (N & H). set (out := meaning dict (window ws) cmds) in *.
  set (n0 := S (Z.to_nat (zlen out))). exists n0, (10 * Z.of_nat n0), (N0 N). intros n T bufs missing cap faults rounds LN IF ET CAP FR LR. destruct (H T IF) as (W & Tr & ETT & TRE & AS & BTT). rewrite ETT in *.
  assert (PI : pinv dict wl D skip ws W Tr out N (length bufs * n0) (parallel_new (concat rounds)) (make_header ws ++ W ++ Tr) []) by (apply new_pinv; [exact WS|exact FR|]; unfold zlen in LR |- *; lia).
  pose proof (shadow_contract dict wl D skip ws WS W Tr out N TRE AS BTT) as C. set (s0 := Live (length bufs * n0) (parallel_new (concat rounds)) (make_header ws ++ W ++ Tr) []).
  destruct (writes_spec _ cap CAP _ _ _ _ _ _ _ _ _ C true (fun _ => shadow_self dict wl D skip ws WS W Tr out N TRE AS BTT) missing n0 ltac:(unfold n0; lia) bufs (gwriter_new s0 (SK [] faults) false) []) as (w & h & E & K).
  - cbn [gwriter_new gw_p]. rewrite ET. split; [reflexivity|]. split; [reflexivity|exact PI].
  - reflexivity.
  - assert (RE : srel (0 + length bufs * n0) (parallel_new (concat rounds)) (gw_p (gwriter_new s0 (SK [] faults) false))) by (exists (length bufs * n0)%nat, (make_header ws ++ W ++ Tr), []; split; [reflexivity|lia]).
    destruct (writes_two _ _ cap srel srel_le (srel_proc dict wl D skip out) (srel_close dict wl D skip out) n0 bufs 0 (parallel_new (concat rounds)) (gwriter_new s0 (SK [] faults) false) RE) as (a' & E2 & _). rewrite E in E2. cbn [fst snd] in E2.
    change (wswap (parallel_new (concat rounds)) (gwriter_new s0 (SK [] faults) false)) with (gwriter_new (parallel_new (concat rounds)) (SK [] faults) false) in E2.
    exists (wswap a' w), h. assert (NH : h <> Hung) by (destruct K as [(-> & _)|(-> & _)]; discriminate). split; [replace n with (n0 + (n - n0))%nat by lia; apply writes_more; [exact E2|exact NH]|]. cbn [wswap gw_sink].
    destruct K as [(-> & o2 & (I & GT & FL & FA) & DN)|(-> & Q & x & y & Q2 & Q3)]; cbn [app] in *.
    + split; [auto|]. rewrite GT. split; [exact (proj1 (ct_part _ _ _ _ _ _ _ _ _ _ C _ _ _ (or_introl I)))|]. intros _ M0. destruct bufs as [|bf bufs]; [|destruct (DN eq_refl M0) as (_ & DN'); [discriminate|exact DN']].
      exfalso. cbn [concat app] in ET. rewrite M0 in ET. apply (f_equal (@length Z)) in ET. rewrite !app_length, make_header_length in ET. cbn [length] in ET. lia.
    + split; [right; split; [reflexivity|]; exact Q|]. rewrite Q2. split; [|discriminate]. destruct Q3 as (m & Q3). exists (y ++ m). rewrite Q3, <- app_assoc. reflexivity.
Qed.
Print Assumptions C69_two_thread_writer.

(** ** What does not hold *)
Section Spin.
Context (dict : dict_fn) (wl : word_len_fn) (D : dims) (skip : bool) (ws : Z) (WS : 10 <= ws <= 24) (W Tr out : list Z) (N : nat).
Context (TRE : Tr = trailer (crc32c 0 (make_header ws ++ W))) (START : starts dict wl D skip ws W Tr out N) (BTT : bytes (make_header ws ++ W ++ Tr)).
Local Notation PI := (pinv dict wl D skip ws W Tr out N).
Local Notation REAL := (decompressing_parallel dict wl D skip).
Lemma full_none (y : list Z) n p x : PI n p x (out ++ y) -> y = [].
Proof. intros I. destruct (pinv_part _ _ _ _ _ _ _ _ _ START [] _ _ _ _ I) as (m & E). apply (f_equal (@length Z)) in E. rewrite !app_length in E. destruct y; [reflexivity|cbn [length] in E; lia]. Qed.
Lemma parallel_after n p tail room : PI (S n) p [] out -> bytes tail -> 1 <= room -> exists p', process REAL p tail room = Some (0, [], p', PSuccess) /\ PI n p' [] out.
Proof.
  intros I BT R. destruct (call_good dict wl D skip ws WS W Tr out N TRE START BTT tail BT n p [] out tail [] room I ltac:(rewrite app_nil_r; reflexivity) ltac:(lia)) as (pre & suf & o2 & p' & r & x' & E & EI & XE & LO & K).
  symmetry in XE. apply app_eq_nil in XE. destruct XE as (-> & ->). cbn [process decompressing_parallel]. rewrite E. destruct r; [|destruct K as (_ & K & _); contradiction K; reflexivity| |contradiction].
  - destruct K as (_ & K & _ & K4). rewrite <- (app_nil_r out) in K at 2. apply app_inv_head in K. rewrite K. exists p'. auto.
  - destruct K as (K & K2 & _). apply full_none in K2. rewrite K2 in K. change (zlen (@nil Z)) with 0 in K. lia.
Qed.
Lemma parallel_whole n p tail room : PI (S n) p (make_header ws ++ W ++ Tr) [] -> bytes tail -> zlen out < room -> exists p', process REAL p ((make_header ws ++ W ++ Tr) ++ tail) room = Some (zlen (make_header ws ++ W ++ Tr), out, p', PSuccess) /\ PI n p' [] out.
Proof.
  intros I BT R. set (T := make_header ws ++ W ++ Tr) in *. pose proof (zlen_nonneg out) as NO. destruct (call_good dict wl D skip ws WS W Tr out N TRE START BTT tail BT n p T [] (T ++ tail) [] room I ltac:(rewrite app_nil_r; reflexivity) ltac:(lia)) as (pre & suf & o2 & p' & r & x' & E & EI & XE & LO & K).
  cbn [process decompressing_parallel]. rewrite E. destruct r; [| | |contradiction].
  - destruct K as (-> & K & _ & K4). rewrite app_nil_r in XE. cbn [app] in K. rewrite XE, K. exists p'. auto.
  - destruct K as (-> & K & _). exfalso. rewrite XE, <- app_assoc in EI. apply app_inv_head in EI. apply app_eq_nil in EI. apply K, EI.
  - destruct K as (K & K2 & _). destruct (pinv_part _ _ _ _ _ _ _ _ _ START [] _ _ _ _ K2) as (m & E2). cbn [app] in E2. rewrite E2, zlen_app in R. pose proof (zlen_nonneg m). lia.
Qed.
Lemma trailing_turns cap tail room : bytes tail -> tail <> [] -> 1 <= room -> forall n g, PI n (g_p g) [] out -> g_eof g = true -> 0 <= g_off g -> zskip (g_off g) (g_data g) = tail -> zlen (g_data g) - g_off g = zlen tail ->
  read_loop REAL cap n g room (zlen tail) false [] = RSpin.
Proof.
  intros BT TN R. assert (TP : 0 < zlen tail) by (destruct tail; [contradiction TN; reflexivity|unfold zlen; cbn [length]; lia]).
  induction n as [|n IH]; intros g I E O U A; [reflexivity|]. rewrite read_loop_eq. cbn [negb orb]. change (zlen (@nil Z)) with 0. rewrite Z.sub_0_r, Z.eqb_refl. cbn [andb negb].
  unfold fetch. rewrite E. cbn [negb]. rewrite andb_false_r. cbn beta iota. unfold after. destruct (Z.eqb_spec (zlen tail) 0) as [Q|_]; [lia|]. rewrite U. change (zlen (@nil Z)) with 0. rewrite Z.sub_0_r.
  replace (zfirst (zlen tail) tail) with tail by (unfold zfirst, zlen; rewrite Nat2Z.id, firstn_all; reflexivity).
  destruct (parallel_after n (g_p g) tail room I BT R) as (d' & ED & I'). rewrite ED. destruct (Z.ltb_spec (zlen tail) 0); [lia|]. change (zlen (@nil Z)) with 0. destruct (Z.ltb_spec room 0); [lia|]. cbn [orb app].
  rewrite Z.sub_0_r. destruct (Z.eqb_spec (zlen tail) 0) as [Q|_]; [lia|]. cbn [andb g_err g_eof g_flushed]. rewrite andb_false_r. cbn [andb]. apply IH; cbn [g_p g_eof g_off g_data]; [exact I'|exact E|lia|rewrite Z.add_0_r; exact U|lia].
Qed.
End Spin.

(** Bytes after the file make this reader hang too (C38_trailing_bytes_refuted): the read
    after the one that returned the last original byte does not return, however many
    rounds its loop is given and under whatever schedule. *)
Theorem C69_trailing_bytes_refuted : forall dict wl D g ws cmds a b skip,
  big D -> cfg_ok g -> 10 <= ws <= 24 -> acceptable dict wl D g ws cmds -> streams_of dict wl D g ws cmds a b -> meaning dict (window ws) cmds <> [] ->
  exists r0, forall T tail cap room1 room2 n rounds, is_file ws a b T -> bytes tail -> tail <> [] -> zlen (T ++ tail) < cap ->
    zlen (meaning dict (window ws) cmds) < room1 -> 1 <= room2 -> (2 <= n)%nat -> Forall fair_round rounds -> r0 + 10 * Z.of_nat n + spurious (concat rounds) < zlen rounds ->
    reads (decompressing_parallel dict wl D skip) cap n (greader_new (parallel_new (concat rounds)) [SData (T ++ tail)] false) [room1; room2] = ([meaning dict (window ws) cmds], Hung).
Proof.
  intros dict wl D g ws cmds a b skip B G WS AC ST NE. destruct (par_starts dict wl D g ws cmds a b skip B G WS AC ST) as (N & H). exists (N0 N + 10).
  intros T tail cap room1 room2 n rounds IF BTL TN CAP R1 R2 LN FR LR. destruct (H T IF) as (W & Tr & ETT & TRE & AS & BT). set (Y := meaning dict (window ws) cmds) in *. set (pr := decompressing_parallel dict wl D skip) in *.
  pose proof (zlen_nonneg Y) as NY. pose proof (zlen_nonneg T) as NT. assert (TP : 0 < zlen tail) by (destruct tail; [contradiction TN; reflexivity|unfold zlen; cbn [length]; lia]).
  assert (PI0 : pinv dict wl D skip ws W Tr Y N (S n) (parallel_new (concat rounds)) (make_header ws ++ W ++ Tr) []) by (apply new_pinv; [exact WS|exact FR|lia]).
  rewrite ETT in BT. destruct (parallel_whole dict wl D skip ws WS W Tr Y N TRE AS BT n _ tail room1 PI0 BTL R1) as (d' & ED & DI'). rewrite <- ETT in ED. fold pr in ED. set (p0 := parallel_new (concat rounds)) in *.
  destruct n as [|[|n]]; [lia|lia|]. cbn [reads]. unfold gread at 1. cbn [g_data g_off greader_new]. change (zlen (@nil Z) - 0) with 0.
  assert (F1 : read_loop pr cap (S (S n)) (greader_new p0 [SData (T ++ tail)] false) room1 0 false [] = ROk Y (GR d' (T ++ tail) (zlen T) false true false [])).
  { rewrite read_loop_eq. cbn [negb orb]. change (zlen (@nil Z)) with 0. rewrite Z.sub_0_r, Z.eqb_refl. cbn [andb negb]. unfold fetch, greader_new. cbn [g_data g_eof g_src g_p g_off g_flushed g_err negb]. change (zlen (@nil Z)) with 0.
    rewrite zlen_app in *. destruct (Z.ltb_spec 0 cap); [|lia]. cbn [andb source_read]. rewrite Z.sub_0_r.
    assert (FA : zfirst cap (T ++ tail) = T ++ tail) by (unfold zfirst; apply firstn_all2; rewrite app_length; unfold zlen in *; lia). rewrite FA. rewrite !zlen_app. destruct (Z.ltb_spec cap (zlen T + zlen tail)); [lia|]. destruct (Z.eqb_spec (zlen T + zlen tail) 0); [lia|]. cbn beta iota. cbn [app].
    replace (0 + (zlen T + zlen tail) - 0) with (zlen T + zlen tail) by lia. unfold after. destruct (Z.eqb_spec (zlen T + zlen tail) 0); [lia|]. cbn [g_off g_data g_p g_eof g_flushed g_err g_src].
    change (zskip 0 (T ++ tail)) with (T ++ tail). rewrite <- zlen_app. replace (zfirst (zlen (T ++ tail)) (T ++ tail)) with (T ++ tail) by (unfold zfirst, zlen; rewrite Nat2Z.id, firstn_all; reflexivity). change (zlen (@nil Z)) with 0. rewrite Z.sub_0_r.
    rewrite ED. rewrite zlen_app. destruct (Z.ltb_spec (zlen T + zlen tail) (zlen T)); [lia|]. destruct (Z.ltb_spec room1 (zlen Y)); [lia|]. cbn [orb app].
    replace (zlen T + zlen tail - zlen T) with (zlen tail) by lia. destruct (Z.eqb_spec (zlen tail) 0); [lia|]. cbn [andb g_eof]. rewrite Z.add_0_l. apply exit_now. exact NE. }
  rewrite F1. unfold gread. cbn [g_data g_off].
  assert (F2 : read_loop pr cap (S (S n)) (GR d' (T ++ tail) (zlen T) false true false []) room2 (zlen (T ++ tail) - zlen T) false [] = RSpin); [|rewrite F2; reflexivity].
  rewrite zlen_app in *. replace (zlen T + zlen tail - zlen T) with (zlen tail) by lia.
  assert (U : zskip (zlen T) (T ++ tail) = tail) by (apply zskip_app_exact; reflexivity).
  rewrite <- (trailing_turns dict wl D skip ws WS W Tr Y N TRE AS BT cap tail room2 BTL TN R2 (S (S n)) (GR d' (T ++ tail) (zlen T) true true false []) DI' eq_refl NT U ltac:(cbn [g_data g_off]; rewrite zlen_app; lia)). fold pr.
  rewrite !read_loop_eq. cbn [negb orb g_eof]. change (zlen (@nil Z)) with 0. rewrite Z.sub_0_r, Z.eqb_refl. cbn [andb negb].
  unfold fetch. cbn [g_data g_eof g_src g_p g_off g_flushed g_err negb]. rewrite zlen_app. destruct (Z.ltb_spec (zlen T + zlen tail) cap); [|lia]. cbn [andb source_read]. change (zlen (@nil Z)) with 0. change (0 =? 0) with true. cbn beta iota. reflexivity.
Qed.
Print Assumptions C69_trailing_bytes_refuted.

(** A file read and written through the adapters, with a schedule full of wake-ups. *)
Definition demo_sched := concat (repeat [ByMain; ByWorker; ByWorker; WakeMain] 300).
Definition demo_par := decompressing_parallel demo_dict demo_wl (DIMS 4 4 4) false.
Fixpoint chop (n : nat) (l : list Z) : list (list Z) := match n with O => [] | S n => firstn 5 l :: chop n (skipn 5 l) end.
Example C69_case :
  let src := [SData (firstn 20 demo_file); SIntr; SData (firstn 30 (skipn 20 demo_file)); SData (skipn 50 demo_file)] in
  Forall honest src /\ content src = demo_file /\ faulty src = false /\ fair_round [ByMain; ByWorker; ByWorker; WakeMain] /\
  (exists c1 c2, reads demo_par 7 100 (greader_new (parallel_new demo_sched) src false) (repeat 5 30) = (c1 ++ [] :: c2, Fine) /\ concat c1 = meaning demo_dict (window 10) (concat demo_batches)) /\
  (exists c, reads demo_par 7 100 (greader_new (parallel_new demo_sched) [SData (firstn 40 demo_file)] false) (repeat 5 30) = (c, Failed)) /\
  (let '(w, h) := writes demo_par 3 100 (gwriter_new (parallel_new demo_sched) (SK [] []) false) [firstn 20 demo_file; []; skipn 20 demo_file] in (k_got (gw_sink w), h) = (meaning demo_dict (window 10) (concat demo_batches), Fine)).
Proof.
  split; [repeat constructor; discriminate|]. split; [vm_compute; reflexivity|]. split; [reflexivity|]. split; [split; [left; reflexivity|right; left; reflexivity]|].
  split; [exists (chop 18 (meaning demo_dict (window 10) (concat demo_batches))), (repeat [] 11); vm_compute; split; reflexivity|]. split; [eexists; vm_compute; reflexivity|]. vm_compute. reflexivity.
Qed.
