(** C66: the default compressor with its command optimiser switched on. *)
From Verif Require Import Prelude ProofList ModelMux ProofZlist ModelCmd ModelHeader ThmHeader ModelRecode SpecLz ModelIr SpecIr ProofIr ModelPriors ModelCodec ModelLit ModelPm ModelTop SpecCodec SpecReplay ThmCodec ModelEnc SpecEnc SpecFile ThmEnc ModelDec SpecDec ModelIo ModelRaw ModelRawEnc ThmRawEnc ModelHybrid SpecHybrid ThmHybrid ModelTuned SpecTuned ProofTuned ThmGreedy.
From Coq Require Import Lia.

(** C66, the file.  If brotli's encoder keeps its contract and its metablocks describe
    input, then with the optimiser on, whatever its cost model prefers, raw bytes given in
    any pieces become a complete file for commands that stand for exactly these bytes. *)
Theorem C66_optimised_file : forall dict wl D g opt B (fe : ifrontend B) b0,
  big D -> cfg_ok g -> good_source dict wl D g (choose_window opt) fe b0 ->
  forall calls, bytes (offered calls) -> Forall (fun c => 0 <= snd c) calls ->
  exists fuel0 n0 m0, forall fuel n rooms, (fuel0 <= fuel)%nat -> (n0 <= n)%nat -> Forall (fun r => 0 <= r) rooms ->
  exists o v, hsession (hybrid_processor dict wl D g (prepared true fe) Some n fuel) (hybrid_new D b0 opt) [] calls rooms = Some (o, v) /\ v <> HBroken /\
    (v = HFinished -> exists cmds a b, acceptable dict wl D g (choose_window opt) cmds /\ meaning dict (window (choose_window opt)) cmds = offered calls /\
       streams_of dict wl D g (choose_window opt) cmds a b /\ is_file (choose_window opt) a b o) /\
    (v <> HLeft -> Forall (fun r => 1 <= r) rooms -> m0 < zlen rooms -> v = HFinished) /\
    (eager (prepared true fe) -> forall calls1 calls2, calls = calls1 ++ calls2 -> offered calls2 = [] -> zlen (offered calls1) <= zlen calls2 -> v <> HLeft).
Proof.
  intros dict wl D g opt B fe b0 BG G GS. apply C61_default_file; [exact BG|exact G|eapply tuned_good, GS|eapply tuned_faithful, GS].
Qed.
(** C66, the round trip. *)
Theorem C66_optimised_round_trip : forall dict wl D g opt B (fe : ifrontend B) b0 skip,
  big D -> cfg_ok g -> good_source dict wl D g (choose_window opt) fe b0 ->
  forall calls, bytes (offered calls) -> Forall (fun c => 0 <= snd c) calls ->
  exists fuel0 n0, forall fuel n rooms T, (fuel0 <= fuel)%nat -> (n0 <= n)%nat -> Forall (fun r => 0 <= r) rooms ->
  hsession (hybrid_processor dict wl D g (prepared true fe) Some n fuel) (hybrid_new D b0 opt) [] calls rooms = Some (T, HFinished) ->
  forall dcalls future, offered dcalls ++ future = T -> Forall (fun c => 0 <= snd c) dcalls ->
    exists o rest v, dsession dict wl D skip fuel decompressor_new [] dcalls = Some (o, rest, v) /\ v <> Broken /\
      (exists more, offered calls = o ++ more) /\
      (v = Finished -> o = offered calls /\ future = [] /\ rest = []) /\
      (forall calls1 calls2, dcalls = calls1 ++ calls2 -> offered calls1 = T -> Forall (fun c => 1 <= snd c) calls2 -> zlen (offered calls) < zlen calls2 -> v = Finished).
Proof.
  intros dict wl D g opt B fe b0 skip BG G GS. apply C61_default_round_trip; [exact BG|exact G|eapply tuned_good, GS|eapply tuned_faithful, GS].
Qed.

(** ** A case: an encoder that names its input byte by byte; the optimiser joins the bytes
    of each half into one literal. *)
Fixpoint lits (k : Z) (x : list Z) : list icmd := match x with [] => [] | _ :: x => ILit k 1 false :: lits (k + 1) x end.
Definition pedant_block (x : list Z) : iblock := IB (raw_pm real_dims) (lits 0 x) x (zlen x / 2) (fun _ => Some true) (fun _ => true).
Lemma lits_good dict : forall x pre h, good dict (pre ++ x) (zlen pre) h (lits (zlen pre) x).
Proof.
  induction x as [|z x IH]; intros pre h; [exact Logic.I|]. cbn [lits good].
  assert (T : thaw (pre ++ z :: x) (ILit (zlen pre) 1 false) = Literal [z] false). { rewrite thaw_literal. rewrite zskip_app_exact by reflexivity. reflexivity. }
  rewrite T. cbn [meaning1]. pose proof (zlen_nonneg pre). pose proof (zlen_nonneg x). split; [split; [reflexivity|]; split; [lia|]; rewrite zlen_app, zlen_cons; lia|]. split.
  - unfold piece. change (skipn (Z.to_nat (zlen pre)) (pre ++ z :: x)) with (zskip (zlen pre) (pre ++ z :: x)). rewrite zskip_app_exact by reflexivity. reflexivity.
  - change (zlen [z]) with 1. replace (zlen pre + 1) with (zlen (pre ++ [z])) by (rewrite zlen_app; reflexivity). replace (pre ++ z :: x) with ((pre ++ [z]) ++ x) by (rewrite <- app_assoc; reflexivity). apply IH.
Qed.
Lemma lits_in : forall x k off len he, In (ILit off len he) (lits k x) -> len = 1.
Proof. induction x as [|z x IH]; intros k off len he J; cbn [lits] in J; [contradiction|]. destruct J as [J|J]; [congruence|]. eapply IH, J. Qed.
Lemma lits_thaw : forall x pre, map (thaw (pre ++ x)) (lits (zlen pre) x) = map (fun z => Literal [z] false) x.
Proof.
  induction x as [|z x IH]; intros pre; [reflexivity|]. cbn [lits map]. f_equal; [rewrite thaw_literal, zskip_app_exact by reflexivity; reflexivity|]. replace (zlen pre + 1) with (zlen (pre ++ [z])) by (rewrite zlen_app; reflexivity). replace (pre ++ z :: x) with ((pre ++ [z]) ++ x) by (rewrite <- app_assoc; reflexivity). apply IH.
Qed.
Lemma pedant_described dict h x : bytes x -> zlen x <= 2 ^ 30 -> described dict h [pedant_block x].
Proof.
  intros BX LX. cbn [described pedant_block i_inp i_cmds i_half i_merge i_trial]. pose proof (zlen_nonneg x). split; [exists 0; split; [lia|]; apply good_describes; [lia|]; exact (lits_good dict x [] h)|].
  split; [intros off len he J; apply lits_in in J; subst; lia|]. split; [exact BX|]. split; [split; [apply Z.div_pos; lia|apply Z.div_le_upper_bound; lia]|]. split; [exact LX|]. split; [discriminate|]. split; [reflexivity|exact Logic.I].
Qed.
(** It takes at most 2^20 bytes at a time, and hands them over at once. *)
Definition pedant_step (b fin : bool) (input : list Z) (room : Z) : option (Z * Z * list iblock * bool) :=
  if fin then Some (0, 0, [], true)
  else if zlen input <=? 2 ^ 20 then Some (zlen input, 0, [pedant_block input], false)
  else Some (2 ^ 20, room, [pedant_block (zfirst (2 ^ 20) input)], false).
Definition pedant : ifrontend bool := IFE pedant_step (fun b => b).
Lemma pedant_cases b input room k w ms b' : pedant_step b false input room = Some (k, w, ms, b') ->
  0 <= k <= zlen input /\ k <= 2 ^ 20 /\ ms = [pedant_block (zfirst k input)] /\ b' = false /\ (k = zlen input /\ w = 0 \/ k = 2 ^ 20 /\ w = room).
Proof.
  intros E. unfold pedant_step in E. pose proof (zlen_nonneg input). destruct (Z.leb_spec (zlen input) (2 ^ 20)) as [L|L].
  - assert (Q : k = zlen input /\ w = 0 /\ ms = [pedant_block input] /\ b' = false) by (repeat split; congruence). destruct Q as (-> & -> & -> & ->). rewrite zfirst_all by lia. repeat split; lia.
  - assert (Q : k = 2 ^ 20 /\ w = room /\ ms = [pedant_block (zfirst (2 ^ 20) input)] /\ b' = false) by (repeat split; congruence). destruct Q as (-> & -> & -> & ->). repeat split; lia.
Qed.
Lemma pedant_plain x : prepare false (pedant_block x) = Some (raw_pm real_dims, map (fun z => Literal [z] false) x).
Proof.
  unfold prepare, pedant_block. cbn [bind i_cmds i_inp i_half i_pm]. rewrite thaw_all_ok.
  - cbn [bind]. rewrite <- (lits_thaw x []). reflexivity.
  - intros off len he J. apply lits_in in J. subst. lia.
  - intros off len he J. assert (B : forall x k, In (ILit off len he) (lits k x) -> len = 1 /\ off + 1 <= k + zlen x); [|destruct (B _ _ J) as (-> & Q); lia].
    clear. induction x as [|z x IH]; intros k J; cbn [lits] in J; [contradiction|]. rewrite zlen_cons. pose proof (zlen_nonneg x). destruct J as [J|J]; [assert (off = k /\ len = 1) by (split; congruence); lia|]. apply IH in J. lia.
Qed.
Definition plain (c : command) : Prop := c = PredictionMode (raw_pm real_dims) \/ exists z, byte z /\ c = Literal [z] false.
Lemma plain_acceptable dict wl g ws cmds : cfg_ok g -> Forall plain cmds -> acceptable dict wl real_dims g ws cmds.
Proof.
  intros G F. split.
  - eapply Forall_impl; [|exact F]. intros c [->|(z & BZ & ->)]; [cbn [encodable]; apply raw_pm_ok, G|]. cbn [encodable]. split; [constructor; [exact BZ|constructor]|]. change (zlen [z]) with 1. lia.
  - generalize (pm_new real_dims). induction F as [|c cmds P F IH]; intros pm; cbn [coded_all]; constructor; [|apply IH]. destruct P as [->|(z & _ & ->)]; exact Logic.I.
Qed.
Lemma pedant_reaches dict b x cs : reaches (prepared false pedant) Some false b x cs -> Forall plain cs /\ forall h, meaning dict h cs = x.
Proof.
  induction 1 as [|b x cs fin input room k w ms b' R IH NF FI BI RM ST]; [split; [constructor|reflexivity]|]. destruct IH as (IP & IM). destruct (step_of _ _ _ _ _ _ _ _ _ _ ST) as (ims & IS & PA). cbn [pedant ib_step] in IS. destruct fin.
  - specialize (FI eq_refl). subst input. assert (Q : k = 0 /\ ims = []) by (unfold pedant_step in IS; split; congruence). destruct Q as (-> & ->). cbn [prepare_all] in PA. assert (ms = []) by congruence. subst ms. cbn [map concat]. change (zfirst 0 (@nil Z)) with (@nil Z). rewrite !app_nil_r. auto.
  - destruct (pedant_cases _ _ _ _ _ _ _ IS) as (K1 & K2 & -> & _). cbn [prepare_all] in PA. rewrite pedant_plain in PA. cbn [bind] in PA. apply (f_equal (fun o => match o with Some y => y | None => [] end)) in PA. cbn beta iota in PA. subst ms. cbn [map concat block]. rewrite app_nil_r. split.
    + apply Forall_app. split; [exact IP|]. constructor; [left; reflexivity|]. apply Forall_forall. intros c J. apply in_map_iff in J. destruct J as (z & <- & J). right. exists z. split; [|reflexivity]. assert (BF : bytes (zfirst k input)) by (apply bytes_firstn, BI). unfold bytes in BF. rewrite Forall_forall in BF. exact (BF z J).
    + intros h. rewrite (meaning_app dict), IM. f_equal. cbn [meaning meaning1 app]. apply hoard_meaning.
Qed.
Lemma pedant_source dict wl g ws : cfg_ok g -> good_source dict wl real_dims g ws pedant false.
Proof.
  intros G. split; [split|..].
  - reflexivity.
  - intros b x cmds fin input room R NF FI BI RM. cbn [prepared b_step b_finished pedant ib_step ib_finished]. unfold pedant_step. pose proof (zlen_nonneg input). destruct fin.
    + cbn [bind prepare_all]. eexists 0, 0, _, _. split; [reflexivity|]. split; [lia|]. split; [lia|]. split; [constructor|]. split; [discriminate|left; reflexivity].
    + destruct (Z.leb_spec (zlen input) (2 ^ 20)); cbn [bind prepare_all]; rewrite pedant_plain; cbn [bind]; eexists _, _, _, _; (split; [reflexivity|]; split; [lia|]; split; [lia|]; split; [constructor; [discriminate|constructor]|]; split; [|discriminate]; intros _; split; [reflexivity|auto]).
  - intros b x cmds R. apply plain_acceptable; [exact G|]. eapply (pedant_reaches dict), R.
  - intros b x cmds R. exists 1%nat. right. intros room k w ms b' RM ST. destruct (step_of _ _ _ _ _ _ _ _ _ _ ST) as (ims & IS & PA). cbn [pedant ib_step pedant_step] in IS. left. assert (b' = true) by congruence. subst. reflexivity.
  - intros b x cmds R F. eapply (pedant_reaches dict), R.
  - intros b x cmds fin input room k w ms b' R NF FI BI RM ST. cbn [pedant ib_step] in ST. destruct fin; [assert (ms = []) by (unfold pedant_step in ST; congruence); subst; exact Logic.I|]. destruct (pedant_cases _ _ _ _ _ _ _ ST) as (K1 & K2 & -> & _). apply pedant_described; [apply bytes_firstn, BI|]. rewrite zlen_first by lia. lia.
Qed.
(** What the optimiser makes of five bytes, and what the codec would get without it. *)
Example pedant_tuned : option_map snd (prepare true (pedant_block [104; 101; 108; 108; 111])) = Some [Literal [104; 101] false; Literal [108; 108; 111] false] /\
  option_map snd (prepare false (pedant_block [104; 101; 108; 108; 111])) = Some [Literal [104] false; Literal [101] false; Literal [108] false; Literal [108] false; Literal [111] false].
Proof. split; reflexivity. Qed.
Example C66_case : forall dict wl, exists fuel n rooms o cmds a b,
  hsession (hybrid_processor dict wl real_dims demo_cfg (prepared true pedant) Some n fuel) (hybrid_new real_dims false None) [] [([104; 101; 108], 0); ([108; 111], 0); ([], 0); ([], 0); ([], 0); ([], 0); ([], 0)] rooms = Some (o, HFinished) /\
  meaning dict (window 22) cmds = [104; 101; 108; 108; 111] /\ is_file 22 a b o.
Proof.
  intros dict wl. assert (G : cfg_ok demo_cfg) by apply C20_case. set (calls := [([104; 101; 108], 0); ([108; 111], 0); ([], 0); ([], 0); ([], 0); ([], 0); ([], 0)]).
  destruct (C66_optimised_file dict wl real_dims demo_cfg None _ pedant false ltac:(vm_compute; intuition congruence) G (pedant_source dict wl demo_cfg 22 G) calls) as (fuel & n & m0 & K); [repeat constructor; unfold byte; lia|repeat constructor; cbn [snd]; lia|].
  set (rooms := repeat 1 (S (Z.to_nat m0))). assert (RR : Forall (fun r => 1 <= r) rooms) by (apply Forall_forall; intros z Q; apply repeat_spec in Q; lia).
  destruct (K fuel n rooms ltac:(lia) ltac:(lia) ltac:(eapply Forall_impl; [|exact RR]; cbn beta; lia)) as (o & v & SS & _ & V1 & V2 & V3).
  assert (v = HFinished) as ->. { apply V2; [|exact RR|unfold rooms, zlen; rewrite repeat_length; clear; lia]. apply (V3) with (calls1 := [([104; 101; 108], 0); ([108; 111], 0)]) (calls2 := repeat ([], 0) 5); [|reflexivity|reflexivity|vm_compute; congruence].
    intros b input room k w ms b' NE ST. destruct (step_of _ _ _ _ _ _ _ _ _ _ ST) as (ims & IS & _). cbn [pedant ib_step] in IS. destruct (pedant_cases _ _ _ _ _ _ _ IS) as (_ & _ & _ & _ & Q). destruct input as [|z input]; [congruence|]. rewrite zlen_cons in Q. pose proof (zlen_nonneg input). lia. }
  destruct (V1 eq_refl) as (cmds & a & b & _ & M & _ & IF). exists fuel, n, rooms, o, cmds, a, b. auto.
Qed.
Print Assumptions C66_optimised_file.
Print Assumptions C66_optimised_round_trip.
