(** C77: the example program for the C interface. *)
From Verif Require Import Prelude ProofList ModelFfi ModelMux ProofZlist ModelAns SpecAns ModelRecode SpecLz ModelCmd ModelCodec ModelPm ModelTop SpecCodec ModelHeader SpecHeader SpecCrc ProofHeader ModelEnc SpecFile ThmCodec ThmEnc ModelDec ProofDec7 ThmDec ModelRaw ModelRawEnc SpecEnc SpecDec SpecRawEnc ModelThread SpecThread ProofThread5 ProofThread6.
From Coq Require String.
From Verif Require ThmHeader ModelIo.
From Verif Require Import ModelText ProofCrc ProofMux ProofEnc ProofEnc2 ProofEnc3 ProofEnc4 ProofSim ThmRaw ProofRecode ProofRawEnc ProofRawEnc2 ThmRawEnc.
From Verif Require Import ProofIo2 ModelHybrid SpecHybrid ThmHybrid ModelToolThread ProofToolThread ThmToolThread ModelCapi SpecCapi ProofCapi ThmCapi ThmCapiDefault SpecText ModelExample SpecExample ProofExample ProofExample2 ProofExample3.

Local Open Scope string_scope.
Local Open Scope list_scope.
Local Open Scope Z_scope.
Import String.StringSyntax.

(** C77, the vector.  Any pieces, 2^63 bytes at most, pushed one after the other on a new
    vector: no abort, no access outside the memory, and the vector holds their
    concatenation, in memory of the next power of two.  One piece beyond that aborts the
    program. *)
Lemma pushed_holds : forall pieces v X, holds v X -> zlen X + zlen (concat pieces) <= 2 ^ 63 -> exists w, pushed v pieces = Some w /\ holds w (X ++ concat pieces).
Proof.
  induction pieces as [|p pieces IH]; intros v X H L; cbn [pushed concat] in *; [exists v; rewrite app_nil_r; auto|]. rewrite zlen_app in L. pose proof (zlen_nonneg (concat pieces)).
  destruct (push_holds v X p H ltac:(lia)) as (w & E & HW). rewrite E. cbn [bind]. rewrite app_assoc. apply IH; [exact HW|]. rewrite zlen_app. lia.
Qed.
Theorem C77_vector : forall pieces, zlen (concat pieces) <= 2 ^ 63 ->
  exists v, pushed new_vec pieces = Some v /\ bytes_of v = Some (concat pieces) /\ v_size v = zlen (concat pieces) /\
    (concat pieces <> [] -> exists mem k, v_data v = Some mem /\ 0 <= k /\ zlen mem = 2 ^ k /\ zlen mem / 2 < v_size v <= zlen mem) /\
    (forall p, 2 ^ 63 < zlen (concat pieces) + zlen p < 2 ^ 64 -> push_vec v p = None).
Proof.
  intros pieces L. destruct (pushed_holds pieces new_vec [] new_holds ltac:(change (zlen (@nil Z)) with 0; lia)) as (v & E & H). cbn [app] in H. exists v. split; [exact E|]. split; [exact (holds_bytes _ _ L H)|]. pose proof H as (S & Dt). split; [exact S|]. split.
  - intros NN. destruct (concat pieces) as [|z l] eqn:CE; [contradiction NN; reflexivity|]. rewrite <- CE in *. assert (L1 : 1 <= zlen (concat pieces)) by (rewrite CE, zlen_cons; pose proof (zlen_nonneg l); lia).
    destruct (order_spec _ L1 L) as (O1 & O2 & O3). eexists _, (order (zlen (concat pieces))). split; [exact Dt|]. split; [lia|]. rewrite zlen_app, zlen_map', ProofExample.zlen_repeat by lia. split; [lia|]. rewrite S. split; [|lia].
    replace (zlen (concat pieces) + (2 ^ order (zlen (concat pieces)) - zlen (concat pieces))) with (2 ^ order (zlen (concat pieces))) by lia. set (k := order (zlen (concat pieces))) in *. destruct (Z.eq_dec k 0) as [->|NZ]; [change (2 ^ 0 / 2) with 0; lia|]. replace k with (Z.succ (k - 1)) by lia. rewrite Z.pow_succ_r by lia. rewrite Z.mul_comm, Z.div_mul by lia. apply O3. lia.
  - intros p LP. exact (push_too_many v _ p H L LP).
Qed.
Print Assumptions C77_vector.

(** the settings accepted are those of [configure] *)
Lemma options_nonneg args : Forall (fun p => 0 <= snd p) (options_of args).
Proof.
  assert (A : forall s, 0 <= atoi_u32 s) by (intros s; unfold atoi_u32; apply Z.mod_pos_bound; reflexivity).
  unfold options_of. apply Forall_app. split; [|apply Forall_app; split]; apply Forall_forall; intros p I; apply in_flat_map in I; destruct I as (a & _ & I).
  - unfold opt_first in I. rewrite !in_app_iff in I. destruct I as [I|[I|[I|[I|[I|[I|[I|I]]]]]]]; (destruct (starts_with _ a); [|destruct I]); cbn [In] in I; repeat (destruct I as [<-|I]; [cbn [snd]; first [apply A|lia]|]); destruct I.
  - unfold opt_stride in I. destruct (starts_with _ a); [|destruct I]. apply in_app_iff in I. destruct I as [I|I].
    + destruct (existsb _ args); [|destruct I]. destruct I as [<-|[]]. cbn [snd]. lia.
    + destruct (skipn 2 a); [destruct I|]. destruct I as [<-|[]]. cbn [snd]. apply A.
  - unfold opt_mixing in I. destruct (starts_with _ a); [|destruct I]. destruct (skipn 2 a); (destruct I as [<-|[]]; cbn [snd]); [lia|apply A].
Qed.
Lemma set_options_configure {X} : forall l (s s' : cstate X), set_options s l = Some s' -> s' = fold_left (fun s p => snd (set_option s (fst p) (snd p))) l s.
Proof.
  induction l as [|[sel v] l IH]; intros s s' E; cbn [set_options fold_left fst snd] in *; [congruence|]. destruct (set_option s sel v) as [k s1]. cbn [snd]. unfold assert in E. destruct (k =? DIVANS_SUCCESS); [|discriminate E]. apply IH, E.
Qed.

Section Main.
Context (dict : dict_fn) (wl : word_len_fn) (B : Type) (fe : frontend B) (create : opts -> B) (optimize : opts -> metablock -> option metablock).
Context (o : opts).
Local Notation ws := (choose_window (o_window_size o)).
Context (UB : o_use_brotli o <> UseInternalCommandSelection) (MX : unwrap_or 0 (o_mixing o) < 8) (G : cfg_ok (cfg_of o)).
Context (GF : good_frontend dict wl real_dims (cfg_of o) ws fe (optimize o) (create o)) (FF : faithful dict ws fe (optimize o) (create o)).
Local Notation PR fuel := (hybrid_processor dict wl real_dims (cfg_of o) fe (optimize o) fuel fuel).
Local Notation X0 := (hybrid_new real_dims (create o) (o_window_size o)).
Context (data : list Z) (BX : bytes data) (LD : 1 <= zlen data).
Lemma offered_quiet k : offered (quiet k) = [].
Proof. unfold quiet. induction k as [|k IH]; [reflexivity|exact IH]. Qed.
Lemma session_quiet fuel k rooms : hsession (PR fuel) X0 [] ((data, BUF_SIZE) :: quiet k) rooms = hsession (PR fuel) X0 data (quiet (S k)) rooms.
Proof. unfold quiet. cbn [repeat hsession app]. rewrite app_nil_r. reflexivity. Qed.
Definition session_fine (m fuel k : nat) : Prop := exists T v, hsession (PR fuel) X0 data (quiet k) (repeat BUF_SIZE m) = Some (T, v) /\ v <> HBroken /\ (v <> HLeft -> v = HFinished) /\
  (v = HFinished -> exists cmds a b, acceptable dict wl real_dims (cfg_of o) ws cmds /\ meaning dict (window ws) cmds = data /\ streams_of dict wl real_dims (cfg_of o) ws cmds a b /\ is_file ws a b T) /\
  (eager fe -> zlen data < Z.of_nat k -> v <> HLeft).
Lemma session_one k : exists fuel0 m0, forall fuel m, (fuel0 <= fuel)%nat -> (m0 <= m)%nat -> session_fine m fuel k.
Proof.
  pose proof (proj1 C20_case) as BG. destruct k as [|k].
  { exists 0%nat, 0%nat. intros fuel m _ _. exists [], HLeft. split; [|split; [discriminate|]; split; [intros Q; contradiction Q; reflexivity|]; split; [discriminate|lia]]. unfold quiet. cbn [repeat hsession]. destruct data; [change (zlen (@nil Z)) with 0 in LD; lia|reflexivity]. }
  assert (OC : offered ((data, BUF_SIZE) :: quiet k) = data) by (unfold offered; cbn [map fst concat]; change (concat (map fst (quiet k))) with (offered (quiet k)); rewrite offered_quiet; apply app_nil_r).
  destruct (C61_default_file dict wl real_dims (cfg_of o) (o_window_size o) B fe (optimize o) (create o) BG G GF FF ((data, BUF_SIZE) :: quiet k)) as (f0 & n0 & m0 & H).
  { rewrite OC. exact BX. } { apply Forall_cons; [cbn [snd]; unfold BUF_SIZE; lia|]. apply Forall_forall. intros z I. apply repeat_spec in I. subst z. cbn [snd]. unfold BUF_SIZE. lia. }
  exists (Nat.max f0 n0), (S (Z.to_nat m0)). intros fuel m LF LM.
  assert (RO : Forall (fun r => 1 <= r) (repeat BUF_SIZE m)) by (apply Forall_forall; intros z I; apply repeat_spec in I; subst z; unfold BUF_SIZE; lia).
  destruct (H fuel fuel (repeat BUF_SIZE m) ltac:(lia) ltac:(lia)) as (T & v & E & NB & V1 & V2 & V3); [eapply Forall_impl; [|exact RO]; cbn beta; lia|].
  exists T, v. split; [rewrite <- session_quiet; exact E|]. split; [exact NB|]. split; [|split].
  - intros NL. apply V2; [exact NL|exact RO|]. unfold zlen. rewrite repeat_length. lia.
  - intros Q. rewrite OC in V1. exact (V1 Q).
  - intros EG LK. apply (V3 EG [(data, BUF_SIZE)] (quiet k) eq_refl (offered_quiet k)). unfold offered. cbn [map fst concat]. rewrite app_nil_r. unfold zlen at 2. unfold quiet. rewrite repeat_length. lia.
Qed.
Lemma session_upto K : exists fuel0 m0, forall fuel m k, (fuel0 <= fuel)%nat -> (m0 <= m)%nat -> (k <= K)%nat -> session_fine m fuel k.
Proof.
  induction K as [|K (f1 & m1 & IH)].
  - destruct (session_one 0) as (f0 & m0 & H). exists f0, m0. intros fuel m k L1 L2 L3. replace k with 0%nat by lia. apply H; assumption.
  - destruct (session_one (S K)) as (f0 & m0 & H). exists (Nat.max f0 f1), (Nat.max m0 m1). intros fuel m k L1 L2 L3. destruct (Nat.eq_dec k (S K)) as [->|NE]; [apply H; lia|apply IH; lia].
Qed.
Lemma compress_good (EG : eager fe) : exists n0 fuel0, forall n fuel s buf, (n0 <= n)%nat -> (fuel0 <= fuel)%nat -> zlen buf = BUF_SIZE -> c_started real_dims create s = Some (Brotli o X0) ->
  exists T cmds a b, acceptable dict wl real_dims (cfg_of o) ws cmds /\ meaning dict (window ws) cmds = data /\ streams_of dict wl real_dims (cfg_of o) ws cmds a b /\ is_file ws a b T /\
    (zlen T <= 2 ^ 63 -> exists v, encode_loop dict wl real_dims fe create optimize n fuel s data buf new_vec = XDone v /\ holds v T).
Proof.
  set (K := S (Z.to_nat (zlen data))). destruct (session_upto K) as (f0 & m0 & H). exists (S (K + m0)), f0. intros n fuel s buf LN LF LB ST.
  destruct (encode_good dict wl real_dims fe create optimize o fuel (repeat BUF_SIZE m0) m0 eq_refl K s X0 data buf new_vec ST LB new_holds) as (k & T & KK & E & LOOP).
  - intros k LK. destruct (H fuel m0 k LF (le_n _) LK) as (T & v & A1 & A2 & A3 & _). eauto.
  - intros T E. destruct (H fuel m0 K LF (le_n _) (le_n _)) as (T' & v & A1 & _ & _ & _ & A5). apply (A5 EG); [unfold K; lia|]. congruence.
  - destruct (H fuel m0 k LF (le_n _) KK) as (T' & v & A1 & _ & _ & A4 & _). rewrite E in A1. assert (T' = T /\ v = HFinished) as (-> & ->) by (split; congruence). destruct (A4 eq_refl) as (cmds & a & b & Q1 & Q2 & Q3 & Q4). exists T, cmds, a, b. split; [exact Q1|]. split; [exact Q2|]. split; [exact Q3|]. split; [exact Q4|]. intros LT. apply LOOP; [lia|exact LT].
Qed.
End Main.

(** decompress, of any file *)
Lemma decompress_good dict wl D g ws cmds a b : big D -> cfg_ok g -> 10 <= ws <= 24 -> acceptable dict wl D g ws cmds -> streams_of dict wl D g ws cmds a b -> zlen (meaning dict (window ws) cmds) <= 2 ^ 63 ->
  exists n0 fuel0 r0, forall n fuel T buf m, (n0 <= n)%nat -> (fuel0 <= fuel)%nat -> is_file ws a b T -> zlen buf = BUF_SIZE -> some_machine r0 m ->
  exists v, decompress dict wl D n fuel m T buf = XDone v /\ holds v (meaning dict (window ws) cmds).
Proof.
  intros B G WS AC ST LO. destruct (par_starts dict wl D g ws cmds a b false B G WS AC ST) as (N & H). set (out := meaning dict (window ws) cmds) in *. set (n1 := S (Z.to_nat (zlen out))).
  exists n1, N, (N0 N + 10 * Z.of_nat n1). intros n fuel T buf m LN LF IF LB MA. destruct (H T IF) as (W & Tr & -> & TRE & AS & BTT). pose proof (zlen_nonneg out).
  assert (ONE : exists v, decode_loop dict wl D n1 fuel m (make_header ws ++ W ++ Tr) buf new_vec = XDone v /\ holds v out).
  { destruct MA as [->|(rounds & -> & FR & LR)].
    - apply (decode_alone dict wl D ws WS W Tr out N TRE AS fuel LF LO n1 decompressor_new (make_header ws ++ W ++ Tr) [] buf new_vec); [|exact LB|exact new_holds|change (zlen (@nil Z)) with 0; unfold n1; lia].
      split; [|exact BTT]. exists [], (make_header ws). split; [exact hp_new_inv|]. repeat split.
    - apply (decode_both dict wl D ws WS W Tr out N TRE AS fuel BTT LO n1 (PS pdec_new false (concat rounds)) (make_header ws ++ W ++ Tr) [] buf new_vec); [|exact LB|exact new_holds|change (zlen (@nil Z)) with 0; unfold n1; lia].
      exists (N0 N). split; [|exists [], rounds; split; [reflexivity|]; split; [exact FR|left; cbn [ps_sched]; lia]]. exists []. split; [reflexivity|]. cbn [ps_d pdec_new]. split; [exists [], (make_header ws); split; [exact hp_new_inv|auto]|]. split; [reflexivity|lia]. }
  destruct ONE as (v & E & HV). exists v. split; [|exact HV]. unfold decompress. replace n with (n1 + (n - n1))%nat by lia. apply decode_more, E.
Qed.

(** C77, the program.  Any arguments whose settings are accepted and leave the command
    selection with brotli (the default), a context mixing below 8 and a prior depth below
    16; an encoder that keeps brotli's contract and makes progress; any file that is not
    empty; any garbage in the program's buffers; a decompressor with one thread, or with
    two under any fair schedule: the program compresses the file to one that stands for
    it, decompresses that to the same bytes, and writes its line with both sizes.  (2^63
    bytes is half the address space.) *)
Theorem C77_program : forall dict wl B (fe : frontend B) create optimize args o data, let ws := choose_window (o_window_size o) in
  set_options cs_new (options_of args) = Some (@OptionStage (option (@comp B)) o) ->
  o_use_brotli o <> UseInternalCommandSelection -> unwrap_or 0 (o_mixing o) < 8 -> unwrap_or 0 (o_prior_depth o) < 16 ->
  good_frontend dict wl real_dims (cfg_of o) ws fe (optimize o) (create o) -> faithful dict ws fe (optimize o) (create o) -> eager fe ->
  bytes data -> 1 <= zlen data <= 2 ^ 63 ->
  exists n0 fuel0, forall n fuel buf1, (n0 <= n)%nat -> (fuel0 <= fuel)%nat -> zlen buf1 = BUF_SIZE ->
  exists T cmds a b, acceptable dict wl real_dims (cfg_of o) ws cmds /\ meaning dict (window ws) cmds = data /\ streams_of dict wl real_dims (cfg_of o) ws cmds a b /\ is_file ws a b T /\
  (zlen T <= 2 ^ 63 ->
   (exists v, compress dict wl real_dims fe create optimize n fuel args data buf1 = XDone v /\ bytes_of v = Some T) /\
   exists n2 fuel2 r2, forall n' fuel' m buf2, (n2 <= n')%nat -> (fuel2 <= fuel')%nat -> some_machine r2 m -> zlen buf2 = BUF_SIZE ->
   (exists w, decompress dict wl real_dims n' fuel' m T buf2 = XDone w /\ bytes_of w = Some data) /\
   example dict wl real_dims fe create optimize n fuel args n' fuel' m data buf1 buf2 = Some (report (zlen T) (zlen data))).
Proof.
  intros dict wl B fe create optimize args o data ws SO UB MX PD GF FF EG BX LD. pose proof (set_options_configure _ _ _ SO) as C. symmetry in C. change (configure (options_of args) = @OptionStage (option (@comp B)) o) in C.
  pose proof (sane_cfg o (configured _ o (options_nonneg args) C) MX PD) as G. pose proof (start_brotli create o UB ltac:(lia)) as ST.
  destruct (compress_good dict wl B fe create optimize o G GF FF data BX ltac:(lia) EG) as (n0 & fuel0 & H). exists n0, fuel0. intros n fuel buf1 LN LF LB.
  destruct (H n fuel (OptionStage o) buf1 LN LF LB ST) as (T & cmds & a & b & Q1 & Q2 & Q3 & Q4 & K). exists T, cmds, a, b. split; [exact Q1|]. split; [exact Q2|]. split; [exact Q3|]. split; [exact Q4|]. intros LT. destruct (K LT) as (v & E & HV). clear H K.
  assert (CE : compress dict wl real_dims fe create optimize n fuel args data buf1 = XDone v) by (unfold compress; rewrite SO; exact E). pose proof (holds_bytes _ _ LT HV) as BV. split; [exists v; auto|].
  destruct (decompress_good dict wl real_dims (cfg_of o) ws cmds a b (proj1 C20_case) G (ThmHeader.choose_window_range _) Q1 Q3 ltac:(fold ws in Q2; rewrite Q2; lia)) as (n2 & f2 & r2 & H2). exists n2, f2, r2. intros n' fuel' m buf2 L1 L2 MA LB2.
  destruct (H2 n' fuel' T buf2 m L1 L2 Q4 LB2 MA) as (w & E2 & HW). fold ws in Q2. rewrite Q2 in HW. pose proof (holds_bytes _ _ (proj2 LD) HW) as BW. split; [exists w; auto|].
  unfold example. rewrite CE, BV. cbn [bind]. rewrite E2, BW. cbn [bind]. destruct HW as (-> & _). destruct HV as (-> & _). rewrite Z.eqb_refl. unfold same_bytes. destruct (list_eq_dec Z.eq_dec data data) as [_|NE]; [reflexivity|contradiction NE; reflexivity].
Qed.
Print Assumptions C77_program.

(** C77, the program with -l.  The same with the internal command selection and a file of
    fewer than twice the window minus one bytes (the known limit of C46), whatever the
    streams of its commands, if they are not of astronomical size. *)
Theorem C77_program_internal : forall dict wl B (fe : frontend B) create optimize args o data a b, let ws := choose_window (o_window_size o) in
  set_options cs_new (options_of args) = Some (@OptionStage (option (@comp B)) o) ->
  o_use_brotli o = UseInternalCommandSelection -> unwrap_or 0 (o_mixing o) < 8 -> unwrap_or 0 (o_prior_depth o) < 16 ->
  bytes data -> 1 <= zlen data < 2 * 2 ^ ws - 1 -> streams_of dict wl real_dims (cfg_of o) ws (raw_cmds real_dims ws data) a b -> zlen a + zlen b <= 2 ^ 60 ->
  exists n0 fuel0 r0, forall n fuel n' fuel' m buf1 buf2, (n0 <= n)%nat -> (fuel0 <= fuel)%nat -> (n0 <= n')%nat -> (fuel0 <= fuel')%nat -> some_machine r0 m -> zlen buf1 = BUF_SIZE -> zlen buf2 = BUF_SIZE ->
  exists T, is_file ws a b T /\
    (exists v, compress dict wl real_dims fe create optimize n fuel args data buf1 = XDone v /\ bytes_of v = Some T) /\
    (exists w, decompress dict wl real_dims n' fuel' m T buf2 = XDone w /\ bytes_of w = Some data) /\
    example dict wl real_dims fe create optimize n fuel args n' fuel' m data buf1 buf2 = Some (report (zlen T) (zlen data)).
Proof.
  intros dict wl B fe create optimize args o data a b ws SO UB MX PD BX LD STR LAB. pose proof (set_options_configure _ _ _ SO) as C. symmetry in C. change (configure (options_of args) = @OptionStage (option (@comp B)) o) in C.
  pose proof (sane_cfg o (configured _ o (options_nonneg args) C) MX PD) as G. pose proof (start_internal create o UB ltac:(lia)) as ST. pose proof (proj1 C20_case) as BG.
  assert (WR : 10 <= ws <= 24) by (apply ThmHeader.choose_window_range). assert (L10 : 2 ^ 10 <= 2 ^ ws) by (apply Z.pow_le_mono_r; lia). assert (L24 : 2 ^ ws <= 2 ^ 24) by (apply Z.pow_le_mono_r; lia).
  pose proof (raw_acceptable dict wl (cfg_of o) ws data G WR BX ltac:(lia)) as AC. pose proof (raw_meaning dict ws data (window ws) ltac:(lia)) as ME.
  destruct (decompress_good dict wl real_dims (cfg_of o) ws _ a b BG G WR AC STR ltac:(rewrite ME; change (2 ^ 63) with 9223372036854775808; change (2 ^ 24) with 16777216 in L24; lia)) as (n2 & f2 & r2 & H2). rewrite ME in H2.
  pose proof STR as (fuel0 & c & es & E & W & EA & EB).
  destruct (enc_ring dict ws (window ws) wl real_dims (cfg_of o) fuel0 _ c _ es ltac:(lia) (window_len ws ltac:(lia)) E) as (c' & E').
  destruct (header_bytes ws (ThmHeader.choose_window_byte (o_window_size o))) as (BH & HL). pose proof (BA es a W EA) as BA'. pose proof (ProofEnc4.BB es b W EB) as BB'.
  set (n1 := Z.to_nat (2 * (bound a b + 16) + zlen data + 2)). exists (Nat.max n1 n2), (Nat.max fuel0 f2), r2. intros n fuel n' fuel' m buf1 buf2 L1 L2 L3 L4 MA LB1 LB2.
  assert (LBD : bound a b + 16 <= 2 ^ 63) by (unfold bound; change (2 ^ 63) with 9223372036854775808; change (2 ^ 60) with 1152921504606846976 in LAB; lia).
  destruct (encode_raw_good dict wl real_dims (cfg_of o) es a b (make_header ws) W EA EB BH HL ws ltac:(lia) real_fits data ltac:(lia) fuel0 fuel ltac:(lia) LBD fe create optimize n (OptionStage o) (rawc_new real_dims (o_window_size o)) buf1 new_vec [] data []) as (v & T & EL & HV & CO & LT).
  { exact ST. } { exact LB1. }
  { unfold rinv, rawc_new. cbn [rw_asm rw_cm rw_frz app]. fold ws. split; [exact (window_len ws ltac:(lia))|]. split; [|split; [|split; [reflexivity|split; [reflexivity|]]]].
    + apply AF; cbn [raw_new roi rdi produced_header rring]; try reflexivity. change (zlen (@nil Z)) with 0. lia.
    + unfold pending. change (zlen (@nil Z)) with 0. destruct (Z.ltb_spec 0 (2 ^ ws)); [|lia].
      exists []. cbn [compressor_new cm_hdr cm_codec cm_ws firstn app ecodec_new ec_phase]. split; [reflexivity|]. split; [lia|]. split; [split; reflexivity|]. split; [reflexivity|]. split; [|split; [|constructor]].
      * unfold phinv. cbn [ec_phase ec_parts ec_codec]. exists [], es. split; [reflexivity|]. split; [apply einv_new|]. split; [|reflexivity]. eexists _, _. exact E'.
      * unfold crcok. cbn [ec_phase ec_frozen ec_crc]. split; reflexivity.
    + intros _. split; [reflexivity|]. split; [eexists; reflexivity|reflexivity]. }
  { reflexivity. } { exact new_holds. } { change (zlen (@nil Z)) with 0. unfold n1 in L1. pose proof (zlen_nonneg a). pose proof (zlen_nonneg b). unfold bound in *. lia. }
  assert (IF : is_file ws a b T).
  { destruct CO as (Y & FR & EO). exists Y. split; [apply framed_framing, FR|]. split; [apply framed_carries; assumption|]. rewrite EO.
    assert (BY : bytes Y). { destruct FR as (fs & GG & -> & P0 & P1). apply bytes_app; [apply enc_bytes; [exact GG|rewrite P0; exact BA'|rewrite P1; exact BB']|]. repeat constructor; unfold byte; lia. }
    rewrite checksum_bytes_trailer, crc0_spec by (apply bytes_app; assumption). reflexivity. }
  exists T. split; [exact IF|].
  assert (CE : compress dict wl real_dims fe create optimize n fuel args data buf1 = XDone v) by (unfold compress; rewrite SO; exact EL). pose proof (holds_bytes v T (Z.le_trans _ _ _ LT LBD) HV) as BV. split; [exists v; auto|].
  destruct (H2 n' fuel' T buf2 m ltac:(lia) ltac:(lia) IF LB2 MA) as (w & E2 & HW). assert (LDD : zlen data <= 2 ^ 63) by (change (2 ^ 63) with 9223372036854775808; change (2 ^ 24) with 16777216 in L24; lia). pose proof (holds_bytes _ _ LDD HW) as BW. split; [exists w; auto|].
  unfold example. rewrite CE, BV. cbn [bind]. rewrite E2, BW. cbn [bind]. destruct HW as (-> & _). destruct HV as (-> & _). rewrite Z.eqb_refl. unfold same_bytes. destruct (list_eq_dec Z.eq_dec data data) as [_|NE]; [reflexivity|contradiction NE; reflexivity].
Qed.
Print Assumptions C77_program_internal.

(** C77, the line.  The sizes are printed as decimal numerals without leading zeros.  Let
    [r] be the size of the compressed file in ten-thousandths of a per cent of the length,
    rounded to the nearest.  The figures before and after the point, four of them, read
    together as one number, are [r], unless rounding up reaches the next whole per cent;
    then they are one per cent less. *)
Theorem C77_line : forall size len, 1 <= len < 2 ^ 64 -> 0 <= size -> size * 1000000 + len < 2 ^ 64 ->
  let r := (size * 1000000 + len / 2) / len in
  exists a b w f, report size len = str "File length " ++ a ++ str " reduced to " ++ b ++ str ", " ++ w ++ str "." ++ f ++ str "%" ++ [10] /\
    numeral len a /\ hd 0 a <> 48 /\ numeral size b /\ (hd 48 b = 48 -> size = 0) /\ numeral (size * 100 / len) w /\ zlen f = 4 /\ Forall digit f /\
    value (w ++ f) = if r / 10000 =? size * 100 / len then r else r - 10000.
Proof.
  intros size len LN SZ BD r. assert (LH : 0 <= len / 2 <= len) by (split; [apply Z.div_pos; lia|apply Z.div_le_upper_bound; lia]).
  assert (SL : size * 100 <= size * 1000000) by lia. assert (W1 : 0 <= size * 100 / len <= size * 100) by (split; [apply Z.div_pos; lia|apply Z.div_le_upper_bound; nia]).
  assert (R0 : 0 <= r) by (apply Z.div_pos; lia). assert (RM : 0 <= r mod 10000 < 10000) by (apply Z.mod_pos_bound; lia).
  destruct (custom_atoi_spec len ltac:(lia)) as (A1 & A2). destruct (custom_atoi_spec size ltac:(lia)) as (B1 & B2). destruct (custom_atoi_spec (size * 100 / len) ltac:(lia)) as (C1 & _). destruct (five_digits (r mod 10000) RM) as (f & F1 & F2 & F3 & F4).
  exists (custom_atoi len), (custom_atoi size), (custom_atoi (size * 100 / len)), f. split.
  { unfold report, whole_percent, rest_percent. replace (u64 (size * 100)) with (size * 100) by (symmetry; apply Z.mod_small; lia). replace (u64 (size * 1000000 + len / 2)) with (size * 1000000 + len / 2) by (symmetry; apply Z.mod_small; lia). fold r. rewrite F1. cbn [tl]. reflexivity. }
  split; [exact A1|]. split. { intros Q. assert (len = 0); [|lia]. apply A2. destruct A1 as (A1 & _). destruct (custom_atoi len); [contradiction A1; reflexivity|exact Q]. } split; [exact B1|]. split; [exact B2|]. split; [exact C1|]. split; [exact F2|]. split; [exact F3|].
  destruct C1 as (_ & _ & C1). rewrite value_app, C1, F2, F4. change (10 ^ 4) with 10000.
  (* r lies between 10000 times the whole per cents and 10000 more *)
  assert (LO : size * 100 / len * 10000 <= r). { apply Z.div_le_lower_bound; [lia|]. pose proof (Z.mul_div_le (size * 100) len ltac:(lia)). nia. }
  assert (HI : r < (size * 100 / len + 1) * 10000 + 1). { apply Z.div_lt_upper_bound; [lia|]. pose proof (Z.mul_succ_div_gt (size * 100) len ltac:(lia)). nia. }
  pose proof (Z.div_mod r 10000 ltac:(lia)) as DM. set (q := size * 100 / len) in *. clearbody q. destruct (Z.eqb_spec (r / 10000) q) as [Q|Q]; [lia|]. assert (r / 10000 = q + 1); [|lia].
  assert (q <= r / 10000) by (apply Z.div_le_lower_bound; lia). assert (r / 10000 < q + 2) by (apply Z.div_lt_upper_bound; lia). lia.
Qed.
Print Assumptions C77_line.
(** It does happen: 20001 bytes reduced to 200 are 0.99995 per cent, printed as 0.0000%. *)
Theorem C77_line_refuted : report 200 20001 = str "File length 20001 reduced to 200, 0.0000%" ++ [10] /\ (200 * 1000000 + 20001 / 2) / 20001 = 10000.
Proof. vm_compute. split; reflexivity. Qed.
(** The option -as is meant to turn on the detection of strides.  It is also read as -a with
    the number of no digits, 0: all four adaptation speeds become those whose increment
    is 0, with which the probabilities of literals never adapt.  The option -cm without
    a number forces the context mode 0 (the code tests the pointer, not the character). *)
Theorem C77_as_refuted : forall X, exists o, set_options cs_new (options_of [str "-as"]) = Some (@OptionStage X o) /\
  o_stride_quality o = Some 2 /\ o_literal_adaptation o = Some [(0, 1024); (0, 1024); (0, 1024); (0, 1024)].
Proof. intros X. eexists. split; [vm_compute; reflexivity|]. split; reflexivity. Qed.
Theorem C77_cm_refuted : forall X, exists o, set_options cs_new (options_of [str "-cm"]) = Some (@OptionStage X o) /\ o_context_mode o = Some 0.
Proof. intros X. eexists. split; [vm_compute; reflexivity|]. reflexivity. Qed.
(** Each option is followed by an assertion: a number out of range aborts the program. *)
Theorem C77_refused_option : forall X, set_options (X := X) cs_new (options_of [str "-a15"]) = None /\ set_options (X := X) cs_new (options_of [str "-q5"; str "-s9"]) = None.
Proof. intros X. split; vm_compute; reflexivity. Qed.

(** Cases: a vector filled with pieces; arguments, a text of 1500 bytes and the storing
    encoder with which the hypotheses hold. *)
Example C77_vector_case : option_map (fun v => (bytes_of v, v_data v)) (pushed new_vec [[1; 2; 3]; []; [4; 5]]) =
  Some (Some [1; 2; 3; 4; 5], Some [Some 1; Some 2; Some 3; Some 4; Some 5; None; None; None]).
Proof. vm_compute. reflexivity. Qed.
Definition case_args : list (list Z) := [str "-q10"; str "-w16"; str "file"; str "-m3"; str "-s4"].
Example C77_case : forall dict wl, let opt := fun _ : opts => @Some metablock in let data := repeat 65 1500 in
  exists o n fuel (T : list Z) n2 fuel2 r2, set_options cs_new (options_of case_args) = Some (@OptionStage (option (@comp (list (list Z) * bool))) o) /\ o_window_size o = Some 16 /\ o_mixing o = Some 3 /\
    (zlen T <= 2 ^ 63 -> forall m buf, some_machine r2 m -> zlen buf = BUF_SIZE ->
     example dict wl real_dims store (fun _ => ([], false)) opt n fuel case_args n2 fuel2 m data (repeat 0 (Z.to_nat BUF_SIZE)) buf = Some (report (zlen T) 1500)).
Proof.
  intros dict wl opt data. set (o := set_o_mixing (set_o_stride (set_o_window_size (set_o_quality opts_default (Some 10)) (Some 16)) (Stride 4)) (Some 3)).
  assert (SO : set_options cs_new (options_of case_args) = Some (@OptionStage (option (@comp (list (list Z) * bool))) o)) by (vm_compute; reflexivity).
  assert (G : cfg_ok (cfg_of o)) by (apply (sane_cfg o (configured _ o (options_nonneg case_args) (eq_sym (set_options_configure _ _ _ SO)))); reflexivity).
  assert (ZD : zlen data = 1500) by (unfold data, zlen; rewrite repeat_length; reflexivity).
  destruct (C77_program dict wl _ store (fun _ => ([], false)) opt case_args o data SO ltac:(discriminate) ltac:(reflexivity) ltac:(reflexivity) (store_good dict wl _ _ G) (store_faithful dict _) store_eager) as (n & fuel & H).
  { apply Forall_forall. intros z Q. apply repeat_spec in Q. subst z. unfold byte. lia. } { rewrite ZD. split; [lia|vm_compute; discriminate]. }
  destruct (H n fuel (repeat 0 (Z.to_nat BUF_SIZE)) (le_n _) (le_n _)) as (T & cmds & a & b & _ & _ & _ & _ & K); [unfold zlen; rewrite repeat_length; unfold BUF_SIZE; lia|].
  destruct (Z_le_gt_dec (zlen T) (2 ^ 63)) as [L|L].
  - destruct (K L) as (_ & n2 & f2 & r2 & K2). exists o, n, fuel, T, n2, f2, r2. split; [exact SO|]. split; [reflexivity|]. split; [reflexivity|]. intros _ m buf MA LB. rewrite <- ZD. apply (K2 n2 f2 m buf (le_n _) (le_n _) MA LB).
  - exists o, n, fuel, T, 0%nat, 0%nat, 0. split; [exact SO|]. split; [reflexivity|]. split; [reflexivity|]. intros Q. clear - L Q. lia.
Qed.
