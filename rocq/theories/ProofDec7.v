(** Decompressor: the start, the header, sessions. *)
From Verif Require ProofRecode3.
From Verif Require Import Prelude ProofList ModelAns SpecAns ModelCdf SpecCdf ModelRecode SpecLz ProofRecode ProofRecode2 ProofAns ProofAnsRt ProofAnsDec ThmCdf ModelMux SpecMux ProofZlist ProofMux ProofMuxW ProofMuxR ModelCmd ModelCrc SpecCrc ProofCrc ModelHeader SpecHeader ProofHeader ModelPriors ModelCodec ModelLit ModelPm ModelTop SpecCodec SpecReplay SpecFile ModelEnc ProofEnc ProofEnc2 ProofEnc3 ProofEnc4 ProofCodecInv2 ProofRun ProofTop ThmCodec ProofSim ThmEnc ModelDec SpecEnc SpecDec ProofDec1 ProofDec2 ProofDec3 ProofDec4 ProofDec5 ProofDec6.

(** ** The commands coded mean what the commands given mean *)
Lemma coded_meaning dict wl D g : forall cmds old h, meaning dict h (coded_all wl D g old cmds) = meaning dict h cmds.
Proof.
  induction cmds as [|c cmds IH]; intros old h; [reflexivity|]. cbn [coded_all meaning].
  assert (E : meaning1 dict h (coded wl D g old c) = meaning1 dict h c) by (destruct c; reflexivity). rewrite E, IH. reflexivity.
Qed.
Lemma enc_all_det {R} (RR : replayer R) wl D g : forall cmds f1 f2 c0 c c2 xs xs2 es es2,
  enc_all RR wl D f1 g cmds c0 = Some (c, xs, es) -> enc_all RR wl D f2 g cmds c0 = Some (c2, xs2, es2) -> c2 = c /\ xs2 = xs /\ es2 = es.
Proof.
  induction cmds as [|cmd cmds IH]; intros f1 f2 c0 c c2 xs xs2 es es2 E E2; cbn [enc_all] in *.
  - destruct (enc_cmd _ wl D f1 g _ true c0) as [((p, x), y)|] eqn:P; [|discriminate]. destruct x; [discriminate|].
    destruct (enc_cmd _ wl D f2 g _ true c0) as [((p2, x2), y2)|] eqn:P2; [|discriminate]. destruct x2; [discriminate|].
    pose proof (enc_det _ _ _ _ _ _ _ _ _ _ _ P P2) as Q. injection E as <- <- <-. injection E2 as <- <- <-. injection Q as <- <-. auto.
  - destruct (enc_cmd _ wl D f1 g _ false c0) as [((p, x), y)|] eqn:P; [|discriminate]. destruct x as [x|]; [|discriminate].
    destruct (enc_cmd _ wl D f2 g _ false c0) as [((p2, x2), y2)|] eqn:P2; [|discriminate]. destruct x2 as [x2|]; [|discriminate].
    pose proof (enc_det _ _ _ _ _ _ _ _ _ _ _ P P2) as Q. injection Q as <- <- <-.
    destruct (enc_all _ wl D f1 g cmds p) as [((u, v), w)|] eqn:U; [|discriminate]. destruct (enc_all _ wl D f2 g cmds p) as [((u2, v2), w2)|] eqn:U2; [|discriminate].
    cbn [bind] in *. destruct (IH _ _ _ _ _ _ _ _ _ U U2) as (-> & -> & ->). injection E as <- <- <-. injection E2 as <- <- <-. auto.
Qed.

(** ** What is emitted is a prefix of the result *)
Lemma mph_prefix dict wlen m e outs les hf pb : mph dict wlen m e outs les hf pb -> exists y, hf = e ++ y.
Proof.
  intros [(_ & _ & _ & _ & h & I & T)|[(c & h0 & h & _ & _ & _ & _ & _ & M & T)|(safe & s & les1 & l1 & s1 & les2 & h & _ & _ & _ & _ & _ & I & T)]].
  - destruct (ProofRecode3.idle_prefix _ _ _ I) as (y & ->). destruct (mtr_pre _ _ _ _ _ _ _ _ T) as (z & ->). rewrite <- app_assoc. eauto.
  - destruct (ProofRecode3.mid_prefix _ _ _ _ _ _ M) as (y & Y). destruct (mtr_pre _ _ _ _ _ _ _ _ T) as (z & ->). rewrite Y, <- app_assoc. eauto.
  - destruct (ProofRecode3.idle_prefix _ _ _ I) as (y & ->). destruct (mtr_pre _ _ _ _ _ _ _ _ T) as (z & ->). rewrite <- !app_assoc. eauto.
Qed.

(** ** The start *)
Lemma framing_framed a b W : framing a b W -> framed a b W.
Proof.
  induction 1 as [|s lo hi d a b W L H N _ (fs & G & -> & <- & <-)|s j d a b W J N _ (fs & G & -> & <- & <-)].
  - exists []. split; [constructor|]. repeat split.
  - exists (ProofMux.FR (sid s) [sid s; lo; hi] d :: fs). split; [constructor; [|exact G]|].
    + split; [destruct s; [left|right]; reflexivity|]. left. exists lo, hi. auto.
    + cbn [enc payl f_hdr f_data f_s]. rewrite <- !app_assoc. split; [reflexivity|]. destruct s; split; reflexivity.
  - exists (ProofMux.FR (sid s) [sid s + 16 * j] d :: fs). split; [constructor; [|exact G]|].
    + split; [destruct s; [left|right]; reflexivity|]. cbn [f_s f_data f_hdr]. right. assert (E : j = 1 \/ j = 2 \/ j = 3) by lia. destruct E as [->|[->| ->]]; rewrite N; [left|right; left|right; right]; split; reflexivity.
    + cbn [enc payl f_hdr f_data f_s]. rewrite <- !app_assoc. split; [reflexivity|]. destruct s; split; reflexivity.
Qed.
Lemma unle_zeros n : unle (repeat 0 n) = 0.
Proof. induction n as [|n IH]; [reflexivity|]. cbn [repeat unle]. rewrite IH. reflexivity. Qed.
Lemma last8_zeros n : last8 (repeat 0 n) = repeat 0 (Nat.min n 8).
Proof.
  unfold last8. rewrite repeat_length. destruct (Nat.le_gt_cases n 8) as [L|L].
  - replace (n - 8)%nat with 0%nat by lia. rewrite Nat.min_l by lia. reflexivity.
  - rewrite Nat.min_r by lia. replace n with ((n - 8) + 8)%nat at 2 by lia. rewrite repeat_app, skipn_app, repeat_length.
    rewrite skipn_all2 by (rewrite repeat_length; lia). replace (n - 8 - (n - 8))%nat with 0%nat by lia. reflexivity.
Qed.
Lemma rev_zeros n : rev (repeat 0 n) = repeat 0 n.
Proof. induction n as [|n IH]; [reflexivity|]. cbn [repeat rev]. rewrite IH. rewrite <- repeat_cons. reflexivity. Qed.
Lemma mtr_fwd dict wlen l mix h outs les hf : mtr dict wlen l mix h outs les hf -> Forall fwd outs.
Proof.
  induction 1 as [|l mix h c outs les hf C _ _ IH|l mix h n he outs les1 l1 s1 les2 hf _ _ IH| |]; constructor; auto.
  - destruct c; try contradiction C; reflexivity.
  - cbn [fwd downcast]. rewrite repeat_length. reflexivity.
  - reflexivity.
  - exact Logic.I.
Qed.
Lemma arel_streams st es out : writable es -> ans_encode (intervals st es) = Some out -> arel dec_new (ivs (filter (on st) es)) out.
Proof.
  intros W E. destruct (arel_init (sfs_of st es) (sfs_legal st es W)) as (out2 & E2 & A). change (intervals st es) with (sfs_of st es) in E. rewrite E in E2. injection E2 as <-. exact A.
Qed.
Section Start.
Context (dict : dict_fn) (wl : word_len_fn) (D : dims) (skip : bool) (ws : Z) (WS : 10 <= ws <= 24).
Notation wlen := (2 ^ ws).
Lemma codec_ok : cok dict wlen (codec_new D (window ws)).
Proof.
  split; [reflexivity|]. split; [reflexivity|]. split; [exact Logic.I|]. cbn [k_lbk k_rec codec_new rlast8 lz_replayer]. unfold window. rewrite last8_zeros, rev_zeros. destruct (_ <? _); rewrite unle_zeros; reflexivity.
Qed.
Lemma start g cmds a b : big D -> cfg_ok g -> acceptable dict wl D g ws cmds -> streams_of dict wl D g ws cmds a b ->
  exists N, forall W, framed a b W -> bytes W -> forall Tr, Tr = trailer (crc32c 0 (make_header ws ++ W)) ->
  exists n ci ces outsW les, pinv dict wl D wlen skip Tr (window ws ++ meaning dict (window ws) cmds) n (pm_new D) ci ces outsW a b les W (window ws) (worker_new D) squeue_new (main_new (if skip then 0 else crc32c_update 0 (make_header ws)) ws) /\
    (cost n (worker_new D) squeue_new (main_new (if skip then 0 else crc32c_update 0 (make_header ws)) ws) a outsW <= N)%nat.
Proof.
  intros B G (ENC & RP) (fuel & c & es & E & WR & EA & EB).
  destruct (C26_stream_roundtrip _ (lz_replayer dict wlen) wl D g (window ws) cmds _ B G ENC (replay_lz dict wlen _ (window ws) RP)) as (fuel2 & c2 & es2 & E2 & _ & KR & _).
  destruct (enc_all_det _ _ _ _ _ _ _ _ _ _ _ _ _ _ E E2) as (-> & _ & ->). rewrite coded_meaning in KR. clear E2.
  destruct (all_trace dict wl D wlen g fuel cmds _ _ _ _ codec_ok E WR) as (n & outs & WT & MT). rewrite KR in MT. cbn [k_mix k_rec k_lbk codec_new] in MT. specialize (MT lbk_new eq_refl).
  exists (2 * n + 4 + 4 * length a + 4 * length outs)%nat. intros W FR BW Tr TE.
  assert (BH : bytes (make_header ws)) by (apply header_bytes; unfold byte; lia).
  pose proof (trailer_length (crc32c 0 (make_header ws ++ W))) as LT. rewrite <- TE in LT.
  assert (P1 : 1024 <= wlen) by (change 1024 with (2 ^ 10); apply Z.pow_le_mono_r; lia).
  set (m0 := main_new (if skip then 0 else crc32c_update 0 (make_header ws)) ws).
  assert (PN : pending squeue_new m0 outs = outs) by reflexivity.
  assert (TN : tot (worker_new D) squeue_new m0 a = length a) by reflexivity.
  exists n, (wview (codec_new D (window ws))), (filter (on CMD) es), outs, (filter (on LIT) es). split; [|unfold cost; rewrite PN, TN; lia]. constructor.
  - constructor; try reflexivity.
    + constructor; try reflexivity; try assumption.
      * exact (mtr_fwd _ _ _ _ _ _ _ _ MT).
      * exact (arel_streams CMD es a WR EA).
      * exact bok_empty.
      * constructor.
      * change (zlen (@nil mbuf) <= 2). change (zlen (@nil mbuf)) with 0. lia.
      * change (zlen (@nil mbuf) <= 2). change (zlen (@nil mbuf)) with 0. lia.
      * discriminate.
      * discriminate.
      * discriminate.
      * intros p [].
    + split; [exact bok_empty|]. split; [exact bok_empty|exact Logic.I].
    + discriminate.
    + discriminate.
  - exact (sread_framed a b W FR).
  - split; [exact LT|]. split; [rewrite TE; reflexivity|]. split; [exists Tr; reflexivity|]. split; [reflexivity|].
    intros ->. destruct FR as (fs & _ & X & _). symmetry in X. apply app_eq_nil in X. destruct X as (_ & X). discriminate X.
  - split; [exact BW|]. change (m_crc m0) with (if skip then 0 else crc32c_update 0 (make_header ws)). destruct skip; [split; [lia|discriminate]|].
    split; [apply crc_update_range; [exact BH|lia]|]. intros _. rewrite <- crc_update_app by (assumption || lia). rewrite crc_update_ok by (first [apply Forall_app; split; assumption|lia]). symmetry. exact TE.
  - rewrite PN. left. split; [reflexivity|]. split; [reflexivity|]. split; [apply (window_len ws); lia|].
    split; [split; [exact bok_empty|]; split; [exact (arel_streams LIT es b WR EB)|reflexivity]|].
    exists (window ws). split; [|exact MT]. apply (ProofRecode3.st_new (fun _ _ _ => None) (window ws) []). rewrite window_len by lia. lia.
Qed.

(** ** One call *)
Section Call.
Context (W Tr out : list Z) (N : nat) (BW : bytes W).
Context (TRE : Tr = trailer (crc32c 0 (make_header ws ++ W))).
Notation hf := (window ws ++ out).
Notation PINV := (pinv dict wl D wlen skip Tr hf).
Definition starts : Prop := exists n pw ci ces outsW pa pb les, 
  PINV n pw ci ces outsW pa pb les W (window ws) (worker_new D) squeue_new (main_new (if skip then 0 else crc32c_update 0 (make_header ws)) ws) /\
  (cost n (worker_new D) squeue_new (main_new (if skip then 0 else crc32c_update 0 (make_header ws)) ws) pa outsW <= N)%nat.
Context (START : starts).
(** [rest]: the unread part of the file; [o]: the output so far *)
Definition dinv (d : decompressor) (rest o : list Z) : Prop :=
  match d with
  | DHeader h => exists seen x, hp_inv h seen /\ make_header ws = seen ++ x /\ rest = x ++ W ++ Tr /\ o = []
  | DDecode p => exists n pw ci ces outsW pa pb les R, PINV n pw ci ces outsW pa pb les R (window ws ++ o) (p_w p) (p_q p) (p_m p) /\ rest = rem Tr R (p_m p) /\
      (cost n (p_w p) (p_q p) (p_m p) pa outsW <= N)%nat
  end.
Definition good (d : decompressor) (rest o : list Z) (input : list Z) (room : Z) (res : option (Z * list Z * decompressor * dres)) : Prop :=
  exists pre suf o2 d' r rest', res = Some (zlen pre, o2, d', r) /\ input = pre ++ suf /\ rest = pre ++ rest' /\ zlen o2 <= room /\ dinv d' rest' (o ++ o2) /\
    match r with
    | DSuccess => o ++ o2 = out /\ rest' = []
    | DNeedIn => rest' <> [] /\ suf = []
    | DNeedOut => zlen o2 = room /\ (rest' <> [] -> suf = [])
    | DFail => False
    end.
Lemma zskip_pre {A} (a b : list A) : zskip (zlen a) (a ++ b) = b.
Proof. unfold zskip, zlen. rewrite Nat2Z.id, skipn_app, skipn_all, Nat.sub_diag. reflexivity. Qed.
Lemma run_good fuel p rest o input future tail room : dinv (DDecode p) rest o -> bytes input -> input ++ future = rest ++ tail -> 0 <= room -> (N <= fuel)%nat ->
  good (DDecode p) rest o input room (let? '(n, o, p, r) := process dict wl D skip fuel p input room in Some (n, o, DDecode p, r)).
Proof.
  intros (n & pw & ci & ces & outsW & pa & pb & les & R & PV & -> & C) BI EI RM F. destruct p as [w q m]. cbn [p_w p_q p_m] in *.
  assert (P1 : 1024 <= wlen) by (change 1024 with (2 ^ 10); apply Z.pow_le_mono_r; lia).
  pose proof (wv_rdata2 _ _ _ _ _ _ _ _ _ _ _ (sv_w _ _ _ _ _ _ _ _ _ _ _ (pv_s _ _ _ _ _ _ _ _ _ _ _ _ _ _ _ _ _ _ _ _ PV))) as L2. unfold zlen in L2.
  destruct (process_spec dict wl D wlen ws ltac:(lia) eq_refl skip Tr hf ltac:(lia) fuel _ _ _ _ _ _ _ _ _ _ _ _ _ input future tail room PV BI EI RM) as
    (pre & suf & o2 & p' & r & n' & pw' & ci' & ces' & outs' & pa' & pb' & les' & R' & -> & IN & RE & LO & PV' & CO & RES).
  { unfold mu. unfold cost in C. lia. }
  cbn [bind]. exists pre, suf, o2, (DDecode p'), r, (rem Tr R' (p_m p')). split; [reflexivity|]. split; [exact IN|]. split; [exact RE|]. split; [exact LO|]. split.
  - exists n', pw', ci', ces', outs', pa', pb', les', R'. rewrite app_assoc. split; [exact PV'|]. split; [reflexivity|lia].
  - destruct r; try exact RES. destruct RES as (R1 & R2). split; [|exact R2]. rewrite <- app_assoc in R1. apply app_inv_head in R1. exact R1.
Qed.
Lemma Tr_len : length Tr = 8%nat.
Proof. rewrite TRE. apply trailer_length. Qed.
Lemma make_header_parse : parse_header (make_header ws) = HOk ws.
Proof. apply parse_header_ok; [reflexivity|]. split; [reflexivity|]. split; [reflexivity|lia]. Qed.
Lemma decode_good fuel d rest o input future tail room : dinv d rest o -> bytes input -> input ++ future = rest ++ tail -> 0 <= room -> (N <= fuel)%nat ->
  good d rest o input room (decode dict wl D skip fuel d input room).
Proof.
  intros DI BI EI RM F. destruct d as [h|p]; [|exact (run_good fuel p rest o input future tail room DI BI EI RM F)].
  destruct DI as (seen & x & (L & OFF & LS & FS) & HE & -> & ->).
  assert (LX : (length x = 16 - length seen)%nat) by (pose proof (make_header_length ws) as H; rewrite HE, app_length in H; lia).
  unfold decode, hp_decode. rewrite L, OFF. rewrite <- LX. rewrite <- app_assoc in EI.
  destruct (Nat.leb_spec (length x) (length input)) as [GE|LT].
  - assert (FI : firstn (length x) input = x).
    { transitivity (firstn (length x) (input ++ future)); [rewrite firstn_app; replace (length x - length input)%nat with 0%nat by lia; cbn [firstn]; rewrite app_nil_r; reflexivity|].
      rewrite EI, firstn_app, firstn_all, Nat.sub_diag. apply app_nil_r. }
    assert (INX : input = x ++ skipn (length x) input) by (pose proof (firstn_skipn (length x) input) as Y; rewrite FI in Y; symmetry; exact Y). set (input2 := skipn (length x) input) in *.
    rewrite FI. destruct (overwrite_app (hp_header h) seen x L FS ltac:(lia)) as (L2 & F2).
    assert (OV : overwrite (hp_header h) (length seen) x = make_header ws).
    { rewrite HE, <- F2. symmetry. apply firstn_all2. rewrite app_length. lia. }
    rewrite OV. change (hp_header {| hp_header := make_header ws; hp_read_offset := length seen |}) with (make_header ws). rewrite make_header_parse. change (hp_header {| hp_header := make_header ws; hp_read_offset := length seen |}) with (make_header ws).
    assert (DI : dinv (DDecode (proc_new D skip (make_header ws) ws)) (W ++ Tr) []).
    { destruct START as (n & pw & ci & ces & outsW & pa & pb & les & PV & C). exists n, pw, ci, ces, outsW, pa, pb, les, W. rewrite app_nil_r. split; [exact PV|]. split; [reflexivity|exact C]. }
    assert (EI2 : input2 ++ future = (W ++ Tr) ++ tail) by (rewrite INX, <- !app_assoc in EI; apply app_inv_head in EI; rewrite <- app_assoc; exact EI).
    assert (ZX : Z.of_nat (length x) = zlen x) by reflexivity. rewrite ZX. clearbody input2.
    assert (Z1 : zlen input = zlen x + zlen input2) by (rewrite INX, zlen_app; reflexivity). assert (Z2 : zskip (zlen x) input = input2) by (rewrite INX; apply zskip_pre). rewrite Z1, Z2.
    assert (B2 : bytes input2) by (rewrite INX in BI; apply Forall_app in BI; apply BI).
    destruct (Z.ltb_spec (zlen x) (zlen x + zlen input2)) as [GT|LE].
    + destruct (run_good fuel _ _ _ input2 future tail room DI B2 EI2 RM F) as (pre & suf & o2 & d' & r & rest' & ER & IN & RE & LO & DI' & RES).
      rewrite ER. cbn [bind]. exists (x ++ pre), suf, o2, d', r, rest'. rewrite zlen_app. split; [reflexivity|]. rewrite <- !app_assoc, <- IN, <- RE. split; [exact INX|]. split; [reflexivity|]. split; [exact LO|]. split; [exact DI'|exact RES].
    + assert (I0 : input2 = []) by (apply zlen_nil_inv; pose proof (zlen_nonneg input2); lia).
      exists x, [], [], (DDecode (proc_new D skip (make_header ws) ws)), DNeedIn, (W ++ Tr). split; [reflexivity|]. split; [rewrite INX, I0; reflexivity|]. split; [reflexivity|]. split; [exact RM|]. split; [exact DI|]. split; [|reflexivity].
      intros X. apply app_eq_nil in X. destruct X as (_ & X). pose proof Tr_len as T8. rewrite X in T8. discriminate T8.
  - assert (FX : input = firstn (length input) x).
    { transitivity (firstn (length input) (input ++ future)); [rewrite firstn_app, firstn_all, Nat.sub_diag; cbn [firstn]; rewrite app_nil_r; reflexivity|].
      rewrite EI, firstn_app. replace (length input - length x)%nat with 0%nat by lia. cbn [firstn]. apply app_nil_r. }
    assert (XE : x = input ++ skipn (length input) x) by (pose proof (firstn_skipn (length input) x) as Y; rewrite <- FX in Y; symmetry; exact Y). set (x2 := skipn (length input) x) in *.
    destruct (overwrite_app (hp_header h) seen input L FS ltac:(lia)) as (L2 & F2).
    exists input, [], [], (DHeader {| hp_header := overwrite (hp_header h) (length seen) input; hp_read_offset := length seen + length input |}), DNeedIn, (x2 ++ W ++ Tr).
    split; [reflexivity|]. split; [symmetry; apply app_nil_r|]. split; [rewrite XE at 1; rewrite <- app_assoc; reflexivity|]. split; [exact RM|]. split.
    + exists (seen ++ input), x2. split; [|split; [rewrite HE, XE, <- app_assoc; reflexivity|split; reflexivity]].
      split; [exact L2|]. split; [cbn [hp_read_offset]; rewrite app_length; reflexivity|]. split; [rewrite app_length; lia|exact F2].
    + split; [|reflexivity]. intros X. apply (f_equal (@length Z)) in X. rewrite !app_length, Tr_len in X. cbn [length] in X. lia.
Qed.

Lemma dinv_prefix d rest o : dinv d rest o -> exists y, out = o ++ y.
Proof.
  destruct d as [h|p]; [intros (? & ? & _ & _ & _ & ->); exists out; reflexivity|].
  intros (n & pw & ci & ces & outsW & pa & pb & les & R & PV & _). destruct (mph_prefix _ _ _ _ _ _ _ _ (pv_ph _ _ _ _ _ _ _ _ _ _ _ _ _ _ _ _ _ _ _ _ PV)) as (y & Y). rewrite <- app_assoc in Y. apply app_inv_head in Y. eauto.
Qed.

(** ** Sessions *)
Lemma dsession_good fuel tail : (N <= fuel)%nat -> bytes tail -> forall calls d rest o carry future, dinv d rest o -> bytes rest ->
  carry ++ offered calls ++ future = rest ++ tail -> (carry = [] \/ True) -> Forall (fun c => 0 <= snd c) calls ->
  exists o2 left v, dsession dict wl D skip fuel d carry calls = Some (o2, left, v) /\ v <> Broken /\ (exists y, out = o ++ o2 ++ y) /\
    (v = Finished -> o ++ o2 = out /\ carry ++ offered calls = rest ++ left) /\
    (forall calls1 calls2 x, calls = calls1 ++ calls2 -> carry ++ offered calls1 = rest ++ x -> Forall (fun c => 1 <= snd c) calls2 -> zlen out - zlen o < zlen calls2 -> v = Finished).
Proof.
  intros F BT. induction calls as [|[piece room] calls IH]; intros d rest o carry future DI BR EI _ RM.
  - exists [], carry, Waiting. cbn [dsession]. split; [reflexivity|]. split; [discriminate|]. split; [destruct (dinv_prefix _ _ _ DI) as (y & ->); exists y; reflexivity|]. split; [discriminate|].
    intros calls1 calls2 x E _ _ L. symmetry in E. apply app_eq_nil in E. destruct E as (_ & ->). change (zlen (@nil (list Z * Z))) with 0 in L.
    destruct (dinv_prefix _ _ _ DI) as (y & Y). rewrite Y, zlen_app in L. pose proof (zlen_nonneg y). lia.
  - apply Forall_cons_iff in RM. destruct RM as (RM & RMS). cbn [snd] in RM. unfold offered in EI. cbn [map fst concat] in EI. fold (offered calls) in EI.
    cbn [dsession]. set (input := carry ++ piece). assert (EI2 : input ++ (offered calls ++ future) = rest ++ tail) by (unfold input; rewrite <- EI, <- !app_assoc; reflexivity).
    assert (BI : bytes (input ++ offered calls ++ future)) by (rewrite EI2; apply Forall_app; auto). apply Forall_app in BI. destruct BI as (BI & _).
    destruct (decode_good fuel d rest o input _ tail room DI BI EI2 RM F) as (pre & suf & o2 & d' & r & rest' & -> & IN & RE & LO & DI' & RES). cbn [bind].
    assert (ZS : zskip (zlen pre) input = suf) by (rewrite IN; apply zskip_pre). rewrite ZS.
    assert (ZI : zlen input = zlen pre + zlen suf) by (rewrite IN, zlen_app; reflexivity). pose proof (zlen_nonneg pre) as NP. pose proof (zlen_nonneg suf) as NS.
    assert (G0 : (room <? zlen o2) || (zlen pre <? 0) || (zlen input <? zlen pre) = false).
    { destruct (Z.ltb_spec room (zlen o2)); [lia|]. destruct (Z.ltb_spec (zlen pre) 0); [lia|]. destruct (Z.ltb_spec (zlen input) (zlen pre)); [lia|]. reflexivity. }
    rewrite G0. assert (BR' : bytes rest') by (rewrite RE in BR; apply Forall_app in BR; apply BR).
    assert (EI3 : suf ++ offered calls ++ future = rest' ++ tail) by (rewrite IN, RE, <- !app_assoc in EI2; apply app_inv_head in EI2; exact EI2).
    assert (OC : carry ++ offered ((piece, room) :: calls) = pre ++ suf ++ offered calls) by (unfold offered at 1; cbn [map fst concat]; rewrite app_assoc; change (carry ++ piece) with input; rewrite IN, <- app_assoc; reflexivity).
    destruct (IH d' rest' (o ++ o2) suf future DI' BR' EI3 (or_intror Logic.I) RMS) as (o3 & left3 & v & E3 & NB & (y & Y) & FI & LV).
    (* continuing *)
    assert (GO : r = DNeedIn \/ r = DNeedOut -> exists o4 left v, (let? '(o5, left, v) := dsession dict wl D skip fuel d' suf calls in Some (o2 ++ o5, left, v)) = Some (o4, left, v) /\ v <> Broken /\ (exists y, out = o ++ o4 ++ y) /\
      (v = Finished -> o ++ o4 = out /\ carry ++ offered ((piece, room) :: calls) = rest ++ left) /\
      (forall calls1 calls2 x, (piece, room) :: calls = calls1 ++ calls2 -> carry ++ offered calls1 = rest ++ x -> Forall (fun c => 1 <= snd c) calls2 -> zlen out - zlen o < zlen calls2 -> v = Finished)).
    { intros RR. rewrite E3. cbn [bind]. exists (o2 ++ o3), left3, v. split; [reflexivity|]. split; [exact NB|]. split; [exists y; rewrite Y, <- !app_assoc; reflexivity|]. split.
      - intros X. destruct (FI X) as (F1 & F2). split; [rewrite app_assoc; exact F1|]. rewrite OC, F2, RE, <- app_assoc. reflexivity.
      - intros calls1 calls2 x EC EX R1 LL. destruct calls1 as [|c1 calls1].
        + (* everything has arrived *)
          cbn [app] in EC. subst calls2. unfold offered in EX. cbn [map concat] in EX. rewrite app_nil_r in EX. apply Forall_cons_iff in R1. destruct R1 as (R0 & R1). cbn [snd] in R0.
          assert (SX : suf = rest' ++ x ++ piece). { apply (app_inv_head pre). rewrite <- IN, app_assoc, <- RE. unfold input. rewrite EX, <- app_assoc. reflexivity. }
          destruct RR as [-> | ->].
          * destruct RES as (RN & SN). rewrite SN in SX. symmetry in SX. apply app_eq_nil in SX. destruct SX as (SX & _). contradiction.
          * apply (LV [] calls (x ++ piece) eq_refl); [unfold offered; cbn [map concat]; rewrite app_nil_r; exact SX|exact R1|]. rewrite zlen_app. rewrite zlen_cons in LL. destruct RES. lia.
        + cbn [app] in EC. injection EC as <- EC. unfold offered in EX. cbn [map fst concat] in EX. fold (offered calls1) in EX.
          rewrite app_assoc in EX. change (carry ++ piece) with input in EX. rewrite IN, RE, <- !app_assoc in EX. apply app_inv_head in EX.
          apply (LV calls1 calls2 x EC EX R1). rewrite zlen_app. pose proof (zlen_nonneg o2). lia. }
    destruct r.
    + exists o2, (suf ++ offered calls), Finished. split; [reflexivity|]. split; [discriminate|]. destruct RES as (R1 & R2). split; [exists []; rewrite app_nil_r; symmetry; exact R1|]. split.
      * intros _. split; [exact R1|]. rewrite OC, RE, R2, app_nil_r. reflexivity.
      * reflexivity.
    + assert (G1 : (zlen pre <? zlen input) = false) by (destruct RES as (_ & RS); rewrite ZI, RS; change (zlen (@nil Z)) with 0; apply Z.ltb_ge; lia). rewrite G1. apply GO. left. reflexivity.
    + assert (G1 : (zlen o2 <? room) = false) by (apply Z.ltb_ge; destruct RES; lia). rewrite G1. apply GO. right. reflexivity.
    + contradiction RES.
Qed.
End Call.
End Start.
