(** Any bytes in the decompressor: the input, the rounds of a call, a session of calls. *)
From Verif Require ProofRecode3 ProofCheck.
From Verif Require Import Prelude ProofList ModelAns SpecAns ModelCdf SpecCdf ProofCdf ProofAns ProofAnsRt ProofAnsDec ThmCdf ModelMux ProofZlist ProofMux ProofMuxR ModelCmd ModelCrc ModelHeader ProofHeader ModelRecode SpecLz ProofRecode ProofRecode2 ModelPriors ModelCodec ModelLit ModelPm ModelTop SpecCodec ModelEnc ModelDec ModelContextLut ThmPriors ProofCodecInv ProofCodecInv2 ProofRun ProofTop ProofDec2 ProofDec3 ProofDec4 ProofDec5 SpecHostile ProofHostile SpecGuard ProofGuard1 ProofGuard2 ProofGuard3 ProofGuard4 ProofGuard5 ProofGuard6.

Lemma drun_len l : forall d d' p0 p1 r, drun d l = (d', p0, p1, r) -> zlen p0 + zlen p1 <= zlen l.
Proof.
  induction l as [|b l IH]; intros d d' p0 p1 r; cbn [drun].
  { intros E. assert (p0 = [] /\ p1 = []) as (-> & ->) by (split; congruence). change (zlen (@nil Z)) with 0. lia. }
  rewrite zlen_cons. destruct (dstep d b) as [(d1 & o)|].
  - destruct (drun d1 l) as [[[d2 a0] a1] rr] eqn:E1. pose proof (IH _ _ _ _ _ E1) as L. intros E.
    assert (p0 = pushed o 0 b ++ a0 /\ p1 = pushed o 1 b ++ a1) as (-> & ->) by (split; congruence). rewrite !zlen_app.
    assert (zlen (pushed o 0 b) + zlen (pushed o 1 b) <= 1); [|lia].
    unfold pushed. destruct o as [t|]; [|change (zlen (@nil Z)) with 0; lia]. destruct (Z.eqb_spec t 0), (Z.eqb_spec t 1); try lia; change (zlen [b]) with 1; change (zlen (@nil Z)) with 0; lia.
  - intros E. assert (p0 = [] /\ p1 = []) as (-> & ->) by (split; congruence). change (zlen (@nil Z)) with 0. pose proof (zlen_nonneg l). lia.
Qed.
Lemma g_fine {A B} (a : A) (f : A -> guarded B) : gbind (Fine a) f = f a. Proof. reflexivity. Qed.
Lemma g_some {A B} (a : A) (f : A -> guarded B) : gbind (of_opt (Some a)) f = f a. Proof. reflexivity. Qed.
Lemma o_some {A B} (a : A) (f : A -> option B) : bind (Some a) f = f a. Proof. reflexivity. Qed.
(** hide the measures: the kernel compares them by unfolding otherwise *)
Lemma PHI_eq w q m : PHI w q m = W w q + CB * zlen (mb_data (buf0 (m_mux m))) + 4 * zlen (m_cmds m). Proof. reflexivity. Qed.
Definition pphi (p : proc) : Z := PHI (p_w p) (p_q p) (p_m p).
Lemma pphi_eq w q m : pphi (PR w q m) = PHI w q m. Proof. reflexivity. Qed.
Ltac mlia := repeat match goal with H : ?P |- _ => match type of P with Prop => revert H end end;
  repeat match goal with |- context [PHI ?a ?b ?c] => generalize (PHI a b c) | |- context [W ?a ?b] => generalize (W a b) | |- context [pphi ?a] => generalize (pphi a) end; unfold CB; intros; lia.
Lemma sum_bound a x y n k b f : a + CB * x + 4 * y + CB * (n - k) <= b -> b < f -> 0 <= x -> 0 <= y -> 0 <= k <= n -> a < f.
Proof. unfold CB. lia. Qed.
Lemma sum_bound2 a x y z n k b f : a + CB * x + 4 * y + CB * (n - k) <= b -> b < f -> 0 <= x -> 0 <= y -> 0 <= z -> 4 * z < a -> 0 <= k <= n -> y + z < f.
Proof. unfold CB. lia. Qed.
Lemma sum_input a x y z p1 pre suf amt : p1 + z <= pre -> 0 <= z -> 0 <= p1 -> 0 <= amt <= suf -> a + CB * (x + p1) + 4 * y + CB * (pre + suf - (pre + amt)) <= a + CB * x + 4 * y + CB * (pre + suf).
Proof. unfold CB. lia. Qed.
Lemma CB_nonneg x : 0 <= x -> 0 <= CB * x.
Proof. unfold CB. lia. Qed.
Section Calls.
Context (dict : dict_fn) (wl : word_len_fn) (D : dims) (BIG : big D) (skip : bool).
Notation minv := (minv dict D). Notation winvH := (winvH D). Notation shinv := (shinv D).
Lemma minv_mux m m' q : minv m -> rinv (m_mux m') -> mb_data (buf1 (m_mux m')) = mb_data (buf1 (m_mux m)) ++ q -> m_dec m' = m_dec m -> m_lbk m' = m_lbk m -> m_mix m' = m_mix m -> m_rec m' = m_rec m ->
  m_lit m' = m_lit m -> m_pop m' = m_pop m -> m_cmds m' = m_cmds m -> minv m'.
Proof.
  intros [V1 V2 V3 V4 V5 V6 V7 V8] R E1 E2 E3 E4 E5 E6 E7 E8. constructor; rewrite ?E2, ?E3, ?E4, ?E5, ?E8; try assumption.
  unfold mphase in *. rewrite E2, E3, E4, E5, E6, E7. destruct (m_lit m) as [(safe & s)|]; [|exact V8].
  destruct V8 as (A & B & [L1 L2 L3 L4 L5 L6 L7 L8 L9]). split; [exact A|]. split; [exact B|]. assert (BO : bok (buf1 (m_mux m'))) by apply R. constructor; try assumption.
  intros SF. destruct (L9 SF) as (Z1 & Z2). split; [exact Z1|].
  pose proof (ready_len _ BO) as X1. pose proof (ready_len _ L1) as X2. rewrite E1, app_length in X1. destruct Z2 as [Z2|(Z2 & [Z3|Z3])]; [left; lia|right; auto|right; split; [exact Z2|right; lia]].
Qed.
Lemma process_input_any w q m input : shinv w q m -> minv m -> bytes input ->
  exists n q' m' ok, process_input skip q m input = Some (n, q', m', ok) /\ 0 <= n <= zlen input /\ shinv w q' m' /\ minv m' /\ m_cmds m' = m_cmds m /\
    PHI w q' m' + CB * (zlen input - n) <= PHI w q m + CB * zlen input.
Proof.
  intros SV MI BI. pose proof SV as [V OUT PQ PQ2 PS]. pose proof (mv_mux _ _ _ MI) as RI. unfold process_input.
  destruct (deserialize_ref (m_mux m) input RI BI) as (n & x & -> & (pre & suf & p0 & p1 & IN & -> & DR & RI' & B0 & B1 & _)). rewrite o_some. cbn iota beta.
  pose proof (drun_len _ _ _ _ _ _ DR) as PL. pose proof (zlen_nonneg p1) as P1N. pose proof (zlen_nonneg p0) as P0N. pose proof (zlen_nonneg pre) as PN. pose proof (zlen_nonneg suf) as SN.
  set (crc := if skip then m_crc m else crc32c_update (m_crc m) (zfirst (zlen pre) input)).
  assert (ZS : zskip (zlen pre) input = suf) by (rewrite IN; unfold zskip, zlen; rewrite Nat2Z.id, skipn_app, skipn_all, Nat.sub_diag; reflexivity). rewrite ZS.
  assert (RT : exists tr amt, (if is_done (eof x) then read_trailer (m_trailer m) suf else (m_trailer m, 0%nat)) = (tr, amt) /\ 0 <= Z.of_nat amt <= zlen suf).
  { destruct (is_done (eof x)); [|exists (m_trailer m), 0%nat; split; [reflexivity|lia]]. unfold read_trailer. do 2 eexists. split; [reflexivity|]. unfold zlen. lia. }
  destruct RT as (tr & amt & -> & AM). assert (LI : zlen input = zlen pre + zlen suf) by (rewrite IN, zlen_app; reflexivity).
  assert (MK : forall o, minv (m_set_in m x crc tr o)) by (intros o; apply (minv_mux m _ p1); try reflexivity; assumption).
  assert (PK : forall o, PHI w q (m_set_in m x crc tr o) + CB * (zlen input - (zlen pre + Z.of_nat amt)) <= PHI w q m + CB * zlen input).
  { intros o. rewrite !PHI_eq. cbn [m_mux m_set_in m_cmds]. rewrite B0, zlen_app, LI. eapply sum_input; eassumption. }
  assert (SK : shinv w q (m_set_in m x crc tr (m_out m))) by (constructor; assumption).
  destruct (negb _) eqn:NZ.
  - unfold q_push. destruct ((2 <=? zlen (q_data q)) || (zlen (mb_data (buf0 x)) =? 0)) eqn:PU.
    + do 4 eexists. split; [reflexivity|]. split; [lia|]. split; [exact SK|]. split; [apply MK|]. split; [reflexivity|apply PK].
    + apply orb_false_elim in PU. destruct PU as (P1 & P2). apply Z.leb_gt in P1. apply Z.eqb_neq in P2.
      do 4 eexists. split; [reflexivity|]. split; [lia|]. split; [|split; [|split; [reflexivity|]]].
      * constructor; cbn [m_cmds m_set_in m_pred m_out]; try assumption.
        -- destruct V. constructor; try assumption; cbn [q_data q_set_data].
           ++ apply Forall_app. split; [assumption|]. apply Forall_cons; [|constructor]. split; [apply RI'|]. intros X. rewrite X in P2. apply P2. reflexivity.
           ++ rewrite zlen_app. change (zlen [buf0 x]) with 1. lia.
        -- unfold held in *. cbn [q_data q_rdata q_set_data]. rewrite zlen_app. change (zlen [buf0 x]) with 1. lia.
      * apply (minv_mux m _ p1); try reflexivity; [exact MI|apply rinv_buf0; [exact RI'|apply bok_empty]|exact B1].
      * specialize (PK (m_out m)). rewrite !PHI_eq in PK. rewrite !PHI_eq. cbn [m_mux m_set_in m_cmds] in *. change (buf0 (setb x 0 mb_empty)) with mb_empty. change (zlen (mb_data mb_empty)) with 0.
        pose proof (W_data w q (q_data q ++ [buf0 x])) as WD. unfold cbytes in WD. rewrite map_app, concat_app in WD. cbn [map concat] in WD. rewrite app_nil_r, zlen_app in WD. clear -PK WD. mlia.
  - do 4 eexists. split; [reflexivity|]. split; [lia|]. split; [exact SK|]. split; [apply MK|]. split; [reflexivity|apply PK].
Qed.
Lemma W_res cM w q : winvH cM w q -> 4 * zlen (q_res q) < W w q.
Proof.
  intros V. pose proof (pot_pos (wk_dec w) (LW w q) (hv_dec _ _ _ _ V) ltac:(unfold LW; lia)) as PP. unfold W, H. pose proof (zlen_nonneg (q_res q)). pose proof (zlen_nonneg (q_rdata q)).
  assert (Z.of_nat (hs (k_pm (wk_c w))) <= 1) by (unfold hs; destruct (has_speeds _); lia). assert (0 <= LW w q) by (unfold LW; lia). destruct (_ =? 0); lia.
Qed.
Definition pok (p : proc) : Prop := shinv (p_w p) (p_q p) (p_m p) /\ minv (p_m p).
Lemma pphi_pos p : pok p -> 0 < pphi p.
Proof.
  intros ([V] & _). unfold pphi, PHI. pose proof (W_pos D _ _ _ V). pose proof (zlen_nonneg (mb_data (buf0 (m_mux (p_m p))))). pose proof (zlen_nonneg (m_cmds (p_m p))). unfold CB. lia.
Qed.
Definition call_fine (b : Z) (input : list Z) (room : Z) (x : guarded (Z * list Z * proc * dres)) : Prop :=
  (exists h, x = Unsafe h) \/
  exists n o p' r, x = Fine (n, o, p', r) /\ 0 <= n <= zlen input /\ zlen o <= room /\ (r = DFail \/ (pok p' /\ pphi p' <= b)).
Definition rest_of (cond : bool) (fuel : nat) (n : Z) (w : worker) (q : squeue) (m : main) (input : list Z) (room : Z) : guarded (Z * list Z * proc * dres) :=
  if cond then Fine (n, [], PR w q m, DNeedIn) else
  let! '(o, q, m, r) := g_output dict skip (S fuel) q m room in
  match r with
  | Processed r => Fine (n, o, PR w q m, r)
  | Yield => let! '(n2, o2, p, r) := g_process dict wl D skip fuel (PR w q m) (zskip n input) (room - zlen o) in Fine (n + n2, o ++ o2, p, r)
  end.
Lemma g_process_rest fuel p input room : g_process dict wl D skip (S fuel) p input room =
  let! '(n, q, m, ok) := of_opt (process_input skip (p_q p) (p_m p) input) in
  if negb ok then Fine (n, [], PR (p_w p) q m, DNeedIn) else
  let! '(w, q, r) := gw_run wl D (S fuel) (p_w p) q in
  match r with
  | WFail _ => Fine (n, [], PR w q m, DFail)
  | WNeedIn => rest_of (m_out m =? 0) fuel n w q m input room
  | _ => rest_of false fuel n w q m input room
  end.
Proof.
  cbn [g_process]. destruct (process_input skip (p_q p) (p_m p) input) as [[[[n q1] m1] ok]|]; cbn [of_opt gbind]; [|reflexivity]. destruct (negb ok); [reflexivity|].
  destruct (gw_run wl D (S fuel) (p_w p) q1) as [[[w2 q2] r]| |]; cbn [gbind]; [|reflexivity|reflexivity]. destruct r; reflexivity.
Qed.
Lemma rest_any fuel (IH : forall p input room, pok p -> bytes input -> 0 <= room -> pphi p + CB * zlen input < Z.of_nat fuel ->
  call_fine (pphi p + CB * zlen input) input room (g_process dict wl D skip fuel p input room)) cond n w q m b input room :
  shinv w q m -> minv m -> bytes input -> 0 <= room -> 0 <= n <= zlen input -> b < Z.of_nat (S fuel) -> PHI w q m + CB * (zlen input - n) <= b ->
  (cond = false -> m_cmds m = [] -> q_res q = [] -> q_rdata q = [] -> q_eof q = false -> PHI w q m + CB * (zlen input - n) < b) ->
  call_fine b input room (rest_of cond fuel n w q m input room).
Proof.
  intros SV MI BI RM N1 F PH NP. unfold rest_of.
  assert (CN : 0 <= CB * (zlen input - n)) by (apply CB_nonneg; clear -N1; mlia).
  destruct cond.
  { right. do 4 eexists. split; [reflexivity|]. split; [exact N1|]. split; [exact RM|]. right. split; [split; assumption|]. clear -CN PH. rewrite pphi_eq. lia. }
  destruct (output_any dict D BIG skip w (S fuel) q m room SV MI RM) as [(hz & ->)|(o & q3 & m3 & r3 & -> & LO & R3)].
  { rewrite PHI_eq in PH. eapply sum_bound2; [exact PH|exact F|apply zlen_nonneg|apply zlen_nonneg|apply zlen_nonneg|apply (W_res _ _ _ (hs_w _ _ _ _ SV))|exact N1]. }
  { left. eexists. reflexivity. }
  rewrite g_fine. cbn iota beta. destruct R3 as [->|(SV3 & MI3 & PH3 & Y3)].
  { right. do 4 eexists. split; [reflexivity|]. split; [exact N1|]. split; [exact LO|]. left. reflexivity. }
  destruct r3 as [r3|].
  { right. do 4 eexists. split; [reflexivity|]. split; [exact N1|]. split; [exact LO|]. right. split; [split; assumption|]. rewrite pphi_eq. clear -PH3 PH CN. mlia. }
  assert (ST : PHI w q3 m3 + CB * (zlen input - n) < b).
  { destruct (Y3 eq_refl) as [Y|(Y1 & Y2 & Y4 & Y5)]; [clear -Y PH; mlia|]. specialize (NP eq_refl Y1 Y2 Y4 Y5). clear -NP PH3. mlia. }
  assert (ZK : zlen (zskip n input) = zlen input - n) by (rewrite zlen_skip by lia; lia).
  destruct (IH (PR w q3 m3) (zskip n input) (room - zlen o)) as [(hz & ->)|(n4 & o4 & p4 & r4 & -> & N4 & LO4 & R4)].
  { split; assumption. }
  { apply bytes_zskip, BI. }
  { clear -LO. mlia. }
  { rewrite ZK. rewrite pphi_eq. clear -ST F. mlia. }
  { left. eexists. reflexivity. }
  rewrite g_fine. cbn iota beta. rewrite ZK in *. right. do 4 eexists. split; [reflexivity|]. split; [clear -N1 N4; mlia|]. rewrite zlen_app. split; [clear -LO LO4; mlia|].
  destruct R4 as [R4|(P4 & PH4)]; [left; exact R4|right]. split; [exact P4|]. rewrite pphi_eq in PH4. clear -PH4 ST. mlia.
Qed.
Lemma process_any : forall fuel p input room, pok p -> bytes input -> 0 <= room -> pphi p + CB * zlen input < Z.of_nat fuel ->
  call_fine (pphi p + CB * zlen input) input room (g_process dict wl D skip fuel p input room).
Proof.
  induction fuel as [|fuel IH]; intros p input room PO BI RM F; [pose proof (pphi_pos p PO); pose proof (zlen_nonneg input); unfold CB in F; lia|].
  destruct p as [w q m]. destruct PO as (SV & MI). cbn [p_w p_q p_m] in SV, MI. rewrite g_process_rest. cbn [p_w p_q p_m].
  rewrite pphi_eq in F. rewrite pphi_eq.
  destruct (process_input_any w q m input SV MI BI) as (n & q1 & m1 & ok & -> & N1 & SV1 & MI1 & MC1 & PH1). rewrite g_some. cbn iota beta.
  set (b := PHI w q m + CB * zlen input) in *. clearbody b.
  assert (CN : 0 <= CB * (zlen input - n)) by (apply CB_nonneg; clear -N1; mlia).
  destruct ok; cbn [negb].
  2:{ right. do 4 eexists. split; [reflexivity|]. split; [exact N1|]. split; [exact RM|]. right. split; [split; assumption|]. rewrite pphi_eq. clear -CN PH1. mlia. }
  pose proof SV1 as [V OUT PQ PQ2 PS].
  pose proof (zlen_nonneg (mb_data (buf0 (m_mux m1)))) as B0N. pose proof (zlen_nonneg (m_cmds m1)) as C0N.
  destruct (gw_run_any wl D BIG _ (S fuel) w q1 V) as [(hz & ->)|(w2 & q2 & r & -> & R)].
  { rewrite PHI_eq in PH1. eapply sum_bound; [exact PH1|exact F|exact B0N|exact C0N|exact N1]. }
  { left. eexists. reflexivity. }
  rewrite g_fine. cbn iota beta.
  assert (GO : forall cond, winvH (cpm (m_cmds m1)) w2 q2 -> held w2 q2 = held w q1 -> W w2 q2 <= W w q1 ->
    (cond = false -> m_cmds m1 = [] -> q_res q2 = [] -> q_rdata q2 = [] -> q_eof q2 = false -> W w2 q2 < W w q1) ->
    call_fine b input room (rest_of cond fuel n w2 q2 m1 input room)).
  { intros cond V2 HL WL NP. apply rest_any; try assumption.
    - constructor; [exact V2|congruence|exact PQ|exact PQ2|exact PS].
    - rewrite PHI_eq in PH1. rewrite PHI_eq. clear -PH1 WL. mlia.
    - intros A1 A2 A3 A4 A5. specialize (NP A1 A2 A3 A4 A5). rewrite PHI_eq in PH1. rewrite PHI_eq. clear -PH1 NP. mlia. }
  destruct r as [| | |er].
  - destruct R as (V2 & HL & WL & ST). apply (GO false V2 HL WL). intros _ _ _ _ QE. cbn [stopH] in ST. rewrite (hv_eof _ _ _ _ V2) in QE. congruence.
  - destruct R as (V2 & HL & WL & ST). apply (GO _ V2 HL WL). intros OZ MC QR QD QE. apply Z.eqb_neq in OZ. cbn [stopH] in ST. destruct ST as [ST|[(ST1 & ST2)|ST]]; [exact ST| |].
    + exfalso. apply OZ. rewrite OUT, <- HL. unfold held. rewrite ST1, ST2, QD. reflexivity.
    + rewrite QD in ST. discriminate ST.
  - destruct R as (V2 & HL & WL & ST). apply (GO false V2 HL WL). intros _ MC QR QD QE. exfalso. cbn [stopH] in ST. destruct ST as [ST|(S1 & S2 & S3)].
    + rewrite QR in ST. change (zlen (@nil command)) with 0 in ST. unfold NUM_BUFFERED in ST. lia.
    + pose proof (hv_tok _ _ _ _ V2) as TK. rewrite MC, QR, S2, S3 in TK. unfold hs in TK. rewrite S1 in TK. discriminate TK.
  - right. do 4 eexists. split; [reflexivity|]. split; [exact N1|]. split; [exact RM|]. left. reflexivity.
Qed.
(** ** The decompressor *)
Definition phi0 : Z := W (worker_new D) squeue_new.
Lemma pok_new header ws : 10 <= ws -> pok (proc_new D skip header ws) /\ pphi (proc_new D skip header ws) = phi0.
Proof.
  intros WS. assert (P2 : 2 ^ 10 <= 2 ^ ws) by (apply Z.pow_le_mono_r; lia). change (2 ^ 10) with 1024 in P2.
  assert (ZL : zlen (repeat 0 (Z.to_nat (2 ^ ws))) = 2 ^ ws) by (unfold zlen; rewrite repeat_length, Z2Nat.id by lia; reflexivity).
  set (rb := repeat 0 (Z.to_nat (2 ^ ws))) in *.
  assert (ID : idle (rc_new rb) rb rb).
  { assert (O : ok (rc_new rb) rb).
    { unfold ok, rc_new. cbn [ring di oi]. unfold len. cbn [ring]. split; [lia|]. split; [lia|]. split; [lia|].
      unfold rot. cbn [di ring]. rewrite zskip_0, zfirst_0, app_nil_r. rewrite Z.sub_diag, zskip_0. reflexivity. }
    split; [exact O|]. split; [reflexivity|]. split; [|exists 1; unfold len; cbn [rc_new di ring]; lia].
    replace (unf (rc_new rb)) with 0 by reflexivity. symmetry. apply zfirst_all. lia. }
  split; [split|].
  - constructor; cbn [p_w p_q p_m proc_new main_new m_cmds m_out m_pred fst snd cpm]; try reflexivity; [apply winvH_new, BIG|discriminate].
  - unfold proc_new. cbn [p_m]. constructor; cbn [main_new m_mux m_dec m_lbk m_mix m_rec m_cmds].
    + split; [apply bok_empty|]. split; [apply bok_empty|exact Logic.I].
    + apply dsane_new.
    + intros _. reflexivity.
    + apply (inv_lbk_new adapted tame adapted0 adapted_blend tame_pos).
    + split; reflexivity.
    + unfold len, rc_new. cbn [ring]. fold rb. lia.
    + constructor.
    + unfold mphase. cbn [main_new m_lit m_dec m_pop m_rec]. split; [reflexivity|]. exists rb, rb. exact ID.
  - unfold pphi, PHI, phi0. cbn [p_w p_q p_m proc_new main_new m_mux m_cmds mux_new buf0]. change (zlen (mb_data mb_empty)) with 0. change (zlen (@nil command)) with 0. lia.
Qed.
Definition dgood (d : decompressor) : Prop := match d with DHeader h => exists X, hp_inv h X | DDecode p => pok p end.
Definition dphi (d : decompressor) : Z := match d with DHeader _ => phi0 | DDecode p => pphi p end.
Lemma dphi_pos d : dgood d -> 0 < dphi d.
Proof. destruct d; cbn [dgood dphi]; intros G; [apply (W_pos D 0), winvH_new, BIG|apply pphi_pos, G]. Qed.
Lemma header_ws h ws : parse_header h = HOk ws -> 10 <= ws.
Proof.
  unfold parse_header. cbv zeta. repeat match goal with |- context [if ?b then _ else _] => destruct b eqn:? end; try discriminate. intros [= <-].
  match goal with X : _ || _ = false |- _ => apply orb_false_elim in X; destruct X as (X & _); apply Z.ltb_ge in X; exact X end.
Qed.
Lemma decode_fine fuel d input room : dgood d -> bytes input -> 0 <= room -> dphi d + CB * zlen input < Z.of_nat fuel ->
  (exists h, g_decode dict wl D skip fuel d input room = Unsafe h) \/
  exists n o d' r, g_decode dict wl D skip fuel d input room = Fine (n, o, d', r) /\ 0 <= n <= zlen input /\ zlen o <= room /\ (r = DFail \/ (dgood d' /\ dphi d' <= dphi d + CB * zlen input)).
Proof.
  intros G BI RM F. pose proof (zlen_nonneg input) as IN0. unfold g_decode. destruct d as [h|p]; cbn [dgood dphi] in *.
  - destruct G as (X & HI). pose proof (ProofCheck.hp_any h X input HI) as HP. destruct (hp_decode h input) as [[h1 n1] r1]. destruct HP as (LN & HR).
    assert (NR : 0 <= Z.of_nat n1 <= zlen input) by (unfold zlen; lia).
    destruct r1 as [|er|ws].
    + right. do 4 eexists. split; [reflexivity|]. split; [exact NR|]. split; [change (zlen (@nil Z)) with 0; lia|]. right. split; [eexists; exact HR|]. cbn [dphi]. unfold CB. lia.
    + right. do 4 eexists. split; [reflexivity|]. split; [exact NR|]. split; [change (zlen (@nil Z)) with 0; lia|]. left. reflexivity.
    + destruct HR as (_ & _ & PH). destruct (pok_new (hp_header h1) ws (header_ws _ _ PH)) as (PO & PE). cbv zeta.
      destruct (Z.ltb_spec (Z.of_nat n1) (zlen input)) as [LT|GE].
      * assert (ZK : zlen (zskip (Z.of_nat n1) input) = zlen input - Z.of_nat n1) by (rewrite zlen_skip by lia; lia).
        destruct (process_any fuel (proc_new D skip (hp_header h1) ws) (zskip (Z.of_nat n1) input) room PO (bytes_zskip _ _ BI) RM) as [(hz & ->)|(n & o & p' & r & -> & N & LO & R)].
        { rewrite PE, ZK. unfold CB in *. lia. }
        { left. eexists. reflexivity. }
        cbn [gbind]. right. do 4 eexists. split; [reflexivity|]. split; [lia|]. split; [exact LO|]. destruct R as [R|(P' & PH')]; [left; exact R|right]. split; [exact P'|]. cbn [dphi]. rewrite PE, ZK in PH'. unfold CB in *. lia.
      * right. do 4 eexists. split; [reflexivity|]. split; [exact NR|]. split; [change (zlen (@nil Z)) with 0; lia|]. right. split; [exact PO|]. cbn [dphi]. rewrite PE. unfold CB. lia.
  - destruct (process_any fuel p input room G BI RM F) as [(hz & ->)|(n & o & p' & r & -> & N & LO & R)]; cbn [gbind]; [left; eexists; reflexivity|].
    right. do 4 eexists. split; [reflexivity|]. split; [exact N|]. split; [exact LO|]. exact R.
Qed.
(** ** The guarded runs are runs of the decompressor *)
Lemma g_output_real : forall fuel q m room x, g_output dict skip fuel q m room = Fine x -> process_output dict skip fuel q m room = Some x.
Proof.
  induction fuel as [|fuel IH]; intros q m room x E; [discriminate E|]. cbn [g_output process_output] in *.
  assert (A : forall (k : main * bool -> guarded (list Z * squeue * main * presult)) (k' : main * bool -> option (list Z * squeue * main * presult)), (forall y, k y = Fine x -> k' y = Some x) ->
    gbind match m_lit m with
        | None => Fine (m, true)
        | Some _ =>
            let! '(m, ok) := g_content (content_fuel m) m in
            if ok then
              match m_lit m with
              | Some (_, s) => Fine (m_set_pop (m_set_lit m None) (Some (Literal (l_data s) (l_high_entropy s))), true)
              | None => Stuck
              end
            else Fine (m, false)
        end k = Fine x ->
    bind match m_lit m with
        | None => Some (m, true)
        | Some _ =>
            let? '(m, ok) := content (content_fuel m) m in
            if ok then
              match m_lit m with
              | Some (_, s) => Some (m_set_pop (m_set_lit m None) (Some (Literal (l_data s) (l_high_entropy s))), true)
              | None => None
              end
            else Some (m, false)
        end k' = Some x).
  { intros k k' K. destruct (m_lit m); [|cbn [gbind bind]; apply K]. destruct (g_content (content_fuel m) m) as [(m1 & ok)| |] eqn:G; cbn [gbind]; try discriminate. rewrite (g_content_real _ _ _ G). cbn [bind].
    destruct ok; [|cbn [gbind bind]; apply K]. destruct (m_lit m1) as [(? & s)|]; [cbn [gbind bind]; apply K|discriminate]. }
  revert E. apply A. clear A. intros (m1 & ok). destruct ok; cbn [negb]; [|congruence].
  assert (B : forall (k : list Z * main * ModelRecode.ores -> guarded (list Z * squeue * main * presult)) (k' : list Z * main * ModelRecode.ores -> option (list Z * squeue * main * presult)), (forall y, k y = Fine x -> k' y = Some x) ->
     gbind match m_pop m1 with
        | None => Fine ([], m1, ModelRecode.OSuccess)
        | Some c =>
            let! '(r, o, x) := unless (replay_danger dict (m_rec m1) c) (of_opt (encode_cmd (cmd_fuel dict c) dict (m_rec m1) c room)) in
            Fine (o, m_set_rec m1 x (match r with ModelRecode.OSuccess => None | _ => Some c end), r)
        end k = Fine x ->
     bind match m_pop m1 with
        | None => Some ([], m1, ModelRecode.OSuccess)
        | Some c =>
            let? '(r, o, x) := encode_cmd (cmd_fuel dict c) dict (m_rec m1) c room in
            Some (o, m_set_rec m1 x (match r with ModelRecode.OSuccess => None | _ => Some c end), r)
        end k' = Some x).
  { intros k k' K. destruct (m_pop m1) as [c|]; [|cbn [gbind bind]; apply K]. destruct (replay_danger _ _ _); cbn [unless gbind]; [discriminate|]. destruct (encode_cmd _ _ _ _ _) as [[[r o] y]|]; cbn [of_opt gbind bind]; [apply K|discriminate]. }
  apply B. clear B. intros ((o & m2) & r). destruct r; try congruence.
  destruct (pull_commands q m2) as [[[q3 m3] need]|]; cbn [of_opt gbind bind]; [|discriminate]. destruct need; [congruence|].
  destruct (m_cmds m3) as [|c cs].
  - destruct (m_eof m3); [|congruence]. destruct (finish skip m3 (room - zlen o)) as [[[o4 m4] r4]|]; cbn [of_opt gbind bind]; [congruence|discriminate].
  - destruct (speeds_danger c m3); cbn [unless gbind]; [discriminate|]. destruct (take_command c q3 (m_set_cmds m3 cs)) as [[[q4 m4] r4]|]; cbn [of_opt gbind bind]; [|discriminate].
    destruct r4; [congruence|]. destruct (g_output dict skip fuel q4 m4 (room - zlen o)) as [[[[o5 q5] m5] r5]| |] eqn:G; cbn [gbind]; try discriminate. rewrite (IH _ _ _ _ G). cbn [bind]. congruence.
Qed.
Lemma g_process_real : forall fuel p input room x, g_process dict wl D skip fuel p input room = Fine x -> process dict wl D skip fuel p input room = Some x.
Proof.
  induction fuel as [|fuel IH]; intros p input room x E; [discriminate E|]. cbn [g_process process] in *.
  destruct (process_input skip (p_q p) (p_m p) input) as [[[[n q1] m1] ok]|]; cbn [of_opt gbind bind] in *; [|discriminate E]. destruct ok; cbn [negb] in *; [|congruence].
  destruct (gw_run wl D (S fuel) (p_w p) q1) as [[[w2 q2] r]| |] eqn:GW; cbn [gbind] in E; try discriminate E. rewrite (gw_run_real _ _ _ _ _ _ GW). cbn [bind].
  assert (GO : forall cond : bool, 
    (if cond then Fine (n, [], PR w2 q2 m1, DNeedIn) else
          let! '(o, q, m, r) := g_output dict skip (S fuel) q2 m1 room in
          match r with
          | Processed r => Fine (n, o, PR w2 q m, r)
          | Yield =>
              let! '(n2, o2, p, r) := g_process dict wl D skip fuel (PR w2 q m) (zskip n input) (room - zlen o) in
              Fine (n + n2, o ++ o2, p, r)
          end) = Fine x ->
    (if cond then Some (n, [], PR w2 q2 m1, DNeedIn) else
          let? '(o, q, m, r) := process_output dict skip (S fuel) q2 m1 room in
          match r with
          | Processed r => Some (n, o, PR w2 q m, r)
          | Yield =>
              let? '(n2, o2, p, r) := process dict wl D skip fuel (PR w2 q m) (zskip n input) (room - zlen o) in
              Some (n + n2, o ++ o2, p, r)
          end) = Some x).
  { intros cond. destruct cond; [congruence|]. destruct (g_output dict skip (S fuel) q2 m1 room) as [[[[o3 q3] m3] r3]| |] eqn:GO; cbn [gbind]; try discriminate. rewrite (g_output_real _ _ _ _ _ GO). cbn [bind].
    destruct r3; [congruence|]. destruct (g_process dict wl D skip fuel _ _ _) as [[[[n4 o4] p4] r4]| |] eqn:GP; cbn [gbind]; try discriminate. rewrite (IH _ _ _ _ GP). cbn [bind]. congruence. }
  destruct r; try (revert E; apply GO). congruence.
Qed.
Lemma g_decode_real fuel d input room x : g_decode dict wl D skip fuel d input room = Fine x -> decode dict wl D skip fuel d input room = Some x.
Proof.
  unfold g_decode, decode. destruct d as [h|p].
  - destruct (hp_decode h input) as [[h1 n1] r1]. destruct r1 as [|er|ws]; try congruence. cbv zeta. destruct (_ <? _); [|congruence].
    destruct (g_process _ _ _ _ _ _ _ _) as [[[[n o] p'] r]| |] eqn:G; cbn [gbind]; try discriminate. rewrite (g_process_real _ _ _ _ _ G). cbn [bind]. congruence.
  - destruct (g_process _ _ _ _ _ _ _ _) as [[[[n o] p'] r]| |] eqn:G; cbn [gbind]; try discriminate. rewrite (g_process_real _ _ _ _ _ G). cbn [bind]. congruence.
Qed.
Lemma g_session_real fuel : forall calls d xs, g_session dict wl D skip fuel d calls = Fine xs -> session dict wl D skip fuel d calls = Some xs.
Proof.
  induction calls as [|[input room] calls IH]; intros d xs; cbn [g_session session]; [congruence|].
  destruct (g_decode dict wl D skip fuel d input room) as [[[[n o] d'] r]| |] eqn:G; cbn [gbind]; try discriminate. rewrite (g_decode_real _ _ _ _ _ G). cbn [bind].
  assert (GO : gbind (g_session dict wl D skip fuel d' calls) (fun xs => Fine ((n, o, r) :: xs)) = Fine xs -> bind (session dict wl D skip fuel d' calls) (fun xs => Some ((n, o, r) :: xs)) = Some xs).
  { destruct (g_session dict wl D skip fuel d' calls) as [ys| |] eqn:GS; cbn [gbind]; try discriminate. rewrite (IH _ _ GS). cbn [bind]. intros X. injection X as <-. reflexivity. }
  destruct r; try exact GO. intros X. injection X as <-. reflexivity.
Qed.
Definition fed_total (calls : list (list Z * Z)) : Z := fold_right (fun c a => zlen (fst c) + a) 0 calls.
Lemma fed_nonneg calls : 0 <= fed_total calls.
Proof. induction calls as [|[i r] cs IH]; cbn [fed_total fold_right fst] in *; [lia|]. pose proof (zlen_nonneg i). unfold fed_total in IH. lia. Qed.
Lemma session_any fuel : forall calls d, dgood d -> Forall (fun c => bytes (fst c) /\ 0 <= snd c) calls -> dphi d + CB * fed_total calls < Z.of_nat fuel ->
  (exists h, g_session dict wl D skip fuel d calls = Unsafe h) \/ exists xs, g_session dict wl D skip fuel d calls = Fine xs /\ within calls xs.
Proof.
  induction calls as [|[input room] calls IH]; intros d G B F; cbn [g_session]; [right; exists []; split; [reflexivity|exact Logic.I]|].
  inversion B as [|? ? (BI & RM) B']; subst. cbn [fst snd] in BI, RM. cbn [fed_total fold_right fst] in F. fold (fed_total calls) in F. pose proof (fed_nonneg calls) as FN. pose proof (zlen_nonneg input) as IN0.
  destruct (decode_fine fuel d input room G BI RM) as [(hz & ->)|(n & o & d' & r & -> & N & LO & R)]; cbn [gbind].
  { unfold CB in *. lia. }
  { left. eexists. reflexivity. }
  destruct R as [->|(G' & P')].
  { right. eexists. split; [reflexivity|]. cbn [within]. split; [exact N|]. split; [exact LO|]. destruct calls as [|[? ?] ?]; exact Logic.I. }
  assert (GO : (exists h, gbind (g_session dict wl D skip fuel d' calls) (fun xs => Fine ((n, o, r) :: xs)) = Unsafe h) \/
    exists xs, gbind (g_session dict wl D skip fuel d' calls) (fun xs => Fine ((n, o, r) :: xs)) = Fine xs /\ within ((input, room) :: calls) xs).
  { destruct (IH d' G' B') as [(hz & ->)|(xs & -> & WI)]; cbn [gbind].
    { lia. }
    { left. eexists. reflexivity. }
    right. eexists. split; [reflexivity|]. cbn [within]. auto. }
  destruct r; try exact GO. right. eexists. split; [reflexivity|]. cbn [within]. split; [exact N|]. split; [exact LO|]. destruct calls as [|[? ?] ?]; exact Logic.I.
Qed.
Lemma dgood_new : dgood decompressor_new.
Proof. exists []. apply hp_new_inv. Qed.
End Calls.
