(** The tool's loop around the decompressor with two threads. *)
From Verif Require Import Prelude ProofList ModelAns SpecAns ModelCdf SpecCdf ModelRecode SpecLz ProofRecode ProofRecode2 ProofAns ProofAnsRt ProofAnsDec ThmCdf ModelMux SpecMux ProofZlist ProofMux ProofMuxR ModelCmd ModelCrc SpecCrc ProofCrc ModelHeader SpecHeader ProofHeader ModelPriors ModelCodec ModelLit ModelPm ModelTop SpecCodec SpecReplay SpecFile ModelEnc ProofSim ModelDec SpecEnc SpecDec ProofDec1 ProofDec2 ProofDec3 ProofDec4 ProofDec5 ProofDec6 ProofDec7 ModelThread SpecThread ProofThread1 ProofThread2 ProofThread3 ProofThread4 ModelRawEnc ProofThread5 ModelTool ModelToolThread SpecTool ProofTool.
From Verif Require ModelIo SpecIo ProofIo.

(** ** A call, seen as a session of one call *)
Definition overb (s : tsess) : bool := match ts_v s with Waiting => match ts_call s, ts_calls s with None, [] => true | _, _ => false end | _ => true end.
Lemma overb_over s : overb s = true <-> over s.
Proof. unfold overb, over. destruct (ts_v s); try (split; [left; discriminate|reflexivity]). destruct (ts_call s); [split; [discriminate|intros [X|(X & _)]; [contradiction X; reflexivity|discriminate X]]|]. destruct (ts_calls s); [split; auto|split; [discriminate|intros [X|(_ & X)]; [contradiction X; reflexivity|discriminate X]]]. Qed.

Section Call.
Context (dict : dict_fn) (wl : word_len_fn) (D : dims) (skip : bool).
Fixpoint until (sched : list event) (s : tsess) : option (tsess * list event) :=
  if overb s then Some (s, sched) else
  match sched with
  | [] => None
  | e :: sched => let? s := tevent dict wl D skip e s in until sched s
  end.
Lemma until_over sched s : overb s = true -> until sched s = Some (s, sched).
Proof. destruct sched; cbn [until]; intros ->; reflexivity. Qed.
Lemma over_returned d i room o n o2 r : overb (returned d i room [] o n o2 r) = true.
Proof. unfold overb, returned. cbn [ts_v ts_call ts_calls]. destruct (_ || _); [reflexivity|]. destruct r; try reflexivity; destruct (_ <? _); reflexivity. Qed.
Lemma await_until : forall sched on x i room o s' rest, in_call (wd_m x) = true ->
  until sched (TS (PDecode x) (Some (i, room)) [] [] o Waiting) = Some (s', rest) ->
  exists x' r on', await dict wl D skip sched on x = Some (x', r, on', rest) /\ s' = returned (PDecode x') i room [] o (tm_n (wd_m x')) (tm_out (wd_m x')) r /\ tm_pc (wd_m x') = MRet r.
Proof.
  induction sched as [|e sched IH]; intros on x i room o s' rest IC E.
  - cbn [until] in E. discriminate E.
  - cbn [until] in E. change (overb (TS (PDecode x) (Some (i, room)) [] [] o Waiting)) with false in E. cbn iota in E.
    assert (TE : tevent dict wl D skip e (TS (PDecode x) (Some (i, room)) [] [] o Waiting) = (let? x := ModelThread.step dict wl D skip e x in
        match tm_pc (wd_m x) with MRet r => Some (returned (PDecode x) i room [] o (tm_n (wd_m x)) (tm_out (wd_m x)) r) | _ => Some (TS (PDecode x) (Some (i, room)) [] [] o Waiting) end)).
    { unfold tevent. cbn [ts_v ts_call ts_d ts_calls ts_out ts_rest]. destruct e; destruct (ModelThread.step dict wl D skip _ x) as [x1|]; reflexivity. }
    rewrite TE in E. clear TE. assert (AW : await dict wl D skip (e :: sched) on x = (let? x := ModelThread.step dict wl D skip e x in await dict wl D skip sched (turn e on) x)).
    { cbn [await]. unfold in_call in IC. destruct (tm_pc (wd_m x)); [discriminate IC|reflexivity..]. }
    rewrite AW. clear AW. destruct (ModelThread.step dict wl D skip e x) as [x1|]; [|discriminate E]. cbn [bind] in *.
    destruct (in_call (wd_m x1)) eqn:I1.
    + assert (E1 : until sched (TS (PDecode x1) (Some (i, room)) [] [] o Waiting) = Some (s', rest)). { unfold in_call in I1. destruct (tm_pc (wd_m x1)); [discriminate I1|exact E..]. }
      exact (IH (turn e on) x1 i room o s' rest I1 E1).
    + unfold in_call in I1. destruct (tm_pc (wd_m x1)) as [r| | | | | |] eqn:PC; try discriminate I1. cbn [bind] in E. rewrite until_over in E by apply over_returned. assert (s' = returned (PDecode x1) i room [] o (tm_n (wd_m x1)) (tm_out (wd_m x1)) r /\ rest = sched) as (-> & ->) by (split; congruence).
      exists x1, r, (turn e on). split; [destruct sched; cbn [await]; rewrite PC; reflexivity|]. split; [reflexivity|exact PC].
Qed.
Lemma decode_until : forall sched on d i room o s' rest,
  until sched (TS d None [] [(i, room)] o Waiting) = Some (s', rest) ->
  exists n o2 d' on' r, parallel_decode dict wl D skip sched on d i room = Some (n, o2, PS d' on' rest, ModelIo.dec_pres r) /\ s' = returned d' i room [] o n o2 r /\
    match d' with PDecode x => tm_pc (wd_m x) = MRet r | PHeader _ => r <> DNeedOut end.
Proof.
  induction sched as [|e sched IH]; intros on d i room o s' rest E; [discriminate E|].
  cbn [until] in E. change (overb (TS d None [] [(i, room)] o Waiting)) with false in E. cbn iota in E.
  destruct (match e with ByMain => true | _ => false end) eqn:EM.
  - assert (e = ByMain) as -> by (destruct e; try discriminate EM; reflexivity). cbn [parallel_decode]. unfold tevent in E. cbn [ts_v ts_call ts_calls ts_rest ts_d ts_out app] in E.
    destruct (begin_call D skip d i room) as (d1, res) eqn:BC. destruct res as [(n, r)|].
    + cbn [bind] in E. rewrite until_over in E by apply over_returned. assert (s' = returned d1 i room [] o n [] r /\ rest = sched) as (-> & ->) by (split; congruence).
      exists n, [], d1, on, r. split; [destruct d1; reflexivity|]. split; [reflexivity|]. unfold begin_call in BC. destruct d as [h|x]; [|discriminate BC]. destruct (hp_decode h i) as ((h', m), hr).
      destruct hr as [| |wsz]; [| |destruct (Z.of_nat m <? zlen i); [discriminate BC|]]; try (assert (d1 = PHeader h') as -> by congruence; intros ->; discriminate BC).
      assert (d1 = PDecode (world_new D skip (hp_header h') wsz (MRet DNeedIn) [] (Z.of_nat m) room)) as -> by congruence. assert (r = DNeedIn) as -> by congruence. reflexivity.
    + cbn [bind] in E. destruct d1 as [h1|x1].
      * exfalso. unfold begin_call in BC. destruct d as [h|x]; [|discriminate BC]. destruct (hp_decode h i) as ((h', m), hr). destruct hr as [| |wsz]; [| |destruct (Z.of_nat m <? zlen i)]; discriminate BC.
      * assert (IC : in_call (wd_m x1) = true).
        { unfold begin_call in BC. destruct d as [h|x].
          - destruct (hp_decode h i) as ((h', m), hr). destruct hr as [| |wsz]; [| |destruct (Z.of_nat m <? zlen i)]; try discriminate BC. assert (x1 = world_new D skip (hp_header h') wsz MIn (zskip (Z.of_nat m) i) (Z.of_nat m) room) as -> by congruence. reflexivity.
          - assert (x1 = WD (wd_sh x) (wd_w x) (TM (tm_m (wd_m x)) MIn Awake i 0 [] room)) as -> by congruence. reflexivity. }
        destruct (await_until sched on x1 i room o s' rest IC E) as (x' & r & on' & AW & SE & PC). rewrite AW. cbn [bind]. exists (tm_n (wd_m x')), (tm_out (wd_m x')), (PDecode x'), on', r. auto.
  - assert (PD : parallel_decode dict wl D skip (e :: sched) on d i room = match d with PHeader _ => parallel_decode dict wl D skip sched on d i room | PDecode x => let? x := ModelThread.step dict wl D skip e x in parallel_decode dict wl D skip sched (turn e on) (PDecode x) i room end) by (destruct e; [discriminate EM|reflexivity..]).
    rewrite PD. clear PD.
    assert (TE : tevent dict wl D skip e (TS d None [] [(i, room)] o Waiting) = match d with PHeader _ => Some (TS d None [] [(i, room)] o Waiting) | PDecode x => let? x := ModelThread.step dict wl D skip e x in Some (TS (PDecode x) None [] [(i, room)] o Waiting) end) by (destruct e; [discriminate EM|reflexivity..]).
    rewrite TE in E. clear TE. destruct d as [h|x]; [exact (IH on (PHeader h) i room o s' rest E)|]. destruct (ModelThread.step dict wl D skip e x) as [x1|]; [|discriminate E]. cbn [bind] in *. exact (IH (turn e on) (PDecode x1) i room o s' rest E).
Qed.
End Call.

(** ** The turns that are left *)
Definition works (d : pdec) : bool := match d with PDecode x => ProofThread4.runw x | PHeader _ => false end.
Definition turns (A : Z) (m w : bool) (sched : list event) : Prop := exists part rs, sched = part ++ concat rs /\ Forall fair_round rs /\
  (A + spurious sched < zlen rs \/ (A + spurious sched < zlen rs + 1 /\ ((m = true /\ In ByMain part) \/ (w = true /\ In ByWorker part)))).
Lemma turns_open A m w sched : 0 <= A -> turns A m w sched -> m = true \/ w = true -> exists e part rs, sched = (e :: part) ++ concat rs /\ Forall fair_round rs /\
  (A + spurious sched < zlen rs \/ (A + spurious sched < zlen rs + 1 /\ ((m = true /\ In ByMain (e :: part)) \/ (w = true /\ In ByWorker (e :: part))))).
Proof.
  intros A0 (part & rs & E & FR & C) M. destruct part as [|e part]; [|exists e, part, rs; auto].
  assert (C1 : A + spurious sched < zlen rs). { destruct C as [C|(_ & [(_ & [])|(_ & [])])]. exact C. }
  assert (S0 : 0 <= spurious sched) by (unfold spurious; apply zlen_nonneg). destruct rs as [|r rs]; [change (zlen (@nil (list event))) with 0 in C1; lia|].
  apply Forall_cons_iff in FR. destruct FR as ((FM & FW) & FR). destruct r as [|e part]; [contradiction FM|]. exists e, part, rs. split; [exact E|]. split; [exact FR|]. right. rewrite zlen_cons in C1. split; [lia|]. destruct M as [M|M]; [left|right]; split; assumption.
Qed.

Section Run.
Context (dict : dict_fn) (wl : word_len_fn) (D : dims) (skip : bool) (ws : Z) (WS : 10 <= ws <= 24).
Context (W Tr out : list Z) (N : nat) (TRE : Tr = trailer (crc32c 0 (make_header ws ++ W))).
Context (START : starts dict wl D skip ws W Tr out N).
Notation T := (make_header ws ++ W ++ Tr).
Context (BTT : bytes T) (tail : list Z) (BT : bytes tail).
Section Until.
Context (all : list (list Z * Z)) (future : list Z) (EI : offered all ++ future = T ++ tail) (RM : Forall (fun c => 0 <= snd c) all).
Notation TINV := (tinv dict wl D skip ws W Tr out N tail all future).
Lemma until_good K : 0 <= K -> forall sched s P, TINV s P -> turns (P + K) (mainable s) (workable s) sched ->
  exists s' rest, until dict wl D skip sched s = Some (s', rest) /\ overb s' = true /\ ((tfin ws W Tr out all s' /\ exists P', tlast dict wl D skip ws Tr out s' P' /\ turns (P' + K) false (workable s') rest) \/ exists P', TINV s' P' /\ turns (P' + K) false (workable s') rest).
Proof.
  intros K0. induction sched as [|e0 sched0 IH]; intros s P TI TU.
  all: pose proof (tinv_nonneg _ _ _ _ _ _ _ _ _ _ _ _ _ _ TI) as P0.
  all: destruct (overb s) eqn:OV; [rewrite until_over by exact OV; eexists s, _; split; [reflexivity|]; split; [exact OV|]; right; exists P; split; [exact TI|];
    assert (MF : mainable s = false) by (destruct TI as (V & _); unfold overb in OV; rewrite V in OV; unfold mainable; destruct (ts_call s); [discriminate OV|]; destruct (ts_calls s); [reflexivity|discriminate OV]); rewrite MF in TU; exact TU|].
  all: assert (MV : mainable s = true \/ workable s = true) by (destruct (tinv_moves _ _ _ _ _ _ _ _ _ _ _ _ _ _ TI) as [O|M]; [apply overb_over in O; congruence|exact M]).
  all: destruct (turns_open _ _ _ _ (Z.add_nonneg_nonneg _ _ P0 K0) TU MV) as (e & part & rs & E & FR & C).
  - discriminate E.
  - cbn [app] in E. assert (e0 = e /\ sched0 = part ++ concat rs) as (-> & ES) by (split; congruence). cbn [until]. rewrite OV.
    destruct (event_good dict wl D skip ws WS W Tr out N TRE START BTT tail BT all future EI RM e s P TI) as (s1 & TE & G). rewrite TE. cbn [bind]. destruct G as [(F & -> & P1 & TL & L)|(P1 & TI1 & L & K1 & K2)].
    + assert (OF : overb s1 = true) by (destruct F as (F & _); unfold overb; rewrite F; reflexivity). rewrite until_over by exact OF. exists s1, sched0. split; [reflexivity|]. split; [exact OF|]. left. split; [exact F|]. exists P1. split; [exact TL|]. exists part, rs. split; [exact ES|]. split; [exact FR|]. left. rewrite spurious_cons in C. cbn [spur] in C. destruct C as [C|(C & _)]; lia.
    + apply (IH s1 P1 TI1). exists part, rs. split; [exact ES|]. split; [exact FR|]. rewrite spurious_cons in C. assert (EF : 0 <= eff e s) by (unfold eff; destruct e, (mainable s), (workable s); lia).
      destruct C as [C|(C & [(M & I)|(M & I)])]; [left; lia| |].
      * destruct I as [->|I]; [left; unfold eff in L; rewrite M in L; lia|]. destruct (match e with ByMain => true | _ => false end) eqn:EM; [destruct e; try discriminate EM; left; unfold eff in L; rewrite M in L; lia|]. right. split; [lia|]. left. split; [apply K1; [intros ->; discriminate EM|exact M]|exact I].
      * destruct I as [->|I]; [left; unfold eff in L; rewrite M in L; lia|]. destruct (match e with ByWorker => true | _ => false end) eqn:EM; [destruct e; try discriminate EM; left; unfold eff in L; rewrite M in L; lia|]. right. split; [lia|]. right. split; [apply K2; [intros ->; discriminate EM|exact M]|exact I].
Qed.
End Until.

(** ** A call *)
Definition dst (d : pdec) (x o : list Z) (Q : Z) : Prop := exists c0, T = c0 ++ x /\
  match d with
  | PHeader h => (exists seen y, hp_inv h seen /\ make_header ws = seen ++ y /\ x = y ++ W ++ Tr) /\ o = [] /\ N0 N <= Q
  | PDecode w => exists R, x = rem Tr R (tm_m (wd_m w)) /\ wtv dict wl D skip ws Tr out Q R (window ws ++ o) w /\ idle (wd_m w) /\ (tm_pc (wd_m w) = MRet DNeedIn -> x <> [])
  end.
Definition pinv (n : nat) (p : pstate) (x o : list Z) : Prop :=
  exists Q, dst (ps_d p) x o Q /\ turns (Q + 10 * Z.of_nat n) false (works (ps_d p)) (ps_sched p).
Definition pfin (p : pstate) : Prop := exists w, ps_d p = PDecode w /\ ended (wd_w w) = true.
Lemma enter d x o Q i f room c0 : T = c0 ++ x -> dst d x o Q -> i ++ f = x ++ tail ->
  tinv dict wl D skip ws W Tr out N tail [(c0, 0); (i, room)] f (TS d None [] [(i, room)] o Waiting) (Q + 10).
Proof.
  intros ET (c1 & ET1 & H) EI. split; [reflexivity|]. exists [(c0, 0)], c0, x. cbn [ts_calls ts_call ts_rest ts_out ts_d]. split; [reflexivity|]. split; [exact ET|]. split; [reflexivity|]. split.
  - intros a b y E _ F. pose proof (zlen_nonneg o). destruct b as [|c b]; [change (zlen (@nil (list Z * Z))) with 0; lia|]. exfalso. apply (f_equal (@rev _)) in E. destruct a as [|q a].
    + cbn [app] in E. apply (f_equal (@rev _)) in E. rewrite !rev_involutive in E. assert (c = (c0, 0)) as -> by congruence. apply Forall_inv in F. cbn [snd] in F. lia.
    + apply (f_equal (@length _)) in E. rewrite !rev_length in E. cbn [length app] in E. rewrite app_length in E. cbn [length] in E. lia.
  - change (zlen [(i, room)]) with 1. destruct d as [h|w].
    + destruct H as (H1 & H2 & H3). split; [exact H1|]. split; [exact H2|lia].
    + destruct H as (R & H1 & H2 & H3). exists R. split; [exact H1|]. replace (Q + 10 - 10 * 1) with Q by lia. split; [exact H2|]. destruct H3 as (H3 & H4). split; [exact H3|]. split; [exact H4|reflexivity].
Qed.
Lemma pinv_part n p x o : pinv n p x o -> exists more, out = o ++ more.
Proof.
  intros (Q & H & _). pose proof H as (c0 & ET & _). exact (tinv_prefix _ _ _ _ _ _ _ _ _ START _ _ _ _ _ (enter _ _ _ _ [] (x ++ tail) 0 c0 ET H eq_refl)).
Qed.
Lemma call_good n p x o i f room : pinv (S n) p x o -> i ++ f = x ++ tail -> 0 <= room ->
  exists pre suf o2 p' r x', parallel_decode dict wl D skip (ps_sched p) (ps_on p) (ps_d p) i room = Some (zlen pre, o2, p', r) /\ i = pre ++ suf /\ x = pre ++ x' /\ zlen o2 <= room /\
    match r with
    | ModelIo.PSuccess => x' = [] /\ o ++ o2 = out /\ pfin p' /\ pinv n p' [] out
    | ModelIo.PNeedIn => suf = [] /\ x' <> [] /\ pinv n p' x' (o ++ o2)
    | ModelIo.PNeedOut => zlen o2 = room /\ pinv n p' x' (o ++ o2) /\ (x' <> [] -> suf = [])
    | ModelIo.PFail => False
    end.
Proof.
  intros (Q & H & TU) EI R0. pose proof H as (c0 & ET & _). pose proof (enter _ _ _ _ i f room c0 ET H EI) as TI. set (all := [(c0, 0); (i, room)]) in *.
  assert (OA : offered all = c0 ++ i) by (unfold offered, all; cbn [map fst concat]; rewrite app_nil_r; reflexivity).
  assert (EA : offered all ++ f = T ++ tail) by (rewrite OA, ET, <- !app_assoc; f_equal; exact EI).
  assert (RM : Forall (fun c => 0 <= snd c) all) by (constructor; [cbn [snd]; lia|constructor; [exact R0|constructor]]).
  assert (TU2 : turns (Q + 10 + 10 * Z.of_nat n) (mainable (TS (ps_d p) None [] [(i, room)] o Waiting)) (workable (TS (ps_d p) None [] [(i, room)] o Waiting)) (ps_sched p)).
  { destruct TU as (part & rs & E1 & E2 & C). exists part, rs. split; [exact E1|]. split; [exact E2|]. destruct C as [C|(C & [(X & _)|C2])]; [left; lia|discriminate X|right; split; [lia|right; exact C2]]. }
  destruct (until_good all f EA RM (10 * Z.of_nat n) ltac:(lia) _ _ _ TI TU2) as (s' & rest & U & OV & G).
  destruct (decode_until dict wl D skip _ (ps_on p) _ _ _ _ _ _ U) as (m & o2 & d' & on' & r & PD & SE & PC). rewrite PD.
  assert (V : ts_v s' = Finished \/ ts_v s' = Waiting) by (destruct G as [(F & _)|(P' & TI' & _)]; [left; apply F|right; apply TI']).
  assert (BB : (room <? zlen o2) || (m <? 0) || (zlen i <? m) = false) by (rewrite SE in V; cbn [returned ts_v] in V; destruct (_ || _ || _); [destruct V as [V|V]; discriminate V|reflexivity]).
  apply Bool.orb_false_elim in BB. destruct BB as (BB & B3). apply Bool.orb_false_elim in BB. destruct BB as (B1 & B2). apply Z.ltb_ge in B1, B2, B3.
  assert (VV : ts_v s' = match r with DSuccess => Finished | DFail => Broken | DNeedIn => if m <? zlen i then Broken else Waiting | DNeedOut => if zlen o2 <? room then Broken else Waiting end).
  { rewrite SE. cbn [returned ts_v]. replace ((room <? zlen o2) || (m <? 0) || (zlen i <? m)) with false; [reflexivity|]. symmetry. rewrite !Bool.orb_false_iff, !Z.ltb_ge. lia. }
  set (pre := zfirst m i). set (suf := zskip m i). assert (IE : i = pre ++ suf) by (symmetry; apply zfirst_skip). assert (ZP : zlen pre = m) by (unfold pre; rewrite zlen_first by lia; lia). assert (SZ : zskip m i = suf) by reflexivity. assert (SF : zlen i <= m -> suf = []) by (intros X; unfold suf; apply zskip_all; lia). clearbody pre suf.
  assert (KEEP : ts_v s' = Waiting -> exists x', x = pre ++ x' /\ pinv n (PS d' on' rest) x' (o ++ o2) /\ (r = DNeedIn -> x' <> []) /\ (r = DNeedOut -> x' <> [] -> suf = [])).
  { intros VW. destruct G as [((F & _) & _)|(P' & TI' & TU')]; [congruence|]. subst s'. destruct TI' as (_ & done & c1 & x' & A1 & A2 & A3). cbn [returned ts_calls ts_call ts_rest ts_out ts_d] in *. rewrite app_nil_r in A1. destruct A3 as (A3 & A4 & A5).
    rewrite SZ, <- A1, OA, IE, app_assoc in A3. apply app_inv_tail in A3. exists x'. assert (XE : x = pre ++ x') by (rewrite ET, <- A3, <- app_assoc in A2; apply app_inv_head in A2; exact A2).
    change (10 * zlen (@nil (list Z * Z))) with 0 in A5. rewrite Z.add_0_r, ?Z.sub_0_r in A5. split; [exact XE|]. split.
    - exists P'. split; [|exact TU']. cbn [ps_d]. exists c1. split; [exact A2|]. destruct d' as [h|w]; [exact A5|]. destruct A5 as (R & A6 & A7 & A8 & A9 & _). exists R. auto.
    - split; [|intros RN NX; destruct d' as [h|w]; [|destruct A5 as (R & _ & _ & _ & _ & A5); rewrite <- SZ; exact (A5 NX)]; exfalso; exact (PC RN)].
      intros ->. destruct d' as [h|w]; [|destruct A5 as (R & _ & _ & _ & A5 & _); exact (A5 PC)]. destruct A5 as ((seen & y & _ & _ & ->) & _). intros X. apply (f_equal (@length Z)) in X. rewrite !app_length, (Tr_len ws W Tr TRE) in X. cbn [length] in X. lia. }
  destruct r; cbn [ModelIo.dec_pres].
  - destruct G as [(F & P' & TL & TU')|(P' & (TI' & _) & _)]; [|congruence]. destruct F as (_ & F2 & _ & F4 & F5). subst s'. cbn [returned ts_out ts_rest ts_calls ts_d] in *. rewrite SZ in F4. change (offered []) with (@nil Z) in F4. rewrite app_nil_r, OA, IE, ET, app_assoc in F4. apply app_inv_tail in F4. apply app_inv_head in F4.
    exists pre, suf, o2, (PS d' on' rest), ModelIo.PSuccess, []. split; [rewrite ZP; reflexivity|]. split; [exact IE|]. split; [rewrite app_nil_r; symmetry; exact F4|]. split; [exact B1|]. split; [reflexivity|]. split; [exact F2|]. unfold tlast in TL. cbn [returned ts_d ts_calls ts_out] in TL, TU'. destruct d' as [h|w]; [contradiction F5|]. split; [exists w; split; [reflexivity|apply F5]|].
    destruct TL as (R & A6 & A7 & A8 & A9). change (10 * zlen (@nil (list Z * Z))) with 0 in A7. rewrite Z.sub_0_r, F2 in A7. exists P'. split; [|exact TU']. cbn [ps_d]. exists T. split; [rewrite app_nil_r; reflexivity|]. exists R. split; [symmetry; exact A6|]. split; [exact A7|]. split; [exact A8|]. rewrite A9. discriminate.
  - destruct (Z.ltb_spec m (zlen i)) as [X|X]; [rewrite VV in V; destruct V as [V|V]; discriminate V|]. destruct (KEEP VV) as (x' & XE & PI & NX & _). exists pre, suf, o2, (PS d' on' rest), ModelIo.PNeedIn, x'. split; [rewrite ZP; reflexivity|]. split; [exact IE|]. split; [exact XE|]. split; [exact B1|]. split; [exact (SF X)|]. split; [exact (NX eq_refl)|exact PI].
  - destruct (Z.ltb_spec (zlen o2) room) as [X|X]; [rewrite VV in V; destruct V as [V|V]; discriminate V|]. destruct (KEEP VV) as (x' & XE & PI & _ & NX). exists pre, suf, o2, (PS d' on' rest), ModelIo.PNeedOut, x'. split; [rewrite ZP; reflexivity|]. split; [exact IE|]. split; [exact XE|]. split; [exact B1|]. split; [lia|]. split; [exact PI|exact (NX eq_refl)].
  - rewrite VV in V. destruct V as [V|V]; discriminate V.
Qed.

(** ** The loop *)
Import ModelIo SpecIo ProofIo.
Section Loop.
Context (bsize cap : Z) (BS : 1 <= bsize) (CAP : 1 <= cap) (missing : list Z).
Definition ppost (f : outfile) (src : list ModelIo.event) (res : outfile * tend * option pstate) : Prop :=
  exists f' e p, res = (f', e, Some p) /\
  ((e = TDone /\ f_got f' = out /\ zlen missing <= zlen tail /\ pfin p) \/
   (e = TError /\ (exists more, out = f_got f' ++ more) /\ (In WFault (f_evs f) \/ faulty src = true \/ zlen tail < zlen missing))).
Lemma ploop_spec : forall n p data off src pend f x,
  pinv n p x (f_got f ++ pend) -> zskip off data ++ content src ++ missing = x ++ tail ->
  0 <= off <= zlen data -> zlen data <= cap -> zlen pend <= bsize -> Forall honest src ->
  (weight src + Z.to_nat (zlen out - zlen (f_got f)) < n)%nat -> ppost f src (ploop dict wl D skip bsize cap n p data off src pend f).
Proof.
  induction n as [|n IH]; intros p data off src pend f x I EX OF DC PB HO LN; [lia|]. cbn [ploop].
  destruct (call_good n p x _ (zskip off data) (content src ++ missing) (bsize - zlen pend) I EX ltac:(lia)) as (pre & suf & o2 & p' & r & x' & E & EI & XX & LO & K). rewrite E.
  assert (ZU : zlen (zskip off data) = zlen data - off) by (rewrite zlen_skip by lia; lia). assert (ZP : zlen pre + zlen suf = zlen data - off) by (rewrite <- ZU, EI, zlen_app; reflexivity). pose proof (zlen_nonneg pre). pose proof (zlen_nonneg suf).
  destruct (Z.ltb_spec (zlen data - off) (zlen pre)); [lia|]. destruct (Z.ltb_spec (bsize - zlen pend) (zlen o2)); [lia|]. cbn [orb].
  assert (EX' : suf ++ content src ++ missing = x' ++ tail). { rewrite EI, XX, <- !app_assoc in EX. apply app_inv_head in EX. exact EX. }
  assert (SK : zskip (off + zlen pre) data = suf). { rewrite <- zskip_zskip by lia. rewrite EI. apply zskip_app_exact. reflexivity. }
  assert (PA : exists m, out = (f_got f ++ pend) ++ o2 ++ m).
  { assert (Q : pinv n p' x' ((f_got f ++ pend) ++ o2) -> exists m, out = (f_got f ++ pend) ++ o2 ++ m) by (intros J; destruct (pinv_part _ _ _ _ J) as (m & M); exists m; rewrite M, <- !app_assoc; reflexivity).
    destruct r; [exists []; rewrite app_nil_r; symmetry; apply K|apply Q, K|apply Q, K|contradiction K]. }
  assert (PF : forall a b, f_got f ++ pend ++ o2 = a ++ b -> exists more, out = a ++ more).
  { intros a b Q. destruct PA as (m & M). exists (b ++ m). rewrite M. rewrite !app_assoc in *. rewrite Q. reflexivity. }
  destruct r.
  - destruct K as (-> & OUT & FN & _). destruct (put f (pend ++ o2)) as (f', ok) eqn:PU. destruct (put_spec _ _ _ _ PU) as ((a & b & GA & AB) & U1 & U2 & U3). exists f', (if ok then TDone else TError), p'. split; [reflexivity|]. destruct ok.
    + left. split; [reflexivity|]. rewrite (U1 eq_refl), app_assoc. split; [exact OUT|]. split; [|exact FN]. cbn [app] in EX'. rewrite <- EX', !zlen_app. pose proof (zlen_nonneg (content src)). lia.
    + right. split; [reflexivity|]. split; [|left; auto]. rewrite GA. apply (PF _ b). rewrite AB, <- app_assoc. reflexivity.
  - destruct K as (-> & NX & I'). change (zlen (@nil Z)) with 0 in *. destruct (Z.eqb_spec (off + zlen pre) (zlen data)) as [_|Q]; [|lia]. change (zlen (@nil Z)) with 0. destruct (Z.eqb_spec 0 cap); [lia|]. rewrite Z.sub_0_r.
    pose proof (read_more_spec src cap HO CAP) as RM. destruct (read_more src cap) as [([|y t], src')|].
    + exists f, TError, p'. split; [reflexivity|]. right. split; [reflexivity|]. split; [apply (PF _ (pend ++ o2)); reflexivity|]. right. right. destruct RM as (CE & _). rewrite CE in EX'. cbn [app] in EX'. rewrite EX', zlen_app. destruct x'; [contradiction NX; reflexivity|]. rewrite zlen_cons. pose proof (zlen_nonneg x'). lia.
    + destruct RM as (CE & FE & HO' & WT & LL). cbn [app]. set (l := y :: t) in *.
      assert (G : ppost f src' (ploop dict wl D skip bsize cap n p' l 0 src' (pend ++ o2) f)).
      { apply (IH p' l 0 src' (pend ++ o2) f x').
        - rewrite app_assoc. exact I'.
        - change (zskip 0 l) with l. rewrite app_assoc, <- CE. exact EX'.
        - pose proof (zlen_nonneg l). lia.
        - exact LL.
        - rewrite zlen_app. lia.
        - exact HO'.
        - lia. }
      unfold ppost in *. rewrite FE in G. exact G.
    + exists f, TError, p'. split; [reflexivity|]. right. split; [reflexivity|]. split; [apply (PF _ (pend ++ o2)); reflexivity|]. auto.
  - destruct K as (LE & I' & _). destruct (put f (pend ++ o2)) as (f', ok) eqn:PU. destruct (put_spec _ _ _ _ PU) as ((a & b & GA & AB) & U1 & U2 & U3). destruct ok.
    + assert (G : ppost f' src (ploop dict wl D skip bsize cap n p' data (off + zlen pre) src [] f')).
      { specialize (U1 eq_refl). destruct PA as (m & M). apply (f_equal zlen) in M. rewrite !zlen_app in M. pose proof (zlen_nonneg m).
        apply (IH p' data (off + zlen pre) src [] f' x').
        - rewrite app_nil_r, U1, app_assoc. exact I'.
        - rewrite SK. exact EX'.
        - lia.
        - exact DC.
        - change (zlen (@nil Z)) with 0. lia.
        - exact HO.
        - rewrite U1, !zlen_app. lia. }
      destruct G as (f2 & e2 & p2 & G0 & G). exists f2, e2, p2. split; [exact G0|]. destruct G as [G|(G1 & G2 & G3)]; [left; exact G|right]. split; [exact G1|]. split; [exact G2|]. destruct G3 as [G3|G3]; [left; auto|right; exact G3].
    + exists f', TError, p'. split; [reflexivity|]. right. split; [reflexivity|]. split; [|left; auto]. rewrite GA. apply (PF _ b). rewrite AB, <- app_assoc. reflexivity.
  - contradiction K.
Qed.
End Loop.
End Run.
