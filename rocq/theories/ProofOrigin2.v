(** The decompressor on any input, continued: from the container to [decode]. *)
From Verif Require Import Prelude ProofList ProofZlist ModelAns ModelCdf ModelMux ModelCmd ModelCrc ModelHeader ModelRecode ModelPriors ModelCodec ModelLit ModelPm ModelTop ModelEnc ModelDec SpecLz SpecCrc SpecHeader SpecCheck SpecOrigin ProofCrc ProofCheck ProofOrigin ProofHeader.

(** ** Only commands move the ring buffer *)
Definition rkept (m : main) := m_rec m.
Lemma r_kept_buf m b o : rkept (m_set_buf m b o) = rkept m.
Proof. reflexivity. Qed.
Lemma r_kept_coder m d b : rkept (m_set_coder m d b) = rkept m.
Proof. reflexivity. Qed.
Lemma r_fill_kept m m' ok : lit_fill m = Some (m', ok) -> rkept m' = rkept m.
Proof.
  unfold lit_fill. destruct (fill_from _ _) as [((d, b), k)|]; cbn [bind]; [|discriminate].
  intros E. assert (m' = m_set_coder m d b) as -> by congruence. apply r_kept_coder.
Qed.
Lemma r_nibble_kept m m' : lit_nibble m = Some m' -> rkept m' = rkept m.
Proof.
  unfold lit_nibble. destruct (m_lit m) as [(safe, s)|]; [|discriminate].
  destruct (lit_node _ _ _ _) as [[] cdf k| |]; try discriminate.
  destruct (get_sym _ _) as [(v, d)|]; cbn [bind]; [|discriminate].
  destruct (k v) as [((b, l), s')| |]; try discriminate.
  intros E. assert (m' = m_set_nib m d l (Some (safe, s'))) as -> by congruence. reflexivity.
Qed.
Lemma r_safe_kept m : rkept (set_safe m) = rkept m.
Proof. reflexivity. Qed.
Lemma r_content_kept : forall fuel m m' ok, content fuel m = Some (m', ok) -> rkept m' = rkept m.
Proof.
  induction fuel as [|fuel IH]; intros m m' ok; cbn [content]; [discriminate|].
  destruct (lit_fill m) as [(m1, ok1)|] eqn:F1; cbn [bind]; [|discriminate]. apply r_fill_kept in F1.
  destruct (negb ok1). { intros E. assert (m' = m1) as -> by congruence. exact F1. }
  destruct (m_lit m1) as [([|], s)|]; [| |discriminate].
  - destruct (lit_nibble m1) as [m2|] eqn:N1; cbn [bind]; [|discriminate]. apply r_nibble_kept in N1.
    destruct (lit_fill m2) as [(m3, ok3)|] eqn:F3; cbn [bind]; [|discriminate]. apply r_fill_kept in F3.
    unfold assert. destruct ok3; [|discriminate].
    destruct (lit_nibble m3) as [m4|] eqn:N4; cbn [bind]; [|discriminate]. apply r_nibble_kept in N4.
    destruct (ready m3 1 <? 16).
    + destruct (lit_done m4); intros E; [assert (m' = m4) as -> by congruence; congruence|].
      apply IH in E. rewrite r_safe_kept in E. congruence.
    + destruct (lit_fill m4) as [(m5, ok5)|] eqn:F5; cbn [bind]; [|discriminate]. apply r_fill_kept in F5.
      destruct ok5; [|discriminate].
      destruct (lit_done m5); intros E; [assert (m' = m5) as -> by congruence; congruence|]. apply IH in E. congruence.
  - destruct (lit_nibble m1) as [m2|] eqn:N1; cbn [bind]; [|discriminate]. apply r_nibble_kept in N1.
    destruct (match m_lit m2 with Some (_, s0) => match l_sub s0 with LLower _ _ => true | _ => false end | None => false end).
    { intros E. apply IH in E. congruence. }
    destruct (lit_fill m2) as [(m3, ok3)|] eqn:F3; cbn [bind]; [|discriminate]. apply r_fill_kept in F3.
    destruct (lit_done m3). { intros E. assert (m' = m3) as -> by congruence. congruence. }
    destruct ok3; intros E. { apply IH in E. congruence. }
    assert (m' = set_safe m3) as -> by congruence. rewrite r_safe_kept. congruence.
Qed.
Lemma r_take_back_kept : forall bufs q m q' m' need, take_back bufs q m = Some (q', m', need) -> rkept m' = rkept m.
Proof.
  induction bufs as [|dat bufs IH]; intros q m q' m' need; cbn [take_back].
  - intros E. assert (m' = m) as -> by congruence. reflexivity.
  - unfold assert. destruct (1 <=? m_out m); [|discriminate].
    destruct (q_push q (buf0 (m_mux m))) as [q1|];
      match goal with |- bind (take_back bufs ?a ?b) _ = _ -> _ => destruct (take_back bufs a b) as [((q2, m2), need2)|] eqn:E2 end;
      cbn [bind]; try discriminate; apply IH in E2; rewrite r_kept_buf in E2;
      intros E; assert (m' = m2) as -> by congruence; exact E2.
Qed.
Lemma r_pull_kept q m q' m' need : pull_commands q m = Some (q', m', need) -> rkept m' = rkept m.
Proof.
  unfold pull_commands. destruct (m_cmds m).
  - destruct (m_eof m). { intros E. assert (m' = m) as -> by congruence. reflexivity. }
    unfold assert. destruct (_ && _); [|discriminate].
    match goal with |- (if ?x then _ else _) = _ -> _ => destruct x end; [|discriminate].
    intros E. apply r_take_back_kept in E. rewrite E. reflexivity.
  - intros E. assert (m' = m) as -> by congruence. reflexivity.
Qed.
Lemma r_take_command_kept c q m q' m' r : take_command c q m = Some (q', m', r) -> rkept m' = rkept m.
Proof.
  destruct c; cbn [take_command];
    try (intros E; match type of E with Some (_, ?x, _) = _ => assert (m' = x) as -> by congruence end; reflexivity).
  destruct (obs_prediction_mode _ _) as [l| |]; [| |discriminate].
  - unfold assert. destruct (_ <? _); [|discriminate].
    intros E; match type of E with Some (_, ?x, _) = _ => assert (m' = x) as -> by congruence end; reflexivity.
  - intros E; match type of E with Some (_, ?x, _) = _ => assert (m' = x) as -> by congruence end; reflexivity.
Qed.
Lemma take_command_wants c q m q' m' r : take_command c q m = Some (q', m', r) -> r <> Some (Processed DNeedOut).
Proof.
  destruct c; cbn [take_command]; try (intros E; congruence).
  destruct (obs_prediction_mode _ _) as [l| |]; [| |discriminate].
  - unfold assert. destruct (_ <? _); [|discriminate]. congruence.
  - congruence.
Qed.
Lemma finish_ring skip m room o m' r : ring_ok (m_rec m) -> 0 <= room -> finish skip m room = Some (o, m', r) ->
  ring_ok (m_rec m') /\ (r = DNeedOut -> zlen o = room).
Proof.
  intros OK R. unfold finish. destruct (rflush (m_rec m) room) as [((res, o1), x)|] eqn:F; cbn [bind]; [|discriminate].
  apply flush_ring in F; [|exact OK|exact R]. destruct F as (F1 & F2). destruct res; intros E;
    match type of E with Some (?a, ?b, ?c) = _ => assert (o = a /\ m' = b /\ r = c) as (-> & -> & ->) by (repeat split; congruence) end;
    (split; [exact F1|]).
  - destruct (process_eof _ _ _); discriminate.
  - intros _. now apply F2.
  - discriminate.
Qed.
Section More.
Context (dict : dict_fn) (wl : word_len_fn) (D : dims) (skip : bool).
Lemma output_ring : forall fuel q m room o q' m' r, ring_ok (m_rec m) -> 0 <= room ->
  process_output dict skip fuel q m room = Some (o, q', m', r) ->
  ring_ok (m_rec m') /\ zlen o <= room /\ (r = Processed DNeedOut -> zlen o = room).
Proof.
  induction fuel as [|fuel IH]; intros q m room o q' m' r OK R; cbn [process_output]; [discriminate|].
  match goal with |- bind ?a _ = _ -> _ => destruct a as [(m1, ok)|] eqn:E1 end; cbn [bind]; [|discriminate].
  assert (K1 : rkept m1 = rkept m).
  { destruct (m_lit m) as [ls|] eqn:ML in E1.
    - destruct (content _ m) as [(m0, ok0)|] eqn:C in E1; cbn [bind] in E1; [|discriminate]. apply r_content_kept in C.
      destruct ok0.
      + destruct (m_lit m0) as [(sf, s)|]; [|discriminate].
        match type of E1 with Some (?x, _) = _ => assert (m1 = x) as -> by congruence end. exact C.
      + assert (m1 = m0) as -> by congruence. exact C.
    - assert (m1 = m) as -> by congruence. reflexivity. }
  clear E1. unfold rkept in K1. rewrite <- K1 in OK. clear K1. destruct (negb ok).
  { intros E. assert (o = [] /\ m' = m1 /\ r = Processed DNeedIn) as (-> & -> & ->) by (split; [|split]; congruence).
    split; [exact OK|]. split; [exact R|discriminate]. }
  match goal with |- bind ?a _ = _ -> _ => destruct a as [((o1, m2), rr)|] eqn:E2 end; cbn [bind]; [|discriminate].
  assert (K2 : ring_ok (m_rec m2) /\ zlen o1 <= room /\ (rr = ModelRecode.ONeedsMoreOutput -> zlen o1 = room)).
  { destruct (m_pop m1) as [c|].
    - destruct (encode_cmd _ _ _ _ _) as [((r0, o0), x)|] eqn:C in E2; cbn [bind] in E2; [|discriminate].
      apply cmd_ring in C; [|exact OK|exact R].
      match type of E2 with Some (_, ?x, _) = _ => assert (m2 = x /\ o1 = o0 /\ rr = r0) as (-> & -> & ->) by (repeat split; congruence) end. exact C.
    - assert (m2 = m1 /\ o1 = [] /\ rr = ModelRecode.OSuccess) as (-> & -> & ->) by (repeat split; congruence). split; [exact OK|]. split; [exact R|discriminate]. }
  clear E2. destruct K2 as (K2 & L1 & W1). destruct rr.
  - destruct (pull_commands q m2) as [((q3, m3), need)|] eqn:P; cbn [bind]; [|discriminate]. apply r_pull_kept in P. unfold rkept in P. rewrite <- P in K2. clear P.
    destruct need.
    { intros E. assert (o = o1 /\ m' = m3 /\ r = Processed DNeedIn) as (-> & -> & ->) by (split; [|split]; congruence).
      split; [exact K2|]. split; [exact L1|discriminate]. }
    destruct (m_cmds m3) as [|c cs].
    + destruct (m_eof m3).
      * destruct (finish skip m3 (room - zlen o1)) as [((o2, m4), r4)|] eqn:F; cbn [bind]; [|discriminate].
        pose proof (finish_kept _ _ (room - zlen o1) _ _ _ ltac:(lia) F) as (_ & L4 & _). apply finish_ring in F; [|exact K2|lia]. destruct F as (F1 & F2).
        intros E. assert (o = o1 ++ o2 /\ m' = m4 /\ r = Processed r4) as (-> & -> & ->) by (split; [|split]; congruence).
        rewrite zlen_app. split; [exact F1|]. split; [lia|]. intros E5. assert (r4 = DNeedOut) as H4 by congruence. specialize (F2 H4). lia.
      * intros E. assert (o = o1 /\ m' = m3 /\ r = Yield) as (-> & -> & ->) by (split; [|split]; congruence).
        split; [exact K2|]. split; [exact L1|discriminate].
    + destruct (take_command c q3 (m_set_cmds m3 cs)) as [((q4, m4), r4)|] eqn:T; cbn [bind]; [|discriminate].
      pose proof (take_command_wants _ _ _ _ _ _ T) as NS. apply r_take_command_kept in T.
      change (rkept (m_set_cmds m3 cs)) with (m_rec m3) in T. unfold rkept in T. rewrite <- T in K2. clear T.
      destruct r4 as [r4|].
      * intros E. assert (o = o1 /\ m' = m4 /\ r = r4) as (-> & -> & ->) by (split; [|split]; congruence).
        split; [exact K2|]. split; [exact L1|]. intros E5. congruence.
      * destruct (process_output dict skip fuel q4 m4 (room - zlen o1)) as [(((o2, q5), m5), r5)|] eqn:E5; cbn [bind]; [|discriminate].
        apply IH in E5; [|exact K2|lia]. destruct E5 as (K5 & L5 & G5).
        intros E. assert (o = o1 ++ o2 /\ m' = m5 /\ r = r5) as (-> & -> & ->) by (split; [|split]; congruence).
        rewrite zlen_app. split; [exact K5|]. split; [lia|]. intros H. specialize (G5 H). lia.
  - intros E. assert (o = o1 /\ m' = m2 /\ r = Processed DNeedOut) as (-> & -> & ->) by (split; [|split]; congruence).
    split; [exact K2|]. split; [exact L1|]. intros _. now apply W1.
  - intros E. assert (o = o1 /\ m' = m2 /\ r = Processed DFail) as (-> & -> & ->) by (split; [|split]; congruence).
    split; [exact K2|]. split; [exact L1|discriminate].
Qed.

(** ** Input.  [X] is everything consumed so far, header included. *)
Definition finv (header X : list Z) (m : main) : Prop :=
  ring_ok (m_rec m) /\ (length (m_trailer m) <= 8)%nat /\
  (is_done (eof (m_mux m)) = false -> m_trailer m = [] /\ exists W, X = header ++ W /\ framed W (to_deser (m_mux m)) (eof (m_mux m))).
(** the container is complete, its last eight bytes included *)
Definition closed (m : main) : Prop := is_done (eof (m_mux m)) = true /\ length (m_trailer m) = 8%nat.
Lemma closed_kept m m' : kept m' = kept m -> closed m -> closed m'.
Proof.
  unfold kept, closed. intros E. assert (m_trailer m' = m_trailer m /\ eof (m_mux m') = eof (m_mux m)) as (-> & ->) by (split; congruence). tauto.
Qed.
Lemma finv_kept header X m m' : kept m' = kept m -> ring_ok (m_rec m') -> finv header X m -> finv header X m'.
Proof.
  unfold kept, finv. intros E. assert (m_trailer m' = m_trailer m /\ eof (m_mux m') = eof (m_mux m) /\ to_deser (m_mux m') = to_deser (m_mux m))
    as (-> & -> & ->) by (repeat split; congruence). tauto.
Qed.
Definition unbroken (header Y : list Z) : Prop := forall W, Y = header ++ W -> ~ broken_mark W.
Lemma broken_more W V : broken_mark W -> broken_mark (W ++ V).
Proof.
  intros (pre & rest & -> & C & [(c & t & -> & N)|(c & t & -> & N)]); exists pre.
  - exists (255 :: c :: t ++ V). split; [now rewrite <- app_assoc|]. split; [exact C|]. left. now exists c, (t ++ V).
  - exists (255 :: 254 :: c :: t ++ V). split; [now rewrite <- app_assoc|]. split; [exact C|]. right. now exists c, (t ++ V).
Qed.
Lemma unbroken_less header Y V : unbroken header (Y ++ V) -> unbroken header Y.
Proof. intros U W -> BM. apply (U (W ++ V)); [now rewrite <- app_assoc|]. now apply broken_more. Qed.
Lemma input_more header X q m input n q' m' ok : finv header X m -> bytes input -> unbroken header (X ++ input) ->
  process_input skip q m input = Some (n, q', m', ok) ->
  finv header (X ++ zfirst n input) m' /\ (n = zlen input \/ closed m') /\ (closed m -> n = 0).
Proof.
  intros (OK & T8 & FR) B UB. unfold process_input.
  destruct (deserialize (m_mux m) input) as [(k, x)|] eqn:E1; cbn [bind]; [|discriminate].
  assert (FX : 0 <= k <= zlen input /\ (k = zlen input \/ is_done (eof x) = true) /\ (is_done (eof (m_mux m)) = true -> k = 0 /\ x = m_mux m) /\
     (is_done (eof x) = false -> m_trailer m = [] /\ exists W, X ++ zfirst k input = header ++ W /\ framed W (to_deser x) (eof x))).
  { destruct (is_done (eof (m_mux m))) eqn:DN.
    - rewrite (deserialize_done _ _ DN) in E1. assert (k = 0 /\ x = m_mux m) as (-> & ->) by (split; congruence).
      pose proof (zlen_nonneg input). split; [lia|]. split; [right; exact DN|]. split; [intros _; now split|]. intros H0. congruence.
    - destruct (FR eq_refl) as (TN & W & EX & FW).
      assert (NB : ~ broken_mark (W ++ input)) by (apply UB; subst X; now rewrite <- app_assoc).
      destruct (deser_framed _ _ _ _ _ _ FW B NB E1) as (F2 & RK & K2).
      split; [exact RK|]. split; [exact K2|]. split; [discriminate|]. intros _. split; [exact TN|]. exists (W ++ zfirst k input). split; [subst X; now rewrite <- app_assoc|exact F2]. }
  clear E1. destruct FX as (RK & K2 & KD & FX).
  set (crc := if skip then m_crc m else crc32c_update (m_crc m) (zfirst k input)).
  assert (MAIN : exists tr amt, (if is_done (eof x) then read_trailer (m_trailer m) (zskip k input) else (m_trailer m, 0%nat)) = (tr, amt) /\
     (length tr <= 8)%nat /\ (is_done (eof x) = false -> amt = 0%nat /\ tr = []) /\
     (k + Z.of_nat amt = zlen input \/ is_done (eof x) = true /\ length tr = 8%nat) /\ (length (m_trailer m) = 8%nat -> amt = 0%nat)).
  { destruct (is_done (eof x)) eqn:DN.
    - unfold read_trailer. eexists _, _. split; [reflexivity|]. rewrite app_length, firstn_length.
      pose proof (zlen_skip k input ltac:(lia)) as ZS. unfold zlen in ZS.
      split; [lia|]. split; [discriminate|]. split; [|lia].
      destruct (Nat.le_ge_cases (length (zskip k input)) (8 - length (m_trailer m))).
      + left. rewrite Nat.min_l by assumption. unfold zlen. unfold zlen in RK. lia.
      + right. split; [reflexivity|]. lia.
    - eexists _, _. split; [reflexivity|]. split; [exact T8|]. destruct (FX eq_refl) as (TN & _). split; [intros _; split; [reflexivity|exact TN]|].
      split; [left; destruct K2 as [->|]; [change (Z.of_nat 0) with 0; lia|discriminate]|reflexivity]. }
  destruct MAIN as (tr & amt & EQ & L8 & DF & EN & CL). rewrite EQ. clear EQ.
  assert (FIN : forall x' o, eof x' = eof x -> to_deser x' = to_deser x ->
     finv header (X ++ zfirst (k + Z.of_nat amt) input) (m_set_in m x' crc tr o) /\
     (k + Z.of_nat amt = zlen input \/ closed (m_set_in m x' crc tr o)) /\ (closed m -> k + Z.of_nat amt = 0)).
  { intros x' o H1 H2. unfold finv, closed. cbn [m_set_in m_mux m_rec m_trailer]. rewrite H1, H2. split; [|split].
    - split; [exact OK|]. split; [exact L8|]. intros DN. destruct (DF DN) as (-> & ->). change (Z.of_nat 0) with 0. rewrite Z.add_0_r.
      destruct (FX DN) as (_ & W & EW & FW). split; [reflexivity|]. now exists W.
    - exact EN.
    - intros (C1 & C2). destruct (KD C1) as (-> & _). rewrite (CL C2). reflexivity. }
  destruct (negb _).
  - destruct (q_push q (buf0 x)) as [q1|]; intros E;
      match type of E with Some (_, _, ?y, _) = _ => assert (n = k + Z.of_nat amt /\ m' = y) as (-> & ->) by (split; congruence) end;
      apply FIN; reflexivity.
  - intros E; match type of E with Some (_, _, ?y, _) = _ => assert (n = k + Z.of_nat amt /\ m' = y) as (-> & ->) by (split; congruence) end.
    apply FIN; reflexivity.
Qed.
Lemma process_more header : forall fuel X p input room n o p' r, cinv skip header X (p_m p) -> finv header X (p_m p) -> bytes input -> unbroken header (X ++ input) -> 0 <= room ->
  process dict wl D skip fuel p input room = Some (n, o, p', r) ->
  finv header (X ++ zfirst n input) (p_m p') /\ (n = zlen input \/ closed (p_m p')) /\ (closed (p_m p) -> n = 0 /\ closed (p_m p')) /\ (r = DNeedOut -> zlen o = room).
Proof.
  induction fuel as [|fuel IH]; intros X p input room n o p' r CI I B UB R; cbn [process]; [discriminate|].
  destruct (process_input skip (p_q p) (p_m p) input) as [(((k, q1), m1), ok)|] eqn:E1; cbn [bind]; [|discriminate].
  destruct (input_any skip header X _ _ _ _ _ _ _ CI B E1) as (RK & CI1).
  destruct (input_more header X _ _ _ _ _ _ _ I B UB E1) as (I1 & N1 & C1).
  assert (CC : closed (p_m p) -> closed m1).
  { intros CL. pose proof (C1 CL). destruct N1 as [N1|N1]; [|exact N1].
    assert (EI : input = []) by (apply zlen_0_nil; lia).
    clear - E1 CL EI. subst input. unfold process_input in E1. destruct CL as (C1 & C2). rewrite (deserialize_done _ _ C1) in E1. cbn [bind] in E1. rewrite C1 in E1.
    unfold read_trailer in E1. rewrite C2 in E1. cbn [Nat.sub] in E1. rewrite Nat.min_0_r in E1. cbn [firstn] in E1. rewrite app_nil_r in E1.
    destruct (negb _) in E1.
    - destruct (q_push (p_q p) _) in E1; match type of E1 with Some (_, _, ?y, _) = _ => assert (m1 = y) as -> by congruence end; split; assumption.
    - match type of E1 with Some (_, _, ?y, _) = _ => assert (m1 = y) as -> by congruence end; split; assumption. }
  clear E1.
  destruct (negb ok).
  { intros E. assert (n = k /\ o = [] /\ p' = PR (p_w p) q1 m1 /\ r = DNeedIn) as (-> & -> & -> & ->) by (repeat split; congruence).
    split; [exact I1|]. split; [exact N1|]. split; [intros CL; split; [exact (C1 CL)|exact (CC CL)]|discriminate]. }
  destruct (w_run wl D (S fuel) (p_w p) q1) as [((w, q2), wr)|]; cbn [bind]; [|discriminate].
  assert (REST : (if (match wr with WNeedIn => true | _ => false end) && (m_out m1 =? 0) then Some (k, [], PR w q2 m1, DNeedIn) else
          let? '(o, q, m, r) := process_output dict skip (S fuel) q2 m1 room in
          match r with
          | Processed r => Some (k, o, PR w q m, r)
          | Yield =>
              let? '(n2, o2, p, r) := process dict wl D skip fuel (PR w q m) (zskip k input) (room - zlen o) in
              Some (k + n2, o ++ o2, p, r)
          end) = Some (n, o, p', r) ->
     finv header (X ++ zfirst n input) (p_m p') /\ (n = zlen input \/ closed (p_m p')) /\ (closed (p_m p) -> n = 0 /\ closed (p_m p')) /\ (r = DNeedOut -> zlen o = room)).
  { destruct (_ && _).
    - intros E. assert (n = k /\ o = [] /\ p' = PR w q2 m1 /\ r = DNeedIn) as (-> & -> & -> & ->) by (repeat split; congruence).
      split; [exact I1|]. split; [exact N1|]. split; [intros CL; split; [exact (C1 CL)|exact (CC CL)]|discriminate].
    - destruct (process_output dict skip (S fuel) q2 m1 room) as [(((o3, q3), m3), r3)|] eqn:E3; cbn [bind]; [|discriminate].
      pose proof (output_any dict skip _ _ _ _ _ _ _ _ R E3) as (K3 & L3 & _). apply output_ring in E3; [|apply I1|exact R]. destruct E3 as (G1 & _ & G3).
      pose proof (cinv_kept skip header _ _ _ K3 CI1) as CI3. pose proof (finv_kept header _ _ _ K3 G1 I1) as I3.
      destruct r3 as [r3|].
      + intros E. assert (n = k /\ o = o3 /\ p' = PR w q3 m3 /\ r = r3) as (-> & -> & -> & ->) by (repeat split; congruence).
        split; [exact I3|]. split; [destruct N1 as [N1|N1]; [left; exact N1|right; exact (closed_kept _ _ K3 N1)]|].
        split; [intros CL; split; [exact (C1 CL)|exact (closed_kept _ _ K3 (CC CL))]|]. intros ->. now apply G3.
      + destruct (process dict wl D skip fuel (PR w q3 m3) (zskip k input) (room - zlen o3)) as [(((n4, o4), p4), r4)|] eqn:E4; cbn [bind]; [|discriminate].
        assert (RM : 0 <= room - zlen o3) by lia.
        pose proof (process_any dict wl D skip header fuel (X ++ zfirst k input) (PR w q3 m3) _ _ _ _ _ _ CI3 (bytes_zskip _ _ B) RM E4) as ((N4r & _) & _).
        apply (IH (X ++ zfirst k input)) in E4; [|exact CI3|exact I3|now apply bytes_zskip|now rewrite <- split_at|lia].
        destruct E4 as (I4 & N4 & C4 & G4). cbn [p_m] in C4.
        intros E. assert (n = k + n4 /\ o = o3 ++ o4 /\ p' = p4 /\ r = r4) as (-> & -> & -> & ->) by (repeat split; congruence).
        rewrite zfirst_plus by lia. rewrite app_assoc, zlen_app. split; [exact I4|]. split; [|split].
        * rewrite zlen_skip in N4 by lia. destruct N4 as [N4|N4]; [left; lia|now right].
        * intros CL. destruct (C4 (closed_kept _ _ K3 (CC CL))) as (-> & CL4). rewrite (C1 CL). split; [lia|exact CL4].
        * intros H. specialize (G4 H). lia. }
  destruct wr; try exact REST.
  intros E. assert (n = k /\ o = [] /\ p' = PR w q2 m1 /\ r = DFail) as (-> & -> & -> & ->) by (repeat split; congruence).
  split; [exact I1|]. split; [exact N1|]. split; [intros CL; split; [exact (C1 CL)|exact (CC CL)]|discriminate].
Qed.

(** ** The whole decompressor *)
Definition oinv (X : list Z) (d : decompressor) : Prop :=
  match d with
  | DHeader h => bytes X /\ hp_inv h X
  | DDecode p => exists header, length header = 16%nat /\ cinv skip header X (p_m p) /\ finv header X (p_m p)
  end.
Definition sealed (d : decompressor) : Prop := match d with DHeader _ => False | DDecode p => closed (p_m p) end.
Lemma oinv_new : oinv [] decompressor_new.
Proof. split; [constructor|apply hp_new_inv]. Qed.
Lemma unmarked header Y : length header = 16%nat -> ~ false_mark Y -> unbroken header Y.
Proof. intros L NF W -> BM. apply NF. exists header, W. split; [reflexivity|]. split; [exact L|exact BM]. Qed.
Lemma decode_more fuel X d input room n o d' r : oinv X d -> bytes input -> ~ false_mark (X ++ input) -> 0 <= room ->
  decode dict wl D skip fuel d input room = Some (n, o, d', r) -> r <> DFail ->
  oinv (X ++ zfirst n input) d' /\ (n = zlen input \/ sealed d') /\ (sealed d -> n = 0 /\ sealed d') /\ (r = DNeedOut -> zlen o = room).
Proof.
  intros I B NF R. unfold decode. destruct d as [h|p].
  - destruct I as (BX & I). pose proof (hp_any h X input I) as H. pose proof I as (LH & RO & LX & FX).
    destruct (hp_decode h input) as ((h', k), hr) eqn:HD. destruct H as (Lk & H).
    assert (EK : zfirst (Z.of_nat k) input = firstn k input) by (unfold zfirst; now rewrite Nat2Z.id).
    assert (BN : bytes (X ++ firstn k input)) by (apply Forall_app; split; [exact BX|now apply bytes_firstn]).
    assert (RK : 0 <= Z.of_nat k <= zlen input) by (unfold zlen; lia).
    destruct hr as [|e|ws].
    + intros E _. assert (n = Z.of_nat k /\ o = [] /\ d' = DHeader h' /\ r = DNeedIn) as (-> & -> & -> & ->) by (repeat split; congruence).
      rewrite EK. split; [split; [exact BN|exact H]|]. split; [|split; [intros []|discriminate]]. left.
      unfold hp_decode in HD. destruct (Nat.leb_spec (length (hp_header h) - hp_read_offset h) (length input)) as [LE|LT].
      * exfalso. destruct (parse_header _) eqn:P in HD; try congruence.
        clear - P. unfold parse_header in P. cbv zeta in P. repeat match type of P with (if ?b then _ else _) = _ => destruct b end; discriminate.
      * assert (k = length input) as -> by congruence. reflexivity.
    + intros E NE. exfalso. apply NE. congruence.
    + destruct H as (H1 & H2 & H3). apply (parse_header_ok _ ws H2) in H3. destruct H3 as (H3 & H4 & H5).
      assert (I0 : cinv skip (hp_header h') (X ++ firstn k input) (p_m (proc_new D skip (hp_header h') ws))).
      { split; [exact BN|]. split; [exact Logic.I|]. split; [intros NE; now elim NE|]. exists []. split.
        - cbn [p_m proc_new main_new m_trailer app]. now rewrite app_nil_r, H1.
        - intros SK. cbn [p_m proc_new main_new m_crc]. rewrite SK, app_nil_r. apply crc_update_ok; [rewrite H1; exact BN|lia]. }
      assert (J0 : finv (hp_header h') (X ++ firstn k input) (p_m (proc_new D skip (hp_header h') ws))).
      { split; [|split; [cbn [p_m proc_new main_new m_trailer length]; lia|]].
        - cbn [p_m proc_new main_new m_rec]. unfold ring_ok. cbn [rc_new di oi ring].
          assert (zlen (repeat 0 (Z.to_nat (2 ^ ws))) = 2 ^ ws) as -> by (unfold zlen; rewrite repeat_length; rewrite Z2Nat.id; [reflexivity|apply Z.pow_nonneg; lia]).
          pose proof (Z.pow_pos_nonneg 2 ws ltac:(lia) ltac:(lia)). lia.
        - intros _. split; [reflexivity|]. exists []. split; [now rewrite app_nil_r, H1|]. cbn [p_m proc_new main_new m_mux mux_new to_deser eof framed]. constructor. }
      destruct (Z.of_nat k <? zlen input) eqn:LT.
      * destruct (process dict wl D skip fuel _ (zskip (Z.of_nat k) input) room) as [(((n2, o2), p2), r2)|] eqn:E2; cbn [bind]; [|discriminate].
        pose proof (process_any dict wl D skip (hp_header h') fuel (X ++ firstn k input) _ _ _ _ _ _ _ I0 (bytes_zskip _ _ B) R E2) as (RN & _ & CI2 & _).
        apply (process_more (hp_header h') fuel (X ++ firstn k input)) in E2; [|exact I0|exact J0|now apply bytes_zskip| |exact R].
        2: { apply unmarked; [exact H2|]. rewrite <- EK, <- split_at. exact NF. }
        destruct E2 as (J2 & N2 & _ & G2). rewrite zlen_skip in N2, RN by lia.
        intros E _. assert (n = Z.of_nat k + n2 /\ o = o2 /\ d' = DDecode p2 /\ r = r2) as (-> & -> & -> & ->) by (repeat split; congruence).
        split; [|split; [|split; [intros []|exact G2]]].
        -- exists (hp_header h'). split; [exact H2|]. rewrite zfirst_plus, EK, app_assoc by lia. split; [exact CI2|exact J2].
        -- destruct N2 as [N2|N2]; [left; lia|right; exact N2].
      * apply Z.ltb_ge in LT. intros E _. assert (n = Z.of_nat k /\ o = [] /\ d' = DDecode (proc_new D skip (hp_header h') ws) /\ r = DNeedIn) as (-> & -> & -> & ->) by (repeat split; congruence).
        split; [|split; [left; lia|split; [intros []|discriminate]]].
        exists (hp_header h'). split; [exact H2|]. rewrite EK. split; [exact I0|exact J0].
  - destruct I as (header & L & CI & I).
    destruct (process dict wl D skip fuel p input room) as [(((n2, o2), p2), r2)|] eqn:E2; cbn [bind]; [|discriminate].
    pose proof (process_any dict wl D skip header fuel X _ _ _ _ _ _ _ CI B R E2) as (RN & _ & CI2 & _).
    apply (process_more header fuel X) in E2; [|exact CI|exact I|exact B|now apply unmarked|exact R]. destruct E2 as (J2 & N2 & C2 & G2).
    intros E _. assert (n = n2 /\ o = o2 /\ d' = DDecode p2 /\ r = r2) as (-> & -> & -> & ->) by (repeat split; congruence).
    split; [|split; [exact N2|split; [exact C2|exact G2]]]. exists header. split; [exact L|]. split; [exact CI2|exact J2].
Qed.
End More.
