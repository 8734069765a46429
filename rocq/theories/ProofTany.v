(** Support for C53: the two-threaded decompressor on input of any origin. *)
From Verif Require Import Prelude ProofList ProofZlist ModelAns ModelCdf ModelMux ModelCmd ModelCrc ModelHeader ModelRecode ModelPriors ModelCodec ModelLit ModelPm ModelTop ModelEnc ModelDec SpecLz SpecCrc SpecHeader SpecCheck ProofCrc ProofHeader ProofCheck ModelThread SpecTany.

Section Any.
Context (dict : dict_fn) (wl : word_len_fn) (D : dims) (skip : bool).
Definition hinv (X : list Z) (m : main) : Prop :=
  exists header, length header = 16%nat /\ firstn 4 header = [255; 229; 140; 159] /\ 10 <= nth 5 header 0 <= 24 /\ cinv skip header X m.
Lemma hinv_kept X m m' : kept m' = kept m -> hinv X m -> hinv X m'.
Proof. intros K (h & A & B & C & E). exists h. repeat (split; [assumption|]). exact (cinv_kept skip h X m m' K E). Qed.
(** the main thread in a call with this input and this space, [X] consumed before *)
Definition minv (X input : list Z) (room : Z) (t : mthread) : Prop :=
  hinv (X ++ zfirst (tm_n t) input) (tm_m t) /\ 0 <= tm_n t <= zlen input /\ tm_in t = zskip (tm_n t) input /\
  zlen (tm_out t) + tm_room t = room /\ 0 <= tm_room t /\
  (tm_pc t = MRet DSuccess -> process_eof skip (m_crc (tm_m t)) (m_trailer (tm_m t)) = EofSuccess).
Lemma minv_st X input room t st : minv X input room t -> minv X input room (tm_set_st t st).
Proof. exact (fun x => x). Qed.
Lemma front_any m room o m' r : 0 <= room -> output_front dict m room = Some (o, m', r) -> kept m' = kept m /\ zlen o <= room.
Proof.
  intros R. unfold output_front.
  match goal with |- bind ?a _ = _ -> _ => destruct a as [(m1, ok)|] eqn:E1 end; cbn [bind]; [|discriminate].
  assert (K1 : kept m1 = kept m).
  { destruct (m_lit m) as [ls|] eqn:ML in E1.
    - destruct (content _ m) as [(m0, ok0)|] eqn:C in E1; cbn [bind] in E1; [|discriminate]. apply content_kept in C.
      destruct ok0.
      + destruct (m_lit m0) as [(sf, s)|]; [|discriminate].
        match type of E1 with Some (?x, _) = _ => assert (m1 = x) as -> by congruence end. exact C.
      + assert (m1 = m0) as -> by congruence. exact C.
    - assert (m1 = m) as -> by congruence. reflexivity. }
  clear E1. destruct (negb ok).
  { intros E. assert (o = [] /\ m' = m1) as (-> & ->) by (split; congruence). split; [exact K1|exact R]. }
  destruct (m_pop m1) as [c|].
  - destruct (encode_cmd _ _ _ _ _) as [((r0, o0), x)|] eqn:C; cbn [bind]; [|discriminate].
    apply cmd_room in C; [|exact R].
    intros E. match type of E with Some (_, ?x, _) = _ => assert (m' = x /\ o = o0) as (-> & ->) by (split; congruence) end. split; [exact K1|exact C].
  - intros E. assert (m' = m1 /\ o = []) as (-> & ->) by (split; congruence). split; [exact K1|exact R].
Qed.
Lemma minv_go X input room t m pc : minv X input room t -> kept m = kept (tm_m t) -> pc <> MRet DSuccess -> minv X input room (tm_go t m pc).
Proof.
  intros (H & N & I & O & R & _) K NS. split; [exact (hinv_kept _ _ _ K H)|]. repeat (split; [assumption|]). intros E. contradiction.
Qed.
Lemma minv_put X input room t m pc o : minv X input room t -> kept m = kept (tm_m t) -> zlen o <= tm_room t ->
  (pc = MRet DSuccess -> process_eof skip (m_crc m) (m_trailer m) = EofSuccess) -> minv X input room (tm_put t m pc o).
Proof.
  intros (H & N & I & O & R & _) K L NS. split; [exact (hinv_kept _ _ _ K H)|]. cbn [tm_put tm_n tm_in tm_out tm_room tm_pc tm_m].
  split; [exact N|]. split; [exact I|]. rewrite zlen_app. split; [lia|]. split; [lia|exact NS].
Qed.
Lemma mstep_any X input room s t s' t' note : bytes input -> minv X input room t -> in_call t = true ->
  mstep dict skip s t = Some (s', t', note) -> minv X input room t'.
Proof.
  intros B I IC. unfold mstep. destruct (tm_pc t) as [r0| | | | |[|dat bufs] need bad|p] eqn:PC.
  - unfold in_call in IC. rewrite PC in IC. discriminate.
  - destruct (process_input skip (sh_q s) (tm_m t) (tm_in t)) as [(((k, q1), m1), ok)|] eqn:E1; cbn [bind]; [|discriminate].
    pose proof I as ((h & A1 & A2 & A3 & C) & N & EI & O & R & _).
    assert (BI : bytes (tm_in t)) by (rewrite EI; apply bytes_zskip; exact B).
    destruct (input_any skip h _ _ _ _ _ _ _ _ C BI E1) as (RK & I1).
    rewrite EI in RK, I1. rewrite zlen_skip in RK by lia. intros [= <- <- _].
    split; [|split; [|split; [|split; [|split]]]]; cbn [tm_n tm_in tm_out tm_room tm_pc tm_m].
    + exists h. repeat (split; [assumption|]). rewrite zfirst_plus by lia. rewrite app_assoc. exact I1.
    + lia.
    + rewrite EI. apply zskip_zskip; lia.
    + exact O.
    + exact R.
    + destruct (negb ok); [discriminate|]. destruct (receiving m1); discriminate.
  - destruct (output_front dict (tm_m t) (tm_room t)) as [((o, m1), r)|] eqn:E1; cbn [bind]; [|discriminate].
    pose proof I as (_ & _ & _ & _ & R & _). destruct (front_any _ _ _ _ _ R E1) as (K & L). intros [= <- <- _].
    apply minv_put; auto. destruct r; discriminate.
  - assert (STEP : forall c cs, m_cmds (tm_m t) = c :: cs -> (let? '(q, m, r) := take_command c (sh_q s) (m_set_cmds (tm_m t) cs) in Some (sh_set_q s q, tm_go t m MOut, false)) = Some (s', t', note) -> minv X input room t').
    { intros c cs EC. destruct (take_command c (sh_q s) (m_set_cmds (tm_m t) cs)) as [((q, m1), r)|] eqn:T; cbn [bind]; [|discriminate].
      apply take_command_kept in T. intros [= <- <- _]. apply minv_go; [exact I|exact T|discriminate]. }
    destruct (m_cmds (tm_m t)) as [|c cs] eqn:EC.
    + destruct (m_eof (tm_m t)).
      * destruct (finish skip (tm_m t) (tm_room t)) as [((o, m1), r)|] eqn:F; cbn [bind]; [|discriminate].
        pose proof I as (_ & _ & _ & _ & R & _). destruct (finish_kept skip _ _ _ _ _ R F) as (K & L & G). intros [= <- <- _].
        apply minv_put; auto. intros E. apply G. congruence.
      * intros [= <- <- _]. apply minv_go; [exact I|reflexivity|discriminate].
    + destruct c; try exact (STEP _ _ eq_refl).
      destruct (obs_prediction_mode (m_lbk (m_set_cmds (tm_m t) cs)) (fst (m_pred (tm_m t)))) as [l|e|] eqn:OB; cbn [m_set_cmds m_set_pred m_lbk] in OB |- *; rewrite ?OB; try discriminate;
        intros [= <- <- _]; (apply minv_go; [exact I|reflexivity|discriminate]).
  - destruct (negb (has_speeds (fst (m_pred (tm_m t)))) && negb (has_speeds (snd (m_pred (tm_m t))))); cbn [assert]; [|discriminate].
    destruct (result_ready s).
    + match goal with |- assert ?b _ = _ -> _ => destruct b end; cbn [assert]; [|discriminate]. intros [= <- <- _]. apply minv_go; [exact I|reflexivity|discriminate].
    + destruct (sh_err s); intros [= <- <- _]; [apply minv_go; [exact I|reflexivity|discriminate]|].
      destruct I as (H & N & E & O & R & G). repeat (split; [assumption|]). cbn [tm_sleep tm_pc tm_m]. exact G.
  - intros [= <- <- _]. apply minv_go; [exact I|reflexivity|]. destruct bad; [discriminate|]. destruct need; [discriminate|]. destruct (m_cmds (tm_m t)); [destruct (m_eof (tm_m t))|]; discriminate.
  - destruct (1 <=? m_out (tm_m t)); cbn [assert]; [|discriminate].
    destruct (q_push (sh_q s) (buf0 (m_mux (tm_m t)))) as [q1|]; intros [= <- <- _]; (apply minv_go; [exact I|apply kept_buf|discriminate]).
  - destruct (zlen (q_cm (sh_q s)) <? 2); intros [= <- <- _]; [apply minv_go; [exact I|reflexivity|discriminate]|].
    destruct I as (H & N & E & O & R & G). repeat (split; [assumption|]). cbn [tm_sleep tm_pc tm_m]. exact G.
Qed.
(** ** Sessions *)
Definition yinv (offer : list Z) (s : ysess) : Prop :=
  let X := taken (y_log s) in
  Forall within (y_log s) /\
  Forall (fun c => bytes (fst c) /\ 0 <= snd c) (y_calls s) /\
  ((exists c, In c (y_log s) /\ c_res c = DSuccess) -> y_over s = true /\ intact skip X) /\
  match y_call s with
  | Some (input, room) =>
      y_over s = false /\ bytes input /\ offer = X ++ input ++ concat (map fst (y_calls s)) /\
      match y_d s with PHeader _ => False | PDecode x => minv X input room (wd_m x) end
  | None =>
      bytes (y_rest s) /\ offer = X ++ y_rest s ++ concat (map fst (y_calls s)) /\
      (y_over s = false -> match y_d s with PHeader h => bytes X /\ hp_inv h X | PDecode x => hinv X (tm_m (wd_m x)) end)
  end.
Lemma taken_snoc l c : taken (l ++ [c]) = taken l ++ zfirst (c_used c) (c_in c).
Proof. unfold taken. rewrite map_app, concat_app. cbn [map concat]. now rewrite app_nil_r. Qed.
Lemma intact_end2 X m : hinv X m -> process_eof skip (m_crc m) (m_trailer m) = EofSuccess -> intact skip X.
Proof.
  intros H S. exact (intact_end skip X (PR (worker_new D) squeue_new m) H S).
Qed.
Lemma returned_inv offer d input room calls log n o r :
  Forall within log -> (~ exists c, In c log /\ c_res c = DSuccess) -> Forall (fun c => bytes (fst c) /\ 0 <= snd c) calls -> bytes input ->
  offer = taken log ++ input ++ concat (map fst calls) -> 0 <= n <= zlen input -> zlen o <= room ->
  (r = DSuccess -> intact skip (taken log ++ zfirst n input)) ->
  (r <> DFail -> match d with PHeader h => bytes (taken log ++ zfirst n input) /\ hp_inv h (taken log ++ zfirst n input) | PDecode x => hinv (taken log ++ zfirst n input) (tm_m (wd_m x)) end) ->
  yinv offer (y_returned d input room calls log n o r).
Proof.
  intros W NS FC B EO N O S I. unfold yinv, y_returned. cbn [y_log y_calls y_over y_call y_rest y_d]. rewrite taken_snoc. cbn [c_used c_in].
  split; [apply Forall_app; split; [exact W|constructor; [split; assumption|constructor]]|]. split; [exact FC|]. split; [|split; [|split]].
  - intros (c & IN & E). apply in_app_or in IN. destruct IN as [IN|[<-|[]]]; [elim NS; exists c; auto|]. cbn [c_res] in E. subst r. split; [reflexivity|apply S; reflexivity].
  - apply bytes_zskip. exact B.
  - rewrite EO, <- app_assoc. f_equal. rewrite app_assoc, zfirst_skip. reflexivity.
  - intros E. apply I. intros ->. discriminate.
Qed.
Lemma event_any offer e s s' : yinv offer s -> yevent dict wl D skip e s = Some s' -> yinv offer s'.
Proof.
  intros I. unfold yevent. pose proof I as (W & FC & S & J). destruct (y_over s) eqn:OV; [intros [= <-]; exact I|].
  destruct (y_call s) as [(input, room)|] eqn:YC.
  - destruct J as (_ & B & EO & J). destruct (y_d s) as [h|x] eqn:YD; [contradiction J|].
    assert (NS : ~ exists c, In c (y_log s) /\ c_res c = DSuccess) by (intros C; destruct (S C) as (C1 & _); discriminate C1).
    assert (MI : forall x', step dict wl D skip e x = Some x' -> minv (taken (y_log s)) input room (wd_m x')).
    { intros x' E. unfold step in E. destruct e.
      - assert (GO : (if in_call (wd_m x) then let? '(s0, m, note) := mstep dict skip (leave_wait (tm_st (wd_m x)) (wd_sh x)) (tm_set_st (wd_m x) Awake) in Some (WD s0 (if note then tw_set_st (wd_w x) (wake (tw_st (wd_w x))) else wd_w x) m) else Some x) = Some x' -> minv (taken (y_log s)) input room (wd_m x')).
        { destruct (in_call (wd_m x)) eqn:IC; [|intros [= <-]; exact J].
          destruct (mstep dict skip (leave_wait (tm_st (wd_m x)) (wd_sh x)) (tm_set_st (wd_m x) Awake)) as [((s0, m0), nt)|] eqn:M; cbn [bind]; [|discriminate].
          intros [= <-]. cbn [wd_m]. exact (mstep_any _ _ _ _ _ _ _ _ B (minv_st _ _ _ _ Awake J) IC M). }
        destruct (tm_st (wd_m x)); [exact (GO E)|injection E as <-; exact J|exact (GO E)].
      - destruct (tw_st (wd_w x)); try (injection E as <-; exact J).
        all: destruct (ended (wd_w x)); [injection E as <-; exact J|].
        all: match type of E with bind ?a _ = _ => destruct a as [((s0, w0), nt)|]; cbn [bind] in E; [|discriminate] end; injection E as <-; cbn [wd_m]; destruct nt; [apply minv_st|]; exact J.
      - injection E as <-. apply minv_st. exact J.
      - injection E as <-. exact J. }
    assert (STEP : (let? x := step dict wl D skip e x in
          match Some (input, room), tm_pc (wd_m x) with
          | Some (input, room), MRet r => Some (y_returned (PDecode x) input room (y_calls s) (y_log s) (tm_n (wd_m x)) (tm_out (wd_m x)) r)
          | c, _ => Some (YS (PDecode x) c (y_rest s) (y_calls s) (y_log s) false)
          end) = Some s' -> yinv offer s').
    { destruct (step dict wl D skip e x) as [x'|] eqn:E; cbn [bind]; [|discriminate]. specialize (MI x' eq_refl).
      assert (STAY : yinv offer (YS (PDecode x') (Some (input, room)) (y_rest s) (y_calls s) (y_log s) false)).
      { unfold yinv. cbn [y_log y_calls y_over y_call y_rest y_d]. repeat (split; [assumption|]). split; [reflexivity|]. repeat (split; [assumption|]). exact MI. }
      destruct (tm_pc (wd_m x')) as [r| | | | | |] eqn:PC; intros E'; injection E' as <-; try exact STAY.
      destruct MI as (H & N & EI & O & R & G).
      apply returned_inv; auto; [lia|]. intros ->. exact (intact_end2 _ _ H (G PC)). }
    destruct e; exact STEP.
  - destruct J as (B & EO & J).
    assert (BG : match y_d s with
      | PHeader _ => Some s
      | PDecode x =>
          let? x := step dict wl D skip e x in
          match @None (list Z * Z), tm_pc (wd_m x) with
          | Some (input, room), MRet r => Some (y_returned (PDecode x) input room (y_calls s) (y_log s) (tm_n (wd_m x)) (tm_out (wd_m x)) r)
          | c, _ => Some (YS (PDecode x) c (y_rest s) (y_calls s) (y_log s) false)
          end
      end = Some s' -> e <> ByMain -> yinv offer s').
    { intros E NM. destruct (y_d s) as [h|x] eqn:YD; [injection E as <-; exact I|].
      destruct (step dict wl D skip e x) as [x'|] eqn:ES; cbn [bind] in E; [|discriminate]. injection E as <-.
      assert (TM : tm_m (wd_m x') = tm_m (wd_m x)).
      { unfold step in ES. destruct e; [contradiction NM; reflexivity| | |].
        - destruct (tw_st (wd_w x)); try (injection ES as <-; reflexivity).
          all: destruct (ended (wd_w x)); [injection ES as <-; reflexivity|].
          all: match type of ES with bind ?a _ = _ => destruct a as [((s0, w0), nt)|]; cbn [bind] in ES; [|discriminate] end; injection ES as <-; cbn [wd_m]; destruct nt; reflexivity.
        - injection ES as <-. reflexivity.
        - injection ES as <-. reflexivity. }
      unfold yinv. cbn [y_log y_calls y_over y_call y_rest y_d]. repeat (split; [assumption|]). rewrite TM. exact J. }
    destruct e; try (intros E; apply BG; [exact E|discriminate]). clear BG.
    specialize (J eq_refl).
    assert (NS : ~ exists c, In c (y_log s) /\ c_res c = DSuccess) by (intros C; destruct (S C) as (C1 & _); discriminate C1).
    destruct (y_calls s) as [|(piece, room) calls]; [intros [= <-]; exact I|].
    apply Forall_cons_iff in FC. destruct FC as ((BP & R) & FC). cbn [fst snd] in BP, R. cbn [map concat fst] in EO.
    set (input := y_rest s ++ piece).
    assert (BI : bytes input) by (apply Forall_app; split; assumption).
    assert (EO2 : offer = taken (y_log s) ++ input ++ concat (map fst calls)) by (unfold input; rewrite <- app_assoc; exact EO). clear EO.
    unfold begin_call. destruct (y_d s) as [h|x].
    + destruct J as (BX & HI). pose proof (hp_any h (taken (y_log s)) input HI) as H.
      destruct (hp_decode h input) as ((h', k), hr). destruct H as (Lk & H).
      assert (EK : zfirst (Z.of_nat k) input = firstn k input) by (unfold zfirst; now rewrite Nat2Z.id).
      assert (BN : bytes (taken (y_log s) ++ firstn k input)) by (apply Forall_app; split; [exact BX|now apply bytes_firstn]).
      assert (RK : 0 <= Z.of_nat k <= zlen input) by (unfold zlen; lia).
      destruct hr as [|err|ws].
      * intros [= <-]. apply returned_inv; auto; [discriminate|]. intros _. rewrite EK. split; [exact BN|exact H].
      * intros [= <-]. apply returned_inv; auto; [discriminate|congruence].
      * destruct H as (H1 & H2 & H3). pose proof (proj1 (parse_header_ok _ ws H2) H3) as (P3 & P4 & P5).
        assert (I0 : hinv (taken (y_log s) ++ firstn k input) (main_new (if skip then 0 else crc32c_update 0 (hp_header h')) ws)).
        { exists (hp_header h'). rewrite P4. split; [exact H2|]. split; [exact P3|]. split; [exact P5|].
          split; [exact BN|]. split; [exact Logic.I|]. split; [intros NE; now elim NE|]. exists []. split.
          - cbn [main_new m_trailer app]. now rewrite app_nil_r, H1.
          - intros SK. cbn [main_new m_crc]. rewrite SK, app_nil_r. apply crc_update_ok; [rewrite H1; exact BN|lia]. }
        destruct (Z.of_nat k <? zlen input).
        -- intros [= <-]. unfold yinv. cbn [y_log y_calls y_over y_call y_rest y_d world_new wd_m]. repeat (split; [assumption|]). split; [reflexivity|]. split; [exact BI|]. split; [exact EO2|].
           split; [cbn [tm_n tm_m]; rewrite EK; exact I0|]. cbn [tm_n tm_in tm_out tm_room tm_pc]. change (zlen (@nil Z)) with 0.
           split; [exact RK|]. split; [reflexivity|]. split; [lia|]. split; [exact R|discriminate].
        -- intros [= <-]. apply returned_inv; auto; [discriminate|]. intros _. rewrite EK. exact I0.
    + intros [= <-]. unfold yinv. cbn [y_log y_calls y_over y_call y_rest y_d world_new wd_m]. repeat (split; [assumption|]). split; [reflexivity|]. split; [exact BI|]. split; [exact EO2|].
      unfold minv. cbn [tm_n tm_in tm_out tm_room tm_pc tm_m]. rewrite zskip_0. change (zlen (@nil Z)) with 0. change (zfirst 0 input) with (@nil Z). rewrite app_nil_r.
      split; [exact J|]. split; [pose proof (zlen_nonneg input); lia|]. split; [reflexivity|]. split; [lia|]. split; [exact R|discriminate].
Qed.
Lemma run_any offer : forall sched s s', yinv offer s -> yrun dict wl D skip sched s = Some s' -> yinv offer s'.
Proof.
  induction sched as [|e sched IH]; intros s s' I; cbn [yrun]; [intros [= <-]; exact I|].
  destruct (yevent dict wl D skip e s) as [s1|] eqn:E; cbn [bind]; [|discriminate]. apply IH. exact (event_any offer e s s1 I E).
Qed.
Lemma yinv_new calls : Forall (fun c => bytes (fst c) /\ 0 <= snd c) calls -> yinv (concat (map fst calls)) (ysess_new calls).
Proof.
  intros F. unfold yinv, ysess_new. cbn [y_log y_calls y_over y_call y_rest y_d pdec_new]. split; [constructor|]. split; [exact F|]. split; [intros (c & [] & _)|].
  split; [constructor|]. split; [reflexivity|]. intros _. split; [constructor|]. apply hp_new_inv.
Qed.
End Any.
