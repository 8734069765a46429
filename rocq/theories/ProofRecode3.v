(** Whole command lists through the recoder. *)
From Verif Require Import Prelude ProofList ModelMux ModelCmd ModelRecode SpecLz ProofZlist ProofRecode ProofRecode2.

Section Replay.
Variable dict : dict_fn.

Lemma dict_no_wait r ws wid tr fs r' : unf r = 0 -> replayable dict (len r) (Dict ws wid tr fs) ->
  parse_command dict r (Dict ws wid tr fs) <> Some (ONeedsMoreOutput, r').
Proof.
  intros U (w & EW & WL & FS). cbn [parse_command]. unfold parse_dictionary. rewrite EW. cbn [bind].
  pose proof (space_unf r). destruct (Z.ltb_spec (space_left r) (zlen w)); [lia|].
  destruct (negb (fs =? 0) && negb (zlen w =? fs)); [discriminate|]. unfold assert.
  destruct (negb (sub r =? 0)); [destruct (sub r =? zlen w); discriminate|].
  destruct (copy_to_ring r w) as [[k rr]|]; [|discriminate]. cbn [bind]. destruct (k =? zlen w); discriminate.
Qed.

Definition need (r : rcs) h0 c : nat :=
  match c with Dict _ _ _ _ => 1 | _ => S (Z.to_nat (rest dict r h0 c)) end.

Lemma commands_loop_spec c h0 : forall fuel r h e room, 1 < len r -> replayable dict (len r) c -> mid dict r h0 c h e -> 0 <= room ->
  (need r h0 c <= fuel)%nat ->
  exists res o r', commands_loop fuel dict r c room = Some (res, o, r') /\ len r' = len r /\ zlen o <= room /\
    total_offset r' = total_offset r + zlen o /\
    match res with
    | OSuccess => idle r' (h0 ++ eff dict h0 c) (e ++ o)
    | ONeedsMoreOutput => (exists h', mid dict r' h0 c h' (e ++ o)) /\ zlen o = room
    | OFailure => False
    end.
Proof.
  induction fuel as [|fuel IH]; intros r h e room LR V (P & W & EM) R F.
  { exfalso. unfold need in F. destruct c; lia. }
  cbn [commands_loop]. pose proof P as (K & _).
  destruct (rflush_spec r h room K R) as (fres & o & r2 & E2 & K2 & RI & SB & DI & OO & U2 & OL & T2 & FR).
  rewrite E2. cbn [bind].
  assert (M2 : mid dict r2 h0 c h (e ++ o)).
  { split; [eapply part_flush; eauto|]. split; [eapply whole_sub; eauto|]. exact (emitted_flush r _ _ room o r2 K R EM RI DI OO OL U2). }
  assert (L2 : len r2 = len r) by (unfold len; rewrite RI; reflexivity).
  destruct FR as [(-> & U0)|(-> & U0 & OR)].
  2: { exists ONeedsMoreOutput, o, r2. split; [reflexivity|]. split; [exact L2|]. split; [lia|]. split; [lia|]. split; [exists h; exact M2|exact OR]. }
  rewrite <- L2 in LR, V.
  destruct (parse_step dict r2 h0 c h LR V ltac:(apply M2) ltac:(apply M2)) as (res & r3 & E3 & (x & P3 & U3 & (O3 & L3 & T3) & S3 & X3) & W3).
  rewrite E3. cbn [bind].
  assert (M3 : mid dict r3 h0 c (h ++ x) (e ++ o)).
  { split; [exact P3|]. split; [exact W3|]. apply (emitted_parse r2 h (e ++ o) r3 x (h ++ x)); auto; [apply P3|apply M2]. }
  destruct res; [|clear X3|contradiction].
  - exists OSuccess, o, (set_sub r3 0). split; [reflexivity|]. split; [change (len r3 = len r); congruence|]. split; [lia|].
    split; [change (total_offset r3 = total_offset r + zlen o); lia|]. apply (mid_idle _ _ _ _ _ _ M3 X3).
  - destruct (parse_step dict r2 h0 c h LR V ltac:(apply M2) ltac:(apply M2)) as (res' & r3' & E3' & (x' & P3' & U3' & SM' & S3' & X3') & W3').
    rewrite E3 in E3'. injection E3' as <- <-. specialize (X3' U0).
    destruct (IH r3 (h ++ x) (e ++ o) (room - zlen o)) as (res & o2 & r4 & E4 & L4 & R4 & T4 & X4).
    + lia.
    + rewrite L3. exact V.
    + exact M3.
    + lia.
    + destruct c; cbn [need] in *; try (unfold rest in *; destruct P3 as (_ & Q & _); rewrite SB in *; lia).
      exfalso. exact (dict_no_wait _ _ _ _ _ _ U0 V E3).
    + rewrite E4. cbn [bind]. exists res, (o ++ o2), r4. rewrite zlen_app. split; [reflexivity|]. split; [congruence|]. split; [lia|]. split; [lia|].
      rewrite app_assoc. destruct res; [exact X4|split; [apply X4|lia]|exact X4].
Qed.

Lemma need_fuel r h0 c h e : mid dict r h0 c h e -> (need r h0 c <= cmd_fuel dict c)%nat.
Proof.
  intros ((_ & S & _) & _). destruct (eff_fuel dict h0 c (or_intror Logic.I)) as [F|(a & b & d & f & ->)]; [|cbn; lia].
  destruct c; cbn [need]; try (unfold rest; lia).
Qed.

(** state in front of a list of commands *)
Definition st (r : rcs) (cs : list command) (h0 e : list Z) : Prop :=
  match cs with [] => idle r h0 e | c :: _ => exists h, mid dict r h0 c h e end.
Lemma idle_st r h e cs : idle r h e -> st r cs h e.
Proof. intros I. destruct cs; [exact I|]. exists h. apply idle_mid. exact I. Qed.
Lemma mid_prefix r h0 c h e : mid dict r h0 c h e -> exists y, h0 ++ eff dict h0 c = e ++ y.
Proof.
  intros ((K & S & H) & W & E & _).
  exists (zskip (zlen h - unf r) h ++ zskip (sub r) (eff dict h0 c)). rewrite app_assoc, E, zfirst_skip, H, <- app_assoc, zfirst_skip. reflexivity.
Qed.
Lemma idle_prefix r h e : idle r h e -> exists y, h = e ++ y.
Proof. intros (K & S & E & _). exists (zskip (zlen h - unf r) h). rewrite E, zfirst_skip. reflexivity. Qed.
Lemma st_prefix r cs h0 e : st r cs h0 e -> exists y, h0 ++ meaning dict h0 cs = e ++ y.
Proof.
  destruct cs as [|c cs]; cbn [st meaning].
  - intros I. rewrite app_nil_r. eapply idle_prefix; eauto.
  - intros (h & M). destruct (mid_prefix _ _ _ _ _ M) as (y & Y). unfold eff in Y. rewrite app_assoc, Y. exists (y ++ meaning dict (e ++ y) cs). rewrite <- app_assoc. reflexivity.
Qed.
Lemma meaning_cons h0 c cs : h0 ++ meaning dict h0 (c :: cs) = (h0 ++ eff dict h0 c) ++ meaning dict (h0 ++ eff dict h0 c) cs.
Proof. cbn [meaning]. unfold eff. rewrite app_assoc. reflexivity. Qed.

Definition valid (len : Z) (cs : list command) := Forall (replayable dict len) cs.

(** flush at the end *)
Lemma flush_done r h e n : idle r h e -> 0 <= n ->
  exists res o r', rflush r n = Some (res, o, r') /\ idle r' h (e ++ o) /\ len r' = len r /\ total_offset r' = total_offset r + zlen o /\ zlen o <= n /\
   (res = OSuccess /\ e ++ o = h \/ res = ONeedsMoreOutput /\ zlen o = n).
Proof.
  intros (K & S & EM) N.
  destruct (rflush_spec r h n K N) as (fres & o & r2 & E2 & K2 & RI & SB & DI & OO & U2 & OL & T2 & FR).
  pose proof (emitted_flush r _ _ n o r2 K N EM RI DI OO OL U2) as EM2.
  exists fres, o, r2. split; [exact E2|]. split; [split; [exact K2|split; [lia|exact EM2]]|]. split; [unfold len; rewrite RI; reflexivity|].
  split; [exact T2|]. split; [lia|].
  destruct FR as [(-> & U0)|(-> & U0 & OR)]; [left|right; auto]. split; [reflexivity|]. destruct EM2 as (EM2 & _). rewrite U0 in EM2.
  rewrite EM2. apply zfirst_all. lia.
Qed.

Record outcome (r : rcs) (cs : list command) (h0 e : list Z) (rooms : list nat) (out : list Z) (r' : rcs) (left : list command) (fin : bool) : Prop := {
  out_prefix : exists y, h0 ++ meaning dict h0 cs = (e ++ out) ++ y;
  out_done : fin = true -> left = [] /\ e ++ out = h0 ++ meaning dict h0 cs;
  out_total : total_offset r' = total_offset r + zlen out;
  out_room : zlen out <= Z.of_nat (list_sum rooms);
  out_suffix : exists done, cs = done ++ left;
  out_idle : fin = true -> idle r' (h0 ++ meaning dict h0 cs) (e ++ out);
  out_len : len r' = len r
  }.

Lemma replay_spec : forall rooms cs r h0 e, 1 < len r -> valid (len r) cs -> st r cs h0 e ->
  exists out r' left fin, replay dict r cs rooms = Some (RR out r' left fin) /\ outcome r cs h0 e rooms out r' left fin /\
   (fin = false -> Forall (fun n => 0 < n)%nat rooms -> zlen e + Z.of_nat (length rooms) <= Z.of_nat (length cs) + zlen (h0 ++ meaning dict h0 cs)).
Proof.
  induction rooms as [|n rooms IH]; intros cs r h0 e LR V ST.
  { exists [], r, cs, false. split; [reflexivity|]. destruct (st_prefix _ _ _ _ ST) as (y & Y). split.
    - constructor; [rewrite app_nil_r; eauto|discriminate|change (zlen (@nil Z)) with 0; lia|reflexivity|exists []; reflexivity|discriminate|reflexivity].
    - intros _ _. rewrite Y, zlen_app. pose proof (zlen_nonneg y). cbn [length]. lia. }
  cbn [replay]. destruct cs as [|c cs'].
  - destruct (flush_done r h0 e (Z.of_nat n) ST ltac:(lia)) as (res & o & r1 & E & I1 & L1 & T1 & OL & X).
    rewrite E. cbn [bind]. cbn [meaning]. rewrite app_nil_r. destruct X as [(-> & X)|(-> & X)].
    + exists o, r1, [], true. split; [reflexivity|]. split; [|discriminate].
      constructor; [exists []; cbn [meaning]; rewrite !app_nil_r; auto|intros _; cbn [meaning]; rewrite app_nil_r; auto|exact T1|cbn [list_sum fold_right]; unfold list_sum; cbn; lia|exists []; reflexivity|intros _; cbn [meaning]; rewrite app_nil_r; exact I1|exact L1].
    + destruct (IH [] r1 h0 (e ++ o)) as (o2 & r2 & l & f & E2 & [P D T RM SF II LL] & N2); [lia|constructor|exact I1|].
      rewrite E2. cbn [bind]. exists (o ++ o2), r2, l, f. split; [reflexivity|]. cbn [meaning] in *. rewrite app_nil_r in *. split.
      * constructor; cbn [meaning]; rewrite ?app_nil_r, ?zlen_app.
        -- destruct P as (y & P). exists y. rewrite P, <- !app_assoc. reflexivity.
        -- intros F. destruct (D F) as (A & B). split; [exact A|]. rewrite <- app_assoc in B. exact B.
        -- lia.
        -- unfold list_sum in *. cbn [fold_right]. lia.
        -- exact SF.
        -- intros F. rewrite app_assoc. exact (II F).
        -- lia.
      * intros F G. pose proof (Forall_inv G) as G1. pose proof (Forall_inv_tail G) as G2. cbv beta in G1. specialize (N2 F G2). rewrite zlen_app in N2. cbn [length] in *. lia.
  - destruct ST as (h & M). pose proof (Forall_inv V) as V1. pose proof (Forall_inv_tail V) as V2.
    destruct (encode_cmd_spec dict c h0 r h e (Z.of_nat n) LR V1 M ltac:(lia)) as (res & o & r1 & E & L1 & OL & T1 & X).
    rewrite E. cbn [bind]. rewrite meaning_cons. destruct res; [|destruct X as ((h' & X) & OR)|contradiction].
    + destruct (IH cs' r1 (h0 ++ eff dict h0 c) (e ++ o)) as (o2 & r2 & l & f & E2 & [P D T RM SF II LL] & N2); [lia|rewrite L1; exact V2|apply idle_st; exact X|].
      rewrite E2. cbn [bind]. exists (o ++ o2), r2, l, f. split; [reflexivity|]. split.
      * constructor; rewrite ?meaning_cons, ?zlen_app.
        -- destruct P as (y & P). exists y. rewrite P, <- !app_assoc. reflexivity.
        -- intros F. destruct (D F) as (A & B). split; [exact A|]. rewrite <- B, <- !app_assoc. reflexivity.
        -- lia.
        -- unfold list_sum in *. cbn [fold_right]. lia.
        -- destruct SF as (d & ->). exists (c :: d). reflexivity.
        -- intros F. rewrite app_assoc. exact (II F).
        -- lia.
      * intros F G. pose proof (Forall_inv G) as G1. pose proof (Forall_inv_tail G) as G2. cbv beta in G1. specialize (N2 F G2). rewrite zlen_app in N2. pose proof (zlen_nonneg o). cbn [length] in *. lia.
    + destruct (IH (c :: cs') r1 h0 (e ++ o)) as (o2 & r2 & l & f & E2 & [P D T RM SF II LL] & N2); [lia|rewrite L1; exact V|exists h'; exact X|].
      rewrite E2. cbn [bind]. exists (o ++ o2), r2, l, f. split; [reflexivity|]. rewrite meaning_cons in *. split.
      * constructor; rewrite ?meaning_cons, ?zlen_app.
        -- destruct P as (y & P). exists y. rewrite P, <- !app_assoc. reflexivity.
        -- intros F. destruct (D F) as (A & B). split; [exact A|]. rewrite <- B, <- !app_assoc. reflexivity.
        -- lia.
        -- unfold list_sum in *. cbn [fold_right]. lia.
        -- exact SF.
        -- intros F. rewrite app_assoc. exact (II F).
        -- lia.
      * intros F G. pose proof (Forall_inv G) as G1. pose proof (Forall_inv_tail G) as G2. cbv beta in G1. specialize (N2 F G2). rewrite zlen_app in N2. cbn [length] in *. lia.
Qed.

(** ** encode_commands *)
Lemma encode_commands_spec : forall cs fuel r h0 e room, 1 < len r -> valid (len r) cs -> st r cs h0 e -> 0 <= room ->
  (forall c, In c cs -> (cmd_fuel dict c <= fuel)%nat) ->
  exists res o r' k, encode_commands fuel dict r cs room = Some (res, o, r', k) /\ len r' = len r /\ zlen o <= room /\ (k <= length cs)%nat /\
    total_offset r' = total_offset r + zlen o /\
    match res with
    | OSuccess => k = length cs /\ e ++ o = h0 ++ meaning dict h0 cs /\ idle r' (h0 ++ meaning dict h0 cs) (e ++ o)
    | ONeedsMoreOutput => zlen o = room /\ exists h1, h1 ++ meaning dict h1 (skipn k cs) = h0 ++ meaning dict h0 cs /\ st r' (skipn k cs) h1 (e ++ o)
    | OFailure => False
    end.
Proof.
  induction cs as [|c cs IH]; intros fuel r h0 e room LR V ST R F; cbn [encode_commands].
  - destruct (flush_done r h0 e room ST R) as (res & o & r1 & E & I1 & L1 & T1 & OL & X). rewrite E. cbn [bind].
    exists res, o, r1, O. cbn [meaning skipn length]. rewrite app_nil_r. split; [reflexivity|]. split; [exact L1|]. split; [exact OL|]. split; [lia|]. split; [exact T1|].
    destruct X as [(-> & X)|(-> & X)]; [auto|]. split; [exact X|]. exists h0. split; [apply app_nil_r|exact I1].
  - destruct ST as (h & M). pose proof (Forall_inv V) as V1. pose proof (Forall_inv_tail V) as V2.
    destruct (commands_loop_spec c h0 fuel r h e room LR V1 M R) as (res & o & r1 & E & L1 & OL & T1 & X).
    { pose proof (need_fuel _ _ _ _ _ M). specialize (F c (or_introl eq_refl)). lia. }
    rewrite E. cbn [bind]. rewrite meaning_cons. destruct res; [|destruct X as (X & OR)|contradiction].
    + destruct (IH fuel r1 (h0 ++ eff dict h0 c) (e ++ o) (room - zlen o)) as (res & o2 & r2 & k & E2 & L2 & OL2 & KL & T2 & X2).
      * lia.
      * rewrite L1. exact V2.
      * apply idle_st. exact X.
      * lia.
      * intros c' I. apply F. right. exact I.
      * rewrite E2. cbn [bind]. exists res, (o ++ o2), r2, (S k). rewrite zlen_app. split; [reflexivity|]. split; [congruence|]. split; [lia|]. cbn [length skipn]. split; [lia|]. split; [lia|].
        rewrite app_assoc. destruct res; [|destruct X2 as (X2 & X3); split; [lia|exact X3]|exact X2].
        destruct X2 as (-> & X2 & X3). auto.
    + exists ONeedsMoreOutput, o, r1, O. split; [reflexivity|]. split; [exact L1|]. split; [exact OL|]. split; [lia|]. split; [exact T1|]. split; [exact OR|].
      exists h0. cbn [skipn]. rewrite meaning_cons. split; [reflexivity|exact X].
Qed.

Lemma list_fuel_le cs c : In c cs -> (cmd_fuel dict c <= list_fuel dict cs)%nat.
Proof.
  unfold list_fuel. induction cs as [|a cs IH]; intros I; [contradiction|]. cbn [map list_max fold_right]. destruct I as [->|I].
  - apply Nat.le_max_l.
  - etransitivity; [apply (IH I)|apply Nat.le_max_r].
Qed.
Lemma valid_skip n k cs : valid n cs -> valid n (skipn k cs).
Proof. intros V. unfold valid in *. rewrite Forall_forall in *. intros x I. apply V. rewrite <- (firstn_skipn k cs). apply in_or_app. auto. Qed.

Lemma replay_list_spec : forall rooms cs r h0 e, 1 < len r -> valid (len r) cs -> st r cs h0 e ->
  exists out r' left fin, replay_list dict r cs rooms = Some (RR out r' left fin) /\ outcome r cs h0 e rooms out r' left fin /\
   (fin = false -> zlen e + Z.of_nat (list_sum rooms) <= zlen (h0 ++ meaning dict h0 cs)).
Proof.
  induction rooms as [|n rooms IH]; intros cs r h0 e LR V ST.
  { exists [], r, cs, false. split; [reflexivity|]. destruct (st_prefix _ _ _ _ ST) as (y & Y). split.
    - constructor; [rewrite app_nil_r; eauto|discriminate|change (zlen (@nil Z)) with 0; lia|reflexivity|exists []; reflexivity|discriminate|reflexivity].
    - intros _. rewrite Y, zlen_app. pose proof (zlen_nonneg y). cbn [list_sum fold_right]. unfold list_sum. cbn [fold_right]. lia. }
  cbn [replay_list].
  destruct (encode_commands_spec cs (list_fuel dict cs) r h0 e (Z.of_nat n) LR V ST ltac:(lia) (list_fuel_le cs)) as (res & o & r1 & k & E & L1 & OL & KL & T1 & X).
  rewrite E. cbn [bind]. destruct res; [|destruct X as (OR & h1 & HM & ST1)|contradiction].
  - destruct X as (-> & X & XI). exists o, r1, (skipn (length cs) cs), true. split; [reflexivity|]. split; [|discriminate].
    rewrite skipn_all. constructor; [exists []; rewrite X, app_nil_r; reflexivity|auto|exact T1|unfold list_sum; cbn [fold_right]; lia|exists cs; rewrite app_nil_r; reflexivity|intros _; exact XI|exact L1].
  - destruct (IH (skipn k cs) r1 h1 (e ++ o)) as (o2 & r2 & l & f & E2 & [P D T RM SF II LL] & N2); [lia|rewrite L1; apply valid_skip; exact V|exact ST1|].
    rewrite E2. cbn [bind]. exists (o ++ o2), r2, l, f. split; [reflexivity|]. rewrite HM in *. split.
    + constructor; rewrite ?zlen_app.
      * destruct P as (y & P). exists y. rewrite P, <- !app_assoc. reflexivity.
      * intros F. destruct (D F) as (A & B). split; [exact A|]. rewrite <- B, <- !app_assoc. reflexivity.
      * lia.
      * unfold list_sum in *. cbn [fold_right]. lia.
      * destruct SF as (d & SF). exists (firstn k cs ++ d). rewrite <- app_assoc, <- SF. symmetry. apply firstn_skipn.
      * intros F. rewrite app_assoc. exact (II F).
      * lia.
    + intros F. specialize (N2 F). rewrite zlen_app in N2. unfold list_sum in *. cbn [fold_right]. lia.
Qed.

Lemma st_new rb cs : 0 < zlen rb -> st (rc_new rb) cs rb rb.
Proof.
  intros L. apply idle_st. assert (O : ok (rc_new rb) rb).
  { unfold ok, rc_new. cbn [ring di oi]. unfold len. cbn [ring]. split; [lia|]. split; [lia|]. split; [lia|].
    unfold rot. cbn [di ring]. rewrite zskip_0, zfirst_0, app_nil_r. rewrite Z.sub_diag, zskip_0. reflexivity. }
  split; [exact O|]. split; [reflexivity|]. split; [|exists 1; unfold len; cbn [rc_new di ring]; lia].
  replace (unf (rc_new rb)) with 0 by reflexivity. symmetry. apply zfirst_all. lia.
Qed.
End Replay.
