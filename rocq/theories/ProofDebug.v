(** Proofs for C84. *)
From Verif Require Import Prelude ModelMux ProofZlist ModelBits SpecBits ProofBits ModelDebug SpecDebug.

Definition code_of (bp : bool * Z) : Z := Z.lxor (snd bp) (b2z (fst bp)).
Lemma lxor_1 p : 0 <= p -> Z.lxor p 1 = if Z.even p then p + 1 else p - 1.
Proof. intros H. destruct p as [|[x|x|]|x]; [reflexivity|reflexivity|reflexivity|reflexivity|lia]. Qed.
Lemma code_arith b p : 0 <= p -> code_of (b, p) = if b then (if Z.even p then p + 1 else p - 1) else p.
Proof. intros H. unfold code_of. cbn [fst snd]. destruct b; cbn [b2z]; [apply lxor_1; exact H|apply Z.lxor_0_r]. Qed.
Lemma even_half p : p = 2 * (p / 2) + (if Z.even p then 0 else 1).
Proof. rewrite Zeven_mod. pose proof (Z.div_mod p 2 ltac:(lia)). pose proof (Z.mod_pos_bound p 2 ltac:(lia)). destruct (Zeq_bool (p mod 2) 0) eqn:E; [apply Zeq_bool_eq in E|apply Zeq_bool_neq in E]; lia. Qed.
Lemma code_byte b p : byte p -> byte (code_of (b, p)).
Proof. unfold byte. intros H. rewrite code_arith by lia. pose proof (even_half p). destruct b, (Z.even p); lia. Qed.
Lemma lxor_is x a v : Z.lxor x a = v <-> a = Z.lxor x v.
Proof. split; intros H; subst; rewrite <- Z.lxor_assoc, Z.lxor_nilpotent, Z.lxor_0_l; reflexivity. Qed.
Lemma reply_code b p a : byte p -> byte a ->
  (let v := Z.lxor (code_of (b, p)) a in if negb (v =? 0) then if v =? 1 then Some true else None else Some false) = reply b p a.
Proof.
  intros HP HA. cbv zeta. pose proof (code_byte b p HP) as HC. unfold byte in *. set (x := code_of (b, p)) in *.
  pose proof (proj1 (lxor_is x a 0)) as A1. pose proof (proj2 (lxor_is x a 0)) as A2. pose proof (proj1 (lxor_is x a 1)) as B1. pose proof (proj2 (lxor_is x a 1)) as B2.
  rewrite Z.lxor_0_r in *. rewrite lxor_1 in * by lia. set (v := Z.lxor x a) in *. clearbody v.
  assert (X : x = if b then (if Z.even p then p + 1 else p - 1) else p) by (apply code_arith; lia). clearbody x.
  pose proof (even_half p) as P2. pose proof (even_half x) as X2. pose proof (even_half a) as A3. unfold reply.
  destruct (Z.eqb_spec v 0); cbn [negb]; [|destruct (Z.eqb_spec v 1)]; destruct b, (Z.even p), (Z.even x), (Z.even a); destruct (Z.eqb_spec a p); try destruct (Z.eqb_spec (a / 2) (p / 2)); cbn [negb]; try reflexivity; exfalso; lia.
Qed.
(** the bytes in the three places, oldest first, are the codes of the bits put and not got *)
Lemma link_pending debug : forall ops s le lf ld pend,
  holds (l_enc s) le -> l_file s = lf -> holds (l_dec s) ld -> bytes lf -> ld ++ lf ++ le = map code_of pend -> Forall (fun bp => byte (snd bp)) pend ->
  puts_ok ops -> in_turn (zlen le) (zlen lf) (zlen ld) ops ->
  link_run debug s ops = replies (pend ++ puts ops) (gets ops).
Proof.
  induction ops as [|o ops IH]; intros s le lf ld pend HE HF HD BF EQ BP OK T; [cbn [gets replies link_run]; destruct (pend ++ puts []); reflexivity|].
  destruct o as [b p|n|n|a]; cbn [puts_ok in_turn link_run puts gets] in *.
  - destruct OK as (BY & OK), T as (T1 & T2). unfold debug_put. assert (SP : rq_space (l_enc s) = 8 - zlen le) by (destruct HE as (_ & _ & _ & C); unfold rq_space, zlen; lia).
    rewrite SP. replace (0 <? 8 - zlen le) with true by lia.
    destruct (rq1_fifo debug (l_enc s) le (QPush [code_of (b, p)]) HE ltac:(cbn [op_ok]; constructor; [apply code_byte; exact BY|constructor]) Logic.I) as (q' & E & H'). cbn [rq1 fifo1 fst snd] in E, H'.
    assert (L8 : exists k, (8 - length le)%nat = S k) by (exists (7 - length le)%nat; unfold zlen in T1; lia). destruct L8 as (k & L8). rewrite L8 in E, H'. cbn [firstn length] in E, H'. rewrite firstn_nil in E, H'. cbn [length] in E. change (Z.of_nat 1) with 1 in E.
    change (Z.lxor p (b2z b)) with (code_of (b, p)). destruct (rq_push (l_enc s) [code_of (b, p)]) as (n, q2). assert (n = 1) by congruence. assert (q2 = q') by congruence. subst n q2. change (1 =? 1) with true. cbv iota. cbn [bind].
    rewrite (IH (Link q' (l_file s) (l_dec s)) (le ++ [code_of (b, p)]) lf ld (pend ++ [(b, p)]) H' HF HD BF).
    + rewrite <- app_assoc. reflexivity.
    + rewrite map_app, <- EQ, !app_assoc. reflexivity.
    + apply Forall_app; split; [exact BP|constructor; [exact BY|constructor]].
    + exact OK.
    + replace (zlen (le ++ [code_of (b, p)])) with (zlen le + 1) by (unfold zlen; rewrite app_length; cbn [length]; lia). exact T2.
  - destruct OK as (BY & OK), T as (T1 & T2). unfold debug_drain.
    destruct (rq1_fifo debug (l_enc s) le (QPop n) HE BY ltac:(cbv beta iota; rewrite firstn_length; unfold zlen in T1; lia)) as (q' & E & H'). cbn [rq1 fifo1 fst snd] in E, H'.
    destruct (rq_pop debug (l_enc s) n) as [(out, q2)|]; [|discriminate E]. cbn [bind] in E |- *. assert (out = firstn (Z.to_nat n) le) by congruence. assert (q2 = q') by congruence. subst out q2.
    assert (LF : zlen (firstn (Z.to_nat n) le) = Z.min (zlen le) n) by (unfold zlen; rewrite firstn_length; lia).
    rewrite (IH (Link q' (l_file s ++ firstn (Z.to_nat n) le) (l_dec s)) (skipn (Z.to_nat n) le) (lf ++ firstn (Z.to_nat n) le) ld pend H'); [reflexivity|cbn [l_file]; congruence|exact HD| | |exact BP|exact OK|].
    + apply Forall_app; split; [exact BF|]. destruct HE as (HB & _). rewrite <- (firstn_skipn (Z.to_nat n) le) in HB. apply Forall_app in HB. apply HB.
    + rewrite <- app_assoc, firstn_skipn. exact EQ.
    + replace (zlen (skipn (Z.to_nat n) le)) with (zlen le - Z.min (zlen le) n) by (unfold zlen; rewrite skipn_length; lia).
      replace (zlen (lf ++ firstn (Z.to_nat n) le)) with (zlen lf + Z.min (zlen le) n) by (rewrite <- LF; unfold zlen; rewrite app_length; lia). exact T2.
  - destruct OK as (BY & OK). unfold debug_fill. rewrite HF.
    assert (SUB : forall k, bytes (firstn k lf) /\ bytes (skipn k lf)) by (intros k; rewrite <- (firstn_skipn k lf) in BF; apply Forall_app in BF; exact BF).
    destruct (rq1_fifo debug (l_dec s) ld (QPush (firstn (Z.to_nat n) lf)) HD ltac:(exact (proj1 (SUB _))) Logic.I) as (q' & E & H'). cbn [rq1 fifo1 fst snd] in E, H'.
    destruct (rq_push (l_dec s) (firstn (Z.to_nat n) lf)) as (used, q2). rewrite firstn_firstn in E, H'. set (k := Nat.min (8 - length ld) (Z.to_nat n)) in *.
    assert (U : used = Z.of_nat (length (firstn k lf))) by congruence. assert (q2 = q') by congruence. subst q2.
    assert (SK : skipn (Z.to_nat used) lf = skipn k lf). { rewrite U, Nat2Z.id, firstn_length. destruct (Nat.min_spec k (length lf)) as [(_ & ->)|(Q & ->)]; [reflexivity|]. rewrite skipn_all, skipn_all2 by lia. reflexivity. }
    rewrite SK. destruct HD as (_ & LD & _ & _).
    assert (K : Z.of_nat (length (firstn k lf)) = Z.min (8 - zlen ld) (Z.min n (zlen lf))) by (rewrite firstn_length; unfold k, zlen; lia).
    rewrite (IH (Link (l_enc s) (skipn k lf) q') le (skipn k lf) (ld ++ firstn k lf) pend HE eq_refl H' (proj2 (SUB _))); [reflexivity| |exact BP|exact OK|].
    + rewrite <- app_assoc, (app_assoc (firstn k lf)), firstn_skipn. exact EQ.
    + rewrite <- K in T. replace (zlen (skipn k lf)) with (zlen lf - Z.of_nat (length (firstn k lf))) by (unfold zlen; rewrite skipn_length, firstn_length; lia).
      replace (zlen (ld ++ firstn k lf)) with (zlen ld + Z.of_nat (length (firstn k lf))) by (unfold zlen; rewrite app_length; lia). exact T.
  - destruct OK as (BY & OK), T as (T1 & T2). unfold debug_get. assert (SP : rq_avail (l_dec s) = zlen ld) by (destruct HD as (_ & _ & _ & C); exact C).
    rewrite SP. replace (0 <? zlen ld) with true by lia. destruct ld as [|x ld]; [unfold zlen in T1; cbn [length] in T1; lia|].
    destruct (rq1_fifo debug (l_dec s) (x :: ld) (QPop 1) HD ltac:(cbn [op_ok]; lia) ltac:(cbv beta iota; rewrite firstn_length; lia)) as (q' & E & H'). cbn [rq1 fifo1 fst snd] in E, H'.
    change (Z.to_nat 1) with 1%nat in E, H'. cbn [firstn skipn] in E, H'.
    destruct (rq_pop debug (l_dec s) 1) as [(out, q2)|]; [|discriminate E]. cbn [bind] in E |- *. assert (out = [x]) by congruence. assert (q2 = q') by congruence. subst out q2. cbv zeta.
    destruct pend as [|(b, p) pend]; [discriminate EQ|]. cbn [map app] in EQ. assert (X : x = code_of (b, p)) by congruence. assert (EQ2 : ld ++ lf ++ le = map code_of pend) by congruence. clear EQ.
    apply Forall_cons_iff in BP. destruct BP as (BP1 & BP). cbn [snd] in BP1. cbn [app replies]. rewrite <- (reply_code b p a BP1 BY). cbv zeta. rewrite <- X.
    assert (T3 : in_turn (zlen le) (zlen lf) (zlen ld) ops) by (replace (zlen ld) with (zlen (x :: ld) - 1) by (unfold zlen; cbn [length]; lia); exact T2).
    pose proof (IH (Link (l_enc s) (l_file s) q') le lf ld pend HE HF H' BF EQ2 BP OK T3) as R.
    destruct (Z.lxor x a =? 0); cbn [negb bind]; [rewrite R; reflexivity|]. destruct (Z.lxor x a =? 1); cbn [bind]; [rewrite R; reflexivity|reflexivity].
Qed.
Lemma link_answers debug ops : puts_ok ops -> in_turn 0 0 0 ops -> link_run debug link_new ops = replies (puts ops) (gets ops).
Proof.
  intros OK T. assert (H0 : holds rq_new []) by (unfold holds; split; [constructor|split; [cbn [length]; lia|split; reflexivity]]).
  exact (link_pending debug ops link_new [] [] [] [] H0 eq_refl H0 (Forall_nil _) eq_refl (Forall_nil _) OK T).
Qed.
Lemma replies_same : forall put n, replies put (map snd (firstn n put)) = Some (map fst (firstn n put)).
Proof.
  induction put as [|(b, p) put IH]; intros [|n]; try reflexivity. cbn [firstn map fst snd replies]. unfold reply. rewrite Z.eqb_refl. cbn [bind]. rewrite IH. reflexivity.
Qed.
