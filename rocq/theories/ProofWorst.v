(** A rank for the coder's states: it falls with every nibble written. *)
From Verif Require Import Prelude ModelAns ModelCdf SpecCdf ModelMux ProofZlist ModelCmd ModelPriors ModelContextLut ModelCodec ModelLit ModelPm ModelTop SpecCodec ProofCodecInv SpecCost SpecWorst.

Definition c1 (st : stream) : Z := match st with CMD => 1 | LIT => 0 end.
Definition l1 (st : stream) : Z := match st with CMD => 0 | LIT => 1 end.

(** [v] put at node [n] of state [s] keeps [ok] and lowers the ranks *)
Definition falls {S} (ok : S -> Prop) (cr lr : S -> Z) (v : Z) (s : S) (n : node S) : Prop :=
  match n with
  | Code st _ k => 0 <= v < 16 -> forall s', k v = Next s' -> ok s' /\ cr s' + c1 st <= cr s /\ lr s' + l1 st <= lr s
  | Silent (Next s') => ok s' /\ cr s' <= cr s /\ lr s' <= lr s
  | _ => True
  end.
Lemma falls_code {S} (ok : S -> Prop) cr lr v s b c bl ix sp k :
  (0 <= v < 16 -> forall b' s', k b' v = Next s' -> ok s' /\ cr s' + 1 <= cr s /\ lr s' <= lr s) -> falls ok cr lr v s (@code b c bl ix sp S k).
Proof.
  intros H. unfold code. destruct (prior_index c bl ix); cbn [falls]; [|exact Logic.I]. intros V s' E. destruct (H V _ _ E) as (A & B & C). cbn [c1 l1]. split; [exact A|lia].
Qed.
Lemma falls_nibble {S} (ok : S -> Prop) cr lr v s mix l high p k :
  (0 <= v < 16 -> forall l' s', k l' v = Next s' -> ok s' /\ cr s' <= cr s /\ lr s' + 1 <= lr s) -> falls ok cr lr v s (@code_nibble mix l high p S k).
Proof.
  intros H. unfold code_nibble. destruct (mm_opts_of l high p); [|exact Logic.I]. destruct (prior_index _ _ _); [|exact Logic.I].
  destruct (negb mix).
  - cbn [falls]. intros V s' E. destruct (H V _ _ E) as (A & B & C). cbn [c1 l1]. split; [exact A|lia].
  - match goal with |- context [match ?e with Some _ => _ | None => _ end] => destruct e end; [|exact Logic.I]. cbn [falls]. intros V s' E.
    destruct (negb (should_mix _)); [discriminate|]. match type of E with context [nth_pair ?a ?b] => destruct (nth_pair a b) end.
    destruct (H V _ _ E) as (A & B & C). cbn [c1 l1]. split; [exact A|lia].
Qed.
Ltac nx E := let Q := fresh "Q" in match type of E with Next ?a = Next ?b => assert (Q : b = a) by congruence; rewrite Q; clear Q E end.

(** ** copies *)
Definition cok (s : copy_st) : Prop := match c_sub s with CCountMant _ lr _ | CDistMant _ lr _ => 4 <= lr /\ lr mod 4 = 0 | _ => True end.
Definition crank (s : copy_st) : Z :=
  match c_sub s with
  | CBegin | CCountSmall => 22 | CCountFirst => 21 | CCountGreater18 => 20 | CCountMant _ lr _ => 11 + lr / 4
  | CCountDecoded | CDistMnemonic => 11 | CDistFirst => 10 | CDistGreater14 => 9 | CDistMant _ lr _ => lr / 4 | CFully => 0
  end.
Lemma ru v : 1 <= v -> v <= round_up_mod_4 v < v + 4 /\ round_up_mod_4 v mod 4 = 0.
Proof. exact (round_up_spec v). Qed.
Lemma mant_next lr : 4 <= lr -> lr mod 4 = 0 -> Z.shiftl (Z.shiftr (lr + 3) 2 - 1) 2 = lr - 4.
Proof. intros A B. rewrite Z.shiftl_mul_pow2, Z.shiftr_div_pow2 by lia. change (2 ^ 2) with 4. lia. Qed.
Lemma copy_falls v b s : cok s -> falls (fun p => cok (snd p)) (fun p => crank (snd p)) (fun _ => 0) v (b, s) (copy_node b s).
Proof.
  intros K. unfold copy_node. cbv zeta. unfold cok in K.
  pose proof (eq_refl (crank s)) as RK; unfold crank in RK at 2.
  destruct (c_sub s) as [| | | |ld lr dsf| | | | |ld lr dsf|] eqn:U; try (apply falls_code; intros V b' s' E); cbn [snd]; try rewrite RK.
  - cbn [falls snd]. rewrite RK. unfold cok, crank, cset. cbn [c_sub]. repeat split; lia.
  - destruct (v =? 15); nx E; cbn [snd]; unfold cok, crank, cset, set_num; cbn [c_sub]; repeat split; lia.
  - destruct (Z.eqb_spec v 15); nx E; cbn [snd]; unfold cok, crank, cset; cbn [c_sub]; [repeat split; lia|]. pose proof (ru (v + 3) ltac:(lia)). repeat split; lia.
  - destruct (Z.ltb_spec (v + 18) 32); [|discriminate]. nx E; cbn [snd]; unfold cok, crank, cset; cbn [c_sub]. pose proof (ru (v + 18) ltac:(lia)). repeat split; lia.
  - destruct K as (K1 & K2). destruct (Z.eqb_spec (lr - 4) 0); nx E; cbn [snd]; unfold cok, crank, cset, set_num; cbn [c_sub]; [replace lr with 4 by lia; change (4 / 4) with 1; repeat split; lia|]. repeat split; lia.
  - cbn [falls snd]. rewrite RK. unfold cok, crank, cset. cbn [c_sub]. repeat split; lia.
  - destruct (v =? 15).
    + nx E; cbn [snd]; unfold cok, crank, cset; cbn [c_sub]; repeat split; lia.
    + destruct (distance_from_code _ _) as (d, o). destruct o; [|discriminate]. nx E; cbn [snd]; unfold cok, crank, set_dist; cbn [c_sub]; repeat split; lia.
  - destruct (v =? 14); [|destruct (v =? 15); [|destruct (Z.eqb_spec v 0)]]; nx E; cbn [snd]; unfold cok, crank, cset, set_dist; cbn [c_sub]; try (repeat split; lia).
    pose proof (ru v ltac:(lia)). repeat split; lia.
  - nx E; cbn [snd]; unfold cok, crank, cset; cbn [c_sub]. pose proof (ru (v + 14) ltac:(lia)). repeat split; lia.
  - destruct K as (K1 & K2). rewrite (mant_next lr K1 K2) in E. destruct (Z.eqb_spec (lr - 4) 0); nx E; cbn [snd]; unfold cok, crank, cset, set_dist; cbn [c_sub]; [replace lr with 4 by lia; change (4 / 4) with 1; repeat split; lia|]. repeat split; lia.
  - exact Logic.I.
Qed.

(** ** dictionary references *)
Definition dok (s : dict_st) : Prop := match d_sub s with DIndex _ lr _ => 4 <= lr /\ lr mod 4 = 0 | _ => True end.
Definition drank (s : dict_st) : Z :=
  match d_sub s with DBegin | DSizeFirst => 6 | DSizeGreater18 => 5 | DIndex _ lr _ => 2 + lr / 4 | DTransformHigh => 2 | DTransformLow => 1 | DFully => 0 end.
Lemma dict_bits ws : 4 <= ws <= 24 -> 5 <= znth DICT_BITS ws <= 11.
Proof.
  intros H. assert (F : forallb (fun n => (5 <=? znth DICT_BITS (4 + Z.of_nat n)) && (znth DICT_BITS (4 + Z.of_nat n) <=? 11)) (seq 0 21) = true) by reflexivity.
  rewrite forallb_forall in F. specialize (F (Z.to_nat (ws - 4)) ltac:(apply in_seq; lia)). replace (4 + Z.of_nat (Z.to_nat (ws - 4))) with ws in F by lia. lia.
Qed.
Lemma dict_bits_long ws : 19 <= ws <= 24 -> znth DICT_BITS ws <= 7.
Proof.
  intros H. assert (F : forallb (fun n => znth DICT_BITS (19 + Z.of_nat n) <=? 7) (seq 0 6) = true) by reflexivity.
  rewrite forallb_forall in F. specialize (F (Z.to_nat (ws - 19)) ltac:(apply in_seq; lia)). replace (19 + Z.of_nat (Z.to_nat (ws - 19))) with ws in F by lia. lia.
Qed.
Lemma dict_falls wl v b s : dok s -> falls (fun p => dok (snd p)) (fun p => drank (snd p)) (fun _ => 0) v (b, s) (dict_node wl b s).
Proof.
  intros K. unfold dict_node. cbv zeta. unfold dok in K.
  pose proof (eq_refl (drank s)) as RK; unfold drank in RK at 2.
  destruct (d_sub s) as [| | |ld lr dsf| | |] eqn:U; try (apply falls_code; intros V b' s' E); cbn [snd]; try rewrite RK.
  - cbn [falls snd]. rewrite RK. unfold dok, drank, dset. cbn [d_sub]. repeat split; lia.
  - destruct (Z.eqb_spec v 15); nx E; cbn [snd]; unfold dok, drank, dset; cbn [d_sub]; [repeat split; lia|].
    pose proof (dict_bits (v + 4) ltac:(lia)) as B. pose proof (ru (znth DICT_BITS (v + 4)) ltac:(lia)). repeat split; lia.
  - destruct (Z.ltb_spec 24 (v + 19)); [discriminate|]. nx E; cbn [snd]; unfold dok, drank; cbn [d_sub].
    pose proof (dict_bits (v + 19) ltac:(lia)) as B. pose proof (dict_bits_long (v + 19) ltac:(lia)) as B2. pose proof (ru (znth DICT_BITS (v + 19)) ltac:(lia)). repeat split; lia.
  - destruct K as (K1 & K2). destruct (Z.eqb_spec (lr - 4) 0); nx E; cbn [snd]; unfold dok, drank, dset; cbn [d_sub]; [replace lr with 4 by lia; change (4 / 4) with 1; repeat split; lia|]. repeat split; lia.
  - nx E; cbn [snd]; unfold dok, drank; cbn [d_sub]. repeat split; lia.
  - destruct (121 <=? _); [discriminate|]. nx E; cbn [snd]; unfold dok, drank; cbn [d_sub]. repeat split; lia.
  - exact Logic.I.
Qed.

(** ** block switches *)
Definition brank (s : btype_st) : Z := match s with BtBegin => 3 | BtTwoNibble => 2 | BtFinal _ => 1 | BtFully _ => 0 end.
Lemma btype_falls i v b s : falls (fun _ => True) (fun p => brank (snd p)) (fun _ => 0) v (b, s) (btype_node i b s).
Proof.
  unfold btype_node. destruct s; try (apply falls_code; intros V b' s' E); [| | |exact Logic.I].
  - destruct (v =? 0); [|destruct (v =? 1); [|destruct (v =? 15)]]; nx E; cbn [snd brank]; repeat split; lia.
  - nx E; cbn [snd brank]; repeat split; lia.
  - nx E; cbn [snd brank]; repeat split; lia.
Qed.
Definition lbrank (s : lbtype_st) : Z := match s with LbBegin => 4 | LbInter u => brank u + 1 | LbStride _ => 1 | LbFully _ _ => 0 end.
Lemma lbtype_falls v b s : falls (fun _ => True) (fun p => lbrank (snd p)) (fun _ => 0) v (b, s) (lbtype_node b s).
Proof.
  unfold lbtype_node. destruct s as [|u|t|]; [cbn [falls snd lbrank brank]; repeat split; lia| | |exact Logic.I].
  - pose proof (btype_falls 0 v b u) as F.
    assert (G : falls (fun _ => True) (fun p => lbrank (snd p)) (fun _ => 0) v (b, LbInter u) (map_node (fun p => (fst p, LbInter (snd p))) Panic (btype_node 0 b u))).
    { destruct (btype_node 0 b u) as [st d k|o|]; cbn [map_node falls] in *; [|destruct o as [(b', u')| |]; cbn [map_outcome]; try exact Logic.I; cbn [fst snd lbrank] in *; intuition lia|exact Logic.I].
      intros V s' E. destruct (k v) as [(b', u')| |] eqn:KV; cbn [map_outcome] in E; try discriminate. nx E. destruct (F V _ eq_refl) as (_ & A & B). cbn [fst snd lbrank] in *. split; [exact Logic.I|lia]. }
    destruct u; try exact G. cbn [falls snd lbrank brank]. repeat split; lia.
  - apply falls_code; intros V b' s' E. nx E; cbn [snd lbrank]; repeat split; lia.
Qed.

(** ** literals: the content is bounded by the bytes the caller gave *)
Definition lok (s : lit_st) : Prop :=
  match l_sub s with LCountMant lr _ => 4 <= lr /\ lr mod 4 = 0 | LNibble i | LLower i _ => 0 <= i | _ => True end.
Definition lcrank (he : bool) (s : lit_st) : Z :=
  match l_sub s with
  | LBegin | LCountSmall false => if he then 12 else 11
  | LCountSmall true => 11 | LCountFirst => 10 | LCountGreater14 => 9 | LCountMant lr _ => lr / 4 | _ => 0
  end.
Definition llrank (n : Z) (s : lit_st) : Z :=
  match l_sub s with LNibble i => 2 * Z.max 0 (n - i) | LLower i _ => 2 * Z.max 0 (n - i - 1) + 1 | LFully => 0 | _ => 2 * n end.
Lemma lit_falls mix data he v b l s : lok s -> lit_want data he s = Put v ->
  falls (fun p => lok (snd p)) (fun p => lcrank he (snd p)) (fun p => llrank (zlen data) (snd p)) v (b, l, s) (lit_node mix b l s).
Proof.
  intros K W. unfold lit_node. cbv zeta. unfold lok in K. unfold lit_want in W. cbv zeta in W. pose proof (zlen_nonneg data) as N0.
  pose proof (eq_refl (lcrank he s)) as RK; unfold lcrank in RK at 2. pose proof (eq_refl (llrank (zlen data) s)) as RL; unfold llrank in RL at 2.
  destruct (l_sub s) as [|flag| | |lr dsf|i|i h|] eqn:U.
  - cbn [falls snd]. rewrite RK, RL. unfold lok, lcrank, llrank, lset. cbn [l_sub]. destruct he; repeat split; lia.
  - apply falls_code; intros V b' s' E; cbn [snd]; rewrite RK, RL.
    assert (HV : v = 15 -> he = true /\ flag = false). { intros ->. destruct he, flag; cbn [andb negb] in W; auto; exfalso; assert (15 = Z.min 14 (wsub32 (zlen data) 1)) by congruence; lia. }
    destruct (v =? 14); [|destruct (Z.eqb_spec v 15) as [Q|Q]].
    + nx E; cbn [snd]; unfold lok, lcrank, llrank, lset; cbn [l_sub]. destruct flag, he; repeat split; lia.
    + destruct (HV Q) as (-> & ->). nx E; cbn [snd]; unfold lok, lcrank, llrank; cbn [l_sub]. repeat split; lia.
    + nx E; cbn [snd]; unfold lok, lcrank, llrank, lsized; cbn [l_sub]. destruct flag, he; repeat split; lia.
  - apply falls_code; intros V b' s' E; cbn [snd]; rewrite RK, RL.
    destruct (Z.eqb_spec v 15); [|destruct (Z.leb_spec v 1)]; nx E; cbn [snd]; unfold lok, lcrank, llrank, lset, lsized; cbn [l_sub]; try (repeat split; lia).
    pose proof (ru (v - 1) ltac:(lia)). repeat split; lia.
  - apply falls_code; intros V b' s' E; cbn [snd]; rewrite RK, RL.
    nx E; cbn [snd]; unfold lok, lcrank, llrank, lset; cbn [l_sub]. pose proof (ru (v + 14) ltac:(lia)). repeat split; lia.
  - apply falls_code; intros V b' s' E; cbn [snd]; rewrite RK, RL. destruct K as (K1 & K2).
    destruct (Z.eqb_spec (lr - 4) 0); nx E; cbn [snd]; unfold lok, lcrank, llrank, lset, lsized; cbn [l_sub]; repeat split; try lia.
  - assert (I1 : i < zlen data). { unfold zget in W. destruct (Z.leb_spec 0 i), (Z.ltb_spec i (zlen data)); cbn [andb] in W; try discriminate. assumption. }
    apply falls_nibble; intros V b' s' E; cbn [snd]; rewrite RK, RL. nx E; cbn [snd]; unfold lok, lcrank, llrank, lset; cbn [l_sub]. repeat split; lia.
  - assert (I1 : i < zlen data). { unfold zget in W. destruct (Z.leb_spec 0 i), (Z.ltb_spec i (zlen data)); cbn [andb] in W; try discriminate. assumption. }
    apply falls_nibble; intros V b' s' E; cbn [snd]; rewrite RK, RL. nx E; cbn [snd]; unfold lok, lcrank, llrank; cbn [l_sub].
    destruct (i + 1 =? l_len s); repeat split; lia.
  - exact Logic.I.
Qed.

(** ** prediction modes *)
Section Pm.
Variables (D : dims) (g : cfg) (src : predmode).
Hypothesis N1 : 1 <= n_mix D.
Definition msrc (distance : bool) : Z := zlen (src_map src distance).
Definition pok (u : pm_sub) : Prop :=
  match u with
  | PmAdapt i _ _ => 0 <= i < 16
  | PmMnem i _ _ => 0 <= i
  | PmFirst i d _ | PmSecond i d _ _ => 0 <= i < msrc d
  | PmMixing i _ => 0 <= i < n_mix D
  | _ => True
  end.
Definition prank (u : pm_sub) : Z :=
  let tl (d : bool) := (if d then 0 else 1 + 3 * msrc true) + n_mix D in
  let maps := 1 + 3 * msrc false + tl false in
  match u with
  | PmBegin => 19 + maps | PmDynMixing => 18 + maps | PmDepth _ => 17 + maps
  | PmAdapt i _ _ => 16 - i + maps
  | PmMnem i d _ => 1 + 3 * Z.max 0 (msrc d - i) + tl d
  | PmFirst i d _ => 3 + 3 * Z.max 0 (msrc d - i - 1) + tl d
  | PmSecond i d _ _ => 2 + 3 * Z.max 0 (msrc d - i - 1) + tl d
  | PmMixing i _ => n_mix D - i
  | PmFully => 0
  end.
Lemma msrc0 d : 0 <= msrc d. Proof. apply zlen_nonneg. Qed.
Lemma pm_falls v b s : pok (snd s) -> pm_want g src b s = Put v ->
  falls (fun p => pok (snd (snd p))) (fun p => prank (snd (snd p))) (fun _ => 0) v (b, s) (pm_node D b s).
Proof.
  intros K W. destruct s as (p, u). cbn [snd] in K. unfold pm_node. unfold pm_want in W. cbn [snd] in W.
  destruct (desired_speeds g src) as [sp|]; [|discriminate]. pose proof (msrc0 true) as M1. pose proof (msrc0 false) as M2.
  destruct u as [| |cb|i out cb|i d cb|i d cb|i d m cb|i cb|]; cbn [pok] in K; try (apply falls_code; intros V b' s' E); cbn [snd].
  - nx E; cbn [snd pok prank]; repeat split; lia.
  - nx E; cbn [snd pok prank]; repeat split; lia.
  - nx E; cbn [snd pok prank]; repeat split; lia.
  - cbv zeta in E. destruct (Z.eqb_spec (i + 1) 16).
    + do 4 (match type of E with match ?e with Some _ => _ | None => _ end = _ => destruct e; [|discriminate E] end). nx E; cbn [snd pok prank]; repeat split; lia.
    + nx E; cbn [snd pok prank]; repeat split; lia.
  - set (m := if want_cmap g then src_map src d else []) in *. cbv zeta in W.
    assert (ML : zlen m <= msrc d) by (unfold m, msrc; destruct (want_cmap g); [lia|change (zlen (@nil Z)) with 0; apply zlen_nonneg]).
    pose proof (msrc0 d) as M3.
    destruct (Z.eqb_spec v 14) as [Q|Q].
    + destruct d; nx E; cbn [snd pok prank]; repeat split; lia.
    + assert (I1 : i < zlen m). { destruct (Z.leb_spec (zlen m) i); [|lia]. exfalso. apply Q. congruence. }
      destruct (v =? 15); [nx E; cbn [snd pok prank]; destruct d; repeat split; lia|].
      cbv zeta in E. destruct (obs_context_map _ _ _ _); [|discriminate]. destruct (pm_store _ _ _ _); [|discriminate].
      nx E; cbn [snd pok prank]; destruct d; repeat split; lia.
  - nx E; cbn [snd pok prank]; repeat split; lia.
  - cbv zeta in E. destruct (pm_store _ _ _ _); [|discriminate]. destruct (obs_context_map _ _ _ _); [|discriminate].
    nx E; cbn [snd pok prank]; repeat split; lia.
  - cbv zeta in E. destruct (i <? zlen (mixing p)); [|discriminate]. nx E; cbn [snd]. destruct (Z.eqb_spec (i + 1) (n_mix D)); cbn [pok prank]; repeat split; lia.
  - exact Logic.I.
Qed.
End Pm.

(** ** one command *)
Section One.
Context {R : Type} (RR : replayer R) (wl : word_len_fn) (D : dims) (g : cfg).
Hypothesis N1 : 1 <= n_mix D.
Definition tok (cmd : command) (t : top) : Prop :=
  match t, cmd with
  | TCopy s, Copy _ _ => cok s
  | TDict s, Dict _ _ _ _ => dok s
  | TLit s, Literal _ _ => lok s
  | TPm u, PredictionMode src => pok D src u
  | _, _ => True
  end.
Definition end_or (e : bool) (x : Z) : Z := if e then 1 else x.
Definition tcrank (cmd : command) (e : bool) (t : top) : Z :=
  match t, cmd with
  | TBegin, _ => end_or e (command_nibbles D cmd)
  | TCopy s, Copy _ _ => crank s
  | TDict s, Dict _ _ _ _ => drank s
  | TLit s, Literal _ he => lcrank he s
  | TBsl s, BlockSwitchLiteral _ _ => lbrank s
  | TBsc s, BlockSwitchCommand _ => brank s
  | TBsd s, BlockSwitchDistance _ => brank s
  | TPm u, PredictionMode src => prank D src u
  | _, _ => 0
  end.
Definition tlrank (cmd : command) (t : top) : Z :=
  match t, cmd with
  | TBegin, _ => literal_nibbles cmd
  | TLit s, Literal data _ => llrank (zlen data) s
  | _, _ => 0
  end.
(** a step of the whole coder *)
Definition tfalls (cmd : command) (e : bool) (v : Z) (c : codec R) (n : tnode R) : Prop :=
  match n with
  | NCode st _ k => 0 <= v < 16 -> forall c', k v = Next c' ->
      tok cmd (k_st c') /\ tcrank cmd e (k_st c') + c1 st <= tcrank cmd e (k_st c) /\ tlrank cmd (k_st c') + l1 st <= tlrank cmd (k_st c)
  | NSilent (Next c') => tok cmd (k_st c') /\ tcrank cmd e (k_st c') <= tcrank cmd e (k_st c) /\ tlrank cmd (k_st c') <= tlrank cmd (k_st c)
  | NAdvance c' _ => k_st c' = TBegin
  | _ => True
  end.
Lemma tfalls_lift {A} (ok : A -> Prop) cr lr (f : A -> codec R) dn cmd e v a c n :
  falls ok cr lr v a n -> cr a = tcrank cmd e (k_st c) -> lr a <= tlrank cmd (k_st c) ->
  (forall a', ok a' -> tok cmd (k_st (f a')) /\ tcrank cmd e (k_st (f a')) = cr a' /\ tlrank cmd (k_st (f a')) <= lr a') ->
  (n = Done -> match dn with Next c' => tok cmd (k_st c') /\ tcrank cmd e (k_st c') <= tcrank cmd e (k_st c) /\ tlrank cmd (k_st c') <= tlrank cmd (k_st c) | _ => True end) ->
  tfalls cmd e v c (lift f dn n).
Proof.
  intros F C L H Dn. unfold lift. destruct n as [st d k|o|]; cbn [map_node falls tfalls] in *.
  - intros V c' E. destruct (k v) as [a'| |] eqn:KV; cbn [map_outcome] in E; try discriminate. assert (c' = f a') by congruence. subst c'.
    destruct (F V _ eq_refl) as (A1 & A2 & A3). destruct (H _ A1) as (B1 & B2 & B3). split; [exact B1|]. rewrite B2. lia.
  - destruct o as [a'| |]; cbn [map_outcome]; try exact Logic.I. destruct F as (A1 & A2 & A3). destruct (H _ A1) as (B1 & B2 & B3). split; [exact B1|]. rewrite B2. lia.
  - specialize (Dn eq_refl). destruct dn; exact Dn.
Qed.
Lemma lrank0 (data : list Z) s : 0 <= llrank (zlen data) s.
Proof. unfold llrank. pose proof (zlen_nonneg data). destruct (l_sub s); lia. Qed.
Lemma prank0 src : prank D src PmBegin = 21 + 3 * zlen (lit_map src) + 3 * zlen (src_map src true) + n_mix D.
Proof. cbn [prank]. unfold msrc. cbn [src_map]. lia. Qed.
Lemma top_falls cmd e v (c : codec R) : tok cmd (k_st c) -> top_want g cmd e c = Put v -> tfalls cmd e v c (top_node RR wl D c).
Proof.
  intros K W. unfold top_want in W. unfold top_node. destruct (k_st c) as [|s|s|s|s|s|s|u|x|] eqn:ST.
  - unfold code. destruct (prior_index _ _ _); [|exact Logic.I]. cbn [tfalls]. intros V c' E. assert (EV : v = command_type_to_nibble cmd e) by congruence. clear W.
    rewrite ST. cbn [tcrank tlrank c1 l1]. unfold begin_command in E.
    destruct e; unfold command_type_to_nibble in EV; [subst v; cbv [Z.eqb Pos.eqb] in E; nx E; cbn [kset k_st tok tcrank tlrank end_or]; destruct cmd as [d n|ws wid tr fs|data he|p|t|t|t sd]; cbn [literal_nibbles]; try (pose proof (zlen_nonneg data)); repeat split; lia|].
    cbn [end_or]. destruct cmd as [d n|ws wid tr fs|data he|p|t|t|t sd]; subst v; cbv [Z.eqb Pos.eqb] in E; nx E; cbn [kset k_st tok tcrank tlrank command_nibbles literal_nibbles].
    + unfold cok, crank, copy_begin. cbn [c_sub]. repeat split; lia.
    + unfold dok, drank, dict_begin. cbn [d_sub]. repeat split; lia.
    + unfold lok, lcrank, llrank, lit_begin. cbn [l_sub]. destruct he; repeat split; lia.
    + rewrite prank0. cbn [pok]. repeat split; lia.
    + cbn [brank]. repeat split; lia.
    + cbn [brank]. repeat split; lia.
    + cbn [lbrank brank]. repeat split; lia.
  - destruct cmd as [| |data he| | | |]; try discriminate. cbn [tok] in K.
    apply (tfalls_lift _ _ _ _ _ _ _ _ (k_bk c, k_lbk c, s) _ _ (lit_falls (k_mix c) data he v (k_bk c) (k_lbk c) s K W)); [rewrite ST; reflexivity|rewrite ST; cbn [tlrank snd]; lia| |].
    + intros ((b', l'), s') O. cbn [fst snd k_st tok tcrank tlrank] in *. repeat split; [exact O|lia].
    + intros Q. rewrite ST. cbn [kset k_st tok tcrank tlrank]. pose proof (lrank0 data s). split; [exact Logic.I|]. split; [|assumption]. unfold lcrank. unfold lok in K. destruct (l_sub s) as [|[]| | | | | |]; try (destruct he); lia.
  - destruct cmd; try discriminate. cbn [tok] in K.
    apply (tfalls_lift _ _ _ _ _ _ _ _ (k_bk c, s) _ _ (dict_falls wl v (k_bk c) s K)); [rewrite ST; reflexivity|rewrite ST; cbn [tlrank]; lia| |].
    + intros (b', s') O. cbn [fst snd kset k_st tok tcrank tlrank] in *. repeat split; [exact O|lia].
    + intros Q. rewrite ST. cbn [kset k_st tok tcrank tlrank]. unfold dict_node in Q. cbv zeta in Q. destruct (d_sub s) eqn:U; try (unfold code in Q; destruct (prior_index _ _ _) in Q; discriminate); try discriminate Q. unfold drank. rewrite U. repeat split; lia.
  - destruct cmd; try discriminate. cbn [tok] in K.
    apply (tfalls_lift _ _ _ _ _ _ _ _ (k_bk c, s) _ _ (copy_falls v (k_bk c) s K)); [rewrite ST; reflexivity|rewrite ST; cbn [tlrank]; lia| |].
    + intros (b', s') O. cbn [fst snd kset k_st tok tcrank tlrank] in *. repeat split; [exact O|lia].
    + intros Q. rewrite ST. cbn [kset k_st tok tcrank tlrank]. unfold copy_node in Q. cbv zeta in Q. destruct (c_sub s) eqn:U; try (unfold code in Q; destruct (prior_index _ _ _) in Q; discriminate); try discriminate Q. unfold crank. rewrite U. repeat split; lia.
  - destruct cmd as [d n|ws wid tr fs|data he|p|t|t|t sd]; try discriminate.
    assert (G : tfalls (BlockSwitchLiteral t sd) e v c (lift (fun p => kset c (fst p) (TBsl (snd p))) Panic (lbtype_node (k_bk c) s))).
    { apply (tfalls_lift _ _ _ _ _ _ _ _ (k_bk c, s) _ _ (lbtype_falls v (k_bk c) s)); [rewrite ST; reflexivity|rewrite ST; cbn [tlrank]; lia| |intros; exact Logic.I].
      intros (b', s') O. cbn [fst snd kset k_st tok tcrank tlrank] in *. repeat split; lia. }
    destruct s; try exact G. reflexivity.
  - destruct cmd as [d n|ws wid tr fs|data he|p|t|t|t sd]; try discriminate.
    assert (G : tfalls (BlockSwitchCommand t) e v c (lift (fun p => kset c (fst p) (TBsc (snd p))) Panic (btype_node 1 (k_bk c) s))).
    { apply (tfalls_lift _ _ _ _ _ _ _ _ (k_bk c, s) _ _ (btype_falls 1 v (k_bk c) s)); [rewrite ST; reflexivity|rewrite ST; cbn [tlrank]; lia| |intros; exact Logic.I].
      intros (b', s') O. cbn [fst snd kset k_st tok tcrank tlrank] in *. repeat split; lia. }
    destruct s; try exact G. reflexivity.
  - destruct cmd as [d n|ws wid tr fs|data he|p|t|t|t sd]; try discriminate.
    assert (G : tfalls (BlockSwitchDistance t) e v c (lift (fun p => kset c (fst p) (TBsd (snd p))) Panic (btype_node 2 (k_bk c) s))).
    { apply (tfalls_lift _ _ _ _ _ _ _ _ (k_bk c, s) _ _ (btype_falls 2 v (k_bk c) s)); [rewrite ST; reflexivity|rewrite ST; cbn [tlrank]; lia| |intros; exact Logic.I].
      intros (b', s') O. cbn [fst snd kset k_st tok tcrank tlrank] in *. repeat split; lia. }
    destruct s; try exact G. reflexivity.
  - destruct cmd as [| | |src| | |]; try discriminate. cbn [tok] in K. rename K into HK.
    assert (G : tfalls (PredictionMode src) e v c (lift (fun p => K (fst p) (k_lbk c) (k_mix c) (fst (snd p)) (k_rec c) (TPm (snd (snd p)))) Panic (pm_node D (k_bk c) (k_pm c, u)))).
    { apply (tfalls_lift _ _ _ _ _ _ _ _ (k_bk c, (k_pm c, u)) _ _ (pm_falls D g src N1 v (k_bk c) (k_pm c, u) HK W)); [rewrite ST; reflexivity|rewrite ST; cbn [tlrank]; lia| |intros; exact Logic.I].
      intros (b', (p', u')) O. cbn [fst snd k_st tok tcrank tlrank] in *. repeat split; [exact O|lia]. }
    destruct u; try exact G. destruct (obs_prediction_mode _ _); try exact Logic.I. reflexivity.
  - destruct (rpop RR (k_rec c) x); try exact Logic.I. reflexivity.
  - exact Logic.I.
Qed.
Lemma tcrank_nonneg cmd e t : tok cmd t -> 0 <= tcrank cmd e t.
Proof.
  intros K. destruct t as [|s|s|s|s|s|s|u|x|], cmd as [d n|ws wid tr fs|data he|p|t|t|t sd]; cbn [tcrank tok] in *; try lia.
  all: try (unfold end_or; destruct e; cbn [command_nibbles]; [lia|]; try destruct he; try (pose proof (zlen_nonneg (lit_map p)); pose proof (zlen_nonneg (src_map p true))); lia).
  - unfold lcrank, lok in *. destruct (l_sub s) as [|[]| | | | | |], he; lia.
  - unfold drank, dok in *. destruct (d_sub s); lia.
  - unfold crank, cok in *. destruct (c_sub s); lia.
  - destruct s as [|[]| |]; cbn [lbrank brank]; lia.
  - destruct s; cbn [brank]; lia.
  - destruct s; cbn [brank]; lia.
  - pose proof (msrc0 p true); pose proof (msrc0 p false). destruct u as [| |cb|i out cb|i d cb|i d cb|i d m cb|i cb|]; cbn [prank pok] in *; try destruct d; lia.
Qed.
Lemma tlrank_nonneg cmd t : 0 <= tlrank cmd t.
Proof. destruct t, cmd; cbn [tlrank literal_nibbles]; try lia; try apply lrank0. pose proof (zlen_nonneg data). lia. Qed.
Lemma written_cons st x es : written st (x :: es) = (match st with CMD => c1 (e_st x) | LIT => l1 (e_st x) end) + written st es.
Proof. unfold written, on. cbn [filter]. destruct st, (e_st x); cbn [c1 l1]; rewrite ?zlen_cons; lia. Qed.
Lemma one_bounded cmd e : forall fuel c c' x es, tok cmd (k_st c) -> enc_cmd RR wl D fuel g cmd e c = Some (c', x, es) ->
  written CMD es <= tcrank cmd e (k_st c) /\ written LIT es <= tlrank cmd (k_st c) /\ (x <> None -> k_st c' = TBegin).
Proof.
  induction fuel as [|fuel IH]; intros c c' x es K E; [discriminate|]. cbn [enc_cmd] in E. destruct (top_want g cmd e c) as [v| |] eqn:W; try discriminate.
  pose proof (top_falls cmd e v c K W) as F. pose proof (tcrank_nonneg cmd e (k_st c) K) as T0. pose proof (tlrank_nonneg cmd (k_st c)) as T1.
  destruct (top_node RR wl D c) as [st d k|o|c2 y|]; cbn [tfalls] in F.
  - destruct (Z.leb_spec 0 v), (Z.ltb_spec v 16); cbn [andb] in E; try discriminate. destruct (k v) as [c2| |] eqn:KV; try discriminate.
    destruct (enc_cmd RR wl D fuel g cmd e c2) as [((c3, y), es2)|] eqn:E2; [|discriminate]. cbn [bind] in E. injection E as <- <- <-.
    destruct (F ltac:(lia) _ eq_refl) as (A1 & A2 & A3). destruct (IH _ _ _ _ A1 E2) as (B1 & B2 & B3). rewrite !written_cons. cbn [e_st]. split; [lia|]. split; [lia|exact B3].
  - destruct o as [c2| |]; try discriminate. destruct F as (A1 & A2 & A3). destruct (IH _ _ _ _ A1 E) as (B1 & B2 & B3). split; [lia|]. split; [lia|exact B3].
  - injection E as <- <- <-. cbn. split; [exact T0|]. split; [exact T1|]. intros _. exact F.
  - injection E as <- <- <-. cbn. split; [exact T0|]. split; [exact T1|]. intros Q. contradiction Q. reflexivity.
Qed.
Lemma written_app st a b : written st (a ++ b) = written st a + written st b.
Proof. unfold written. rewrite filter_app, zlen_app. reflexivity. Qed.
Lemma all_bounded fuel : forall cmds c c' xs es, k_st c = TBegin -> enc_all RR wl D fuel g cmds c = Some (c', xs, es) ->
  written CMD es <= total (command_nibbles D) cmds + 1 /\ written LIT es <= total literal_nibbles cmds.
Proof.
  induction cmds as [|cmd cmds IH]; intros c c' xs es B E; cbn [enc_all] in E.
  - destruct (enc_cmd RR wl D fuel g (Copy 1 0) true c) as [((c2, x), es2)|] eqn:E2; [|discriminate]. destruct x; [discriminate|]. injection E as <- <- <-.
    destruct (one_bounded _ _ _ _ _ _ _ ltac:(rewrite B; exact Logic.I) E2) as (A1 & A2 & _). rewrite B in A1, A2. cbn [tcrank tlrank end_or literal_nibbles] in A1, A2. unfold total. cbn [map fold_right]. lia.
  - destruct (enc_cmd RR wl D fuel g cmd false c) as [((c2, x), es1)|] eqn:E2; [|discriminate]. destruct x as [x|]; [|discriminate].
    destruct (enc_all RR wl D fuel g cmds c2) as [((c3, ys), es2)|] eqn:E3; [|discriminate]. cbn [bind] in E. injection E as <- <- <-.
    destruct (one_bounded _ _ _ _ _ _ _ ltac:(rewrite B; exact Logic.I) E2) as (A1 & A2 & A3). rewrite B in A1, A2. cbn [tcrank tlrank end_or] in A1, A2.
    destruct (IH _ _ _ _ (A3 ltac:(discriminate)) E3) as (B1 & B2). rewrite !written_app. unfold total in *. cbn [map fold_right]. lia.
Qed.
End One.

(** ** the literal stream, exactly *)
Definition lz (s : lit_st) : Prop := match l_sub s with LNibble _ | LLower _ _ | LFully => True | _ => l_data s = [] end.
Definition lgot (s : lit_st) : Z := 2 * zlen (l_data s) + match l_sub s with LLower _ _ => 1 | _ => 0 end.
Definition keeps {S} (ok : S -> Prop) (got : S -> Z) (v : Z) (s : S) (n : node S) : Prop :=
  match n with
  | Code st _ k => forall s', k v = Next s' -> ok s' /\ got s' = got s + l1 st
  | Silent (Next s') => ok s' /\ got s' = got s
  | _ => True
  end.
Lemma keeps_code {S} (ok : S -> Prop) got v s b c bl ix sp k :
  (forall b' s', k b' v = Next s' -> ok s' /\ got s' = got s) -> keeps ok got v s (@code b c bl ix sp S k).
Proof. intros H. unfold code. destruct (prior_index c bl ix); cbn [keeps]; [|exact Logic.I]. intros s' E. destruct (H _ _ E) as (A & B). cbn [l1]. split; [exact A|lia]. Qed.
Lemma keeps_nibble {S} (ok : S -> Prop) got v s mix l high p k :
  (forall l' s', k l' v = Next s' -> ok s' /\ got s' = got s + 1) -> keeps ok got v s (@code_nibble mix l high p S k).
Proof.
  intros H. unfold code_nibble. destruct (mm_opts_of l high p); [|exact Logic.I]. destruct (prior_index _ _ _); [|exact Logic.I].
  destruct (negb mix).
  - cbn [keeps]. intros s' E. exact (H _ _ E).
  - match goal with |- context [match ?e with Some _ => _ | None => _ end] => destruct e end; [|exact Logic.I]. cbn [keeps]. intros s' E.
    destruct (negb (should_mix _)); [discriminate|]. match type of E with context [nth_pair ?a ?b] => destruct (nth_pair a b) end. exact (H _ _ E).
Qed.
Lemma lit_keeps mix v b l s : lz s -> keeps (fun p => lz (snd p)) (fun p => lgot (snd p)) v (b, l, s) (lit_node mix b l s).
Proof.
  intros K. unfold lit_node. cbv zeta. unfold lz in K. pose proof (eq_refl (lgot s)) as RK; unfold lgot in RK at 2.
  destruct (l_sub s) as [|flag| | |lr dsf|i|i h|] eqn:U.
  - cbn [keeps snd]. rewrite RK. unfold lz, lgot, lset. cbn [l_sub l_data]. auto.
  - apply keeps_code; intros b' s' E; cbn [snd]; rewrite RK.
    destruct (v =? 14); [|destruct (v =? 15)]; nx E; cbn [snd]; unfold lz, lgot, lset, lsized; cbn [l_sub l_data]; rewrite K; auto.
  - apply keeps_code; intros b' s' E; cbn [snd]; rewrite RK.
    destruct (v =? 15); [|destruct (v <=? 1)]; nx E; cbn [snd]; unfold lz, lgot, lset, lsized; cbn [l_sub l_data]; rewrite K; auto.
  - apply keeps_code; intros b' s' E; cbn [snd]; rewrite RK. nx E; cbn [snd]; unfold lz, lgot, lset; cbn [l_sub l_data]; rewrite K; auto.
  - apply keeps_code; intros b' s' E; cbn [snd]; rewrite RK. destruct (lr - 4 =? 0); nx E; cbn [snd]; unfold lz, lgot, lset, lsized; cbn [l_sub l_data]; rewrite K; auto.
  - apply keeps_nibble; intros b' s' E; cbn [snd]; rewrite RK. nx E; cbn [snd]; unfold lz, lgot, lset; cbn [l_sub l_data]. split; [exact Logic.I|lia].
  - apply keeps_nibble; intros b' s' E; cbn [snd]; rewrite RK. nx E; cbn [snd]; unfold lz, lgot; cbn [l_sub l_data]. rewrite zlen_app. change (zlen [_]) with 1.
    destruct (i + 1 =? l_len s); split; try exact Logic.I; lia.
  - exact Logic.I.
Qed.
Section Exact.
Context {R : Type} (RR : replayer R) (wl : word_len_fn) (D : dims) (g : cfg).
Hypothesis N1 : 1 <= n_mix D.
Definition tz (t : top) : Prop := match t with TBegin => True | TLit s => lz s | TPop (Literal _ _) => True | _ => False end.
Definition tgot (t : top) : Z := match t with TLit s => lgot s | TPop (Literal d _) => 2 * zlen d | _ => 0 end.
Lemma lit_exact data he : forall fuel c c' x es, tz (k_st c) -> enc_cmd RR wl D fuel g (Literal data he) false c = Some (c', Some x, es) ->
  written LIT es + tgot (k_st c) = literal_nibbles x.
Proof.
  induction fuel as [|fuel IH]; intros c c' x es K E; [discriminate|]. cbn [enc_cmd] in E. destruct (top_want g (Literal data he) false c) as [v| |] eqn:W; try discriminate.
  unfold top_want in W. unfold top_node in E. destruct (k_st c) as [|s|s|s|s|s|s|u|y|] eqn:ST; try contradiction; cbn [tz] in K.
  - assert (v = 3) by (unfold command_type_to_nibble in W; congruence). subst v. clear W.
    unfold code in E. destruct (prior_index _ _ _); [|discriminate]. cbv beta iota in E. change ((0 <=? 3) && (3 <? 16)) with true in E. cbv iota in E. unfold begin_command in E. cbv [Z.eqb Pos.eqb] in E.
    match type of E with context [enc_cmd RR wl D fuel g ?a ?b ?c] => destruct (enc_cmd RR wl D fuel g a b c) as [((c3, y), es2)|] eqn:E2 end; [|discriminate]. cbn [bind] in E. injection E as <- -> <-.
    apply IH in E2; [|reflexivity]. rewrite written_cons. cbn [e_st l1 tgot]. cbn [kset k_st tgot] in E2. change (lgot lit_begin) with 0 in E2. lia.
  - pose proof (lit_keeps (k_mix c) v (k_bk c) (k_lbk c) s K) as F. destruct (lit_node (k_mix c) (k_bk c) (k_lbk c) s) as [st d k|o|] eqn:LN; cbn [lift map_node keeps] in *.
    + destruct ((0 <=? v) && (v <? 16)); [|discriminate]. destruct (k v) as [((b', l'), s')| |] eqn:KV; cbn [map_outcome] in E; try discriminate.
      match type of E with context [enc_cmd RR wl D fuel g ?a ?b ?c] => destruct (enc_cmd RR wl D fuel g a b c) as [((c3, y), es2)|] eqn:E2 end; [|discriminate]. cbn [bind] in E. injection E as <- -> <-.
      destruct (F _ eq_refl) as (A & B). cbn [fst snd] in *. apply IH in E2; [|exact A]. cbn [k_st tgot] in E2. rewrite written_cons. cbn [e_st tgot]. lia.
    + destruct o as [((b', l'), s')| |]; cbn [map_outcome] in E; try discriminate. destruct F as (A & B). cbn [fst snd] in *. apply IH in E; [|exact A]. cbn [k_st tgot] in *. lia.
    + assert (U : l_sub s = LFully).
      { unfold lit_node in LN. cbv zeta in LN. destruct (l_sub s); try reflexivity; try discriminate LN; exfalso; revert LN.
        all: try (unfold code; destruct (prior_index _ _ _); discriminate).
        all: unfold code_nibble; destruct (mm_opts_of _ _ _); [|discriminate]; destruct (prior_index _ _ _); [|discriminate]; destruct (negb _); [discriminate|];
             match goal with |- context [match ?e with Some _ => _ | None => _ end] => destruct e end; discriminate. }
      apply IH in E; [|exact Logic.I]. cbn [kset k_st tgot] in *. unfold lgot. rewrite U. lia.
  - destruct y as [| |d h| | | |]; try contradiction. destruct (rpop RR (k_rec c) (Literal d h)); try discriminate. injection E as <- <- <-. cbn [tgot literal_nibbles]. unfold written. cbn [filter]. change (zlen (@nil ev)) with 0. lia.
Qed.
Lemma adv_kind cmd : (forall d h, cmd <> Literal d h) -> forall fuel c c' d h es, (match k_st c with TLit _ | TPop (Literal _ _) => False | _ => True end) ->
  enc_cmd RR wl D fuel g cmd false c = Some (c', Some (Literal d h), es) -> False.
Proof.
  intros NL. induction fuel as [|fuel IH]; intros c c' d h es K E; [discriminate|]. cbn [enc_cmd] in E. destruct (top_want g cmd false c) as [v| |] eqn:W; try discriminate.
  assert (GO : forall A (f : A -> codec R) dn (n : node A), (forall a, match k_st (f a) with TLit _ | TPop (Literal _ _) => False | _ => True end) ->
    (forall c0, dn = Next c0 -> match k_st c0 with TLit _ | TPop (Literal _ _) => False | _ => True end) ->
    match lift f dn n with
    | NCode st dd k => if (0 <=? v) && (v <? 16) then match k v with Next c2 => let? '(c3, x, es2) := enc_cmd RR wl D fuel g cmd false c2 in Some (c3, x, Ev st dd v :: es2) | _ => None end else None
    | NSilent (Next c2) => enc_cmd RR wl D fuel g cmd false c2 | NSilent _ => None | NAdvance c2 x => Some (c2, Some x, []) | NEnd => Some (c, None, []) end = Some (c', Some (Literal d h), es) -> False).
  { intros A f dn n Ff Fd Q. unfold lift in Q. destruct n as [st dd k|o|]; cbn [map_node] in Q.
    - destruct ((0 <=? v) && (v <? 16)); [|discriminate]. destruct (k v) as [a| |]; cbn [map_outcome] in Q; try discriminate.
      destruct (enc_cmd RR wl D fuel g cmd false (f a)) as [((c3, y), es2)|] eqn:E2; [|discriminate]. cbn [bind] in Q. injection Q as -> -> _. exact (IH _ _ _ _ _ (Ff a) E2).
    - destruct o as [a| |]; cbn [map_outcome] in Q; try discriminate. exact (IH _ _ _ _ _ (Ff a) Q).
    - destruct dn as [c0| |]; try discriminate. exact (IH _ _ _ _ _ (Fd _ eq_refl) Q). }
  unfold top_node in E. unfold top_want in W. destruct (k_st c) as [|s|s|s|s|s|s|u|y|] eqn:ST; try contradiction.
  - unfold code in E. destruct (prior_index _ _ _); [|discriminate]. cbv beta iota in E. destruct ((0 <=? v) && (v <? 16)); [|discriminate].
    assert (V : v <> 3). { assert (v = command_type_to_nibble cmd false) by congruence. destruct cmd; cbn [command_type_to_nibble] in *; try lia. exfalso. eapply NL. reflexivity. }
    unfold begin_command in E. apply Z.eqb_neq in V. rewrite V in E.
    destruct (v =? 1); [|destruct (v =? 2); [|destruct (v =? 4); [|destruct (v =? 5); [|destruct (v =? 6); [|destruct (v =? 7); [|destruct (v =? 15); [|discriminate]]]]]]];
      match type of E with context [enc_cmd RR wl D fuel g ?a ?b ?c] => destruct (enc_cmd RR wl D fuel g a b c) as [((c3, y), es2)|] eqn:E2 end; try discriminate; cbn [bind] in E; injection E as -> -> _; refine (IH _ _ _ _ _ _ E2); exact Logic.I.
  - apply GO in E; [exact E|intros; exact Logic.I|intros c0 [= <-]; exact Logic.I].
  - apply GO in E; [exact E|intros; exact Logic.I|intros c0 [= <-]; exact Logic.I].
  - destruct s; try (apply GO in E; [exact E|intros; exact Logic.I|discriminate]). discriminate.
  - destruct s; try (apply GO in E; [exact E|intros; exact Logic.I|discriminate]). discriminate.
  - destruct s; try (apply GO in E; [exact E|intros; exact Logic.I|discriminate]). discriminate.
  - destruct u; try (apply GO in E; [exact E|intros; exact Logic.I|discriminate]). destruct (obs_prediction_mode _ _); discriminate.
  - destruct (rpop RR (k_rec c) y); try discriminate. injection E as _ -> _. contradiction.
  - discriminate.
Qed.
Lemma one_exact fuel cmd c c' x es : k_st c = TBegin -> enc_cmd RR wl D fuel g cmd false c = Some (c', Some x, es) -> written LIT es = literal_nibbles x.
Proof.
  intros B E. assert (L : (exists d h, cmd = Literal d h) \/ (forall d h, cmd <> Literal d h)) by (destruct cmd; [right; discriminate|right; discriminate|left; eauto|right; discriminate..]).
  destruct L as [(d & h & ->)|NL].
  - apply lit_exact in E; [|rewrite B; exact Logic.I]. rewrite B in E. cbn [tgot] in E. lia.
  - destruct (one_bounded RR wl D g N1 _ _ _ _ _ _ _ ltac:(rewrite B; exact Logic.I) E) as (_ & A & _). rewrite B in A. cbn [tlrank] in A.
    assert (written LIT es = 0) by (pose proof (zlen_nonneg (filter (on LIT) es)); unfold written in *; destruct cmd; cbn [literal_nibbles] in A; try lia; exfalso; eapply NL; reflexivity).
    destruct x as [| |d h| | | |]; cbn [literal_nibbles]; try lia. exfalso. eapply (adv_kind cmd NL); [|exact E]. rewrite B. exact Logic.I.
Qed.
Lemma all_exact fuel : forall cmds c c' xs es, k_st c = TBegin -> enc_all RR wl D fuel g cmds c = Some (c', xs, es) -> written LIT es = total literal_nibbles xs.
Proof.
  induction cmds as [|cmd cmds IH]; intros c c' xs es B E; cbn [enc_all] in E.
  - destruct (enc_cmd RR wl D fuel g (Copy 1 0) true c) as [((c2, x), es2)|] eqn:E2; [|discriminate]. destruct x; [discriminate|]. injection E as <- <- <-.
    destruct (one_bounded RR wl D g N1 _ _ _ _ _ _ _ ltac:(rewrite B; exact Logic.I) E2) as (_ & A2 & _). rewrite B in A2. cbn [tlrank literal_nibbles] in A2. pose proof (zlen_nonneg (filter (on LIT) es2)). unfold total, written in *. cbn [map fold_right]. lia.
  - destruct (enc_cmd RR wl D fuel g cmd false c) as [((c2, x), es1)|] eqn:E2; [|discriminate]. destruct x as [x|]; [|discriminate].
    destruct (enc_all RR wl D fuel g cmds c2) as [((c3, ys), es2)|] eqn:E3; [|discriminate]. cbn [bind] in E. injection E as <- <- <-.
    destruct (one_bounded RR wl D g N1 _ _ _ _ _ _ _ ltac:(rewrite B; exact Logic.I) E2) as (_ & _ & A3).
    rewrite written_app, (one_exact _ _ _ _ _ _ B E2), (IH _ _ _ _ (A3 ltac:(discriminate)) E3). reflexivity.
Qed.
End Exact.
