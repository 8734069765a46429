(** What the coder remembers between commands. *)
From Verif Require Import Prelude ModelAns ModelCdf SpecCdf ModelMux ProofZlist ModelCmd ModelPriors ModelContextLut ModelCodec ModelLit ModelPm ModelTop SpecCodec ProofCodecInv ProofRun ProofCopy ProofTop ThmCodec SpecCost SpecWorst ProofWorst SpecWire ProofWire.

(** every way on from node [n] keeps what the bookkeeping [b] remembers *)
Definition minds {S} (bk_of : S -> bk) (b : bk) (n : node S) : Prop :=
  match n with
  | Code _ _ k => forall v s', k v = Next s' -> past_of (bk_of s') = past_of b
  | Silent (Next s') => past_of (bk_of s') = past_of b
  | _ => True
  end.
Lemma minds_code {S} (bk_of : S -> bk) b b0 c bl ix sp k : (forall P v s', k (set_priors b P) v = Next s' -> past_of (bk_of s') = past_of b0) -> minds bk_of b0 (@code b c bl ix sp S k).
Proof. intros H. unfold code. destruct (prior_index c bl ix); cbn [minds]; [|exact Logic.I]. intros v s' E. exact (H _ _ _ E). Qed.
Lemma minds_nibble {S} (bk_of : S -> bk) b0 mix l high p k : (forall l' v s', k l' v = Next s' -> past_of (bk_of s') = past_of b0) -> minds bk_of b0 (@code_nibble mix l high p S k).
Proof.
  intros H. unfold code_nibble. destruct (mm_opts_of l high p); [|exact Logic.I]. destruct (prior_index _ _ _); [|exact Logic.I]. destruct (negb mix).
  - cbn [minds]. intros v s' E. exact (H _ _ _ E).
  - match goal with |- context [match ?e with Some _ => _ | None => _ end] => destruct e end; [|exact Logic.I]. cbn [minds]. intros v s' E.
    destruct (negb (should_mix _)); [discriminate|]. match type of E with context [nth_pair ?a ?b] => destruct (nth_pair a b) end. exact (H _ _ _ E).
Qed.
Ltac ends := match goal with E : Next _ = Next _ |- _ => nx E; reflexivity end.
Lemma copy_minds b s : minds fst b (copy_node b s).
Proof.
  unfold copy_node. cbv zeta. destruct (c_sub s); try (apply minds_code; intros P v s' E); try reflexivity; try exact Logic.I.
  - destruct (v =? 15); ends.
  - destruct (v =? 15); ends.
  - destruct (v + 18 <? 32); [ends|discriminate].
  - destruct (_ =? 0); ends.
  - destruct (v =? 15); [ends|]. destruct (distance_from_code _ _) as (d, o). destruct o; [ends|discriminate].
  - destruct (v =? 14); [ends|]. destruct (v =? 15); [ends|]. destruct (v =? 0); ends.
  - ends.
  - destruct (_ =? 0); ends.
Qed.
Lemma dict_minds wl b s : minds fst b (dict_node wl b s).
Proof.
  unfold dict_node. cbv zeta. destruct (d_sub s); try (apply minds_code; intros P v s' E); try reflexivity; try exact Logic.I.
  - destruct (v =? 15); ends.
  - destruct (24 <? v + 19); [discriminate|ends].
  - destruct (_ =? 0); ends.
  - ends.
  - destruct (121 <=? _); [discriminate|ends].
Qed.
Lemma btype_minds i b s : minds fst b (btype_node i b s).
Proof.
  unfold btype_node. destruct s; try (apply minds_code; intros P v s' E); try exact Logic.I; try ends.
  destruct (v =? 0); [ends|]. destruct (v =? 1); [ends|]. destruct (v =? 15); ends.
Qed.
Lemma lbtype_minds b s : minds fst b (lbtype_node b s).
Proof.
  unfold lbtype_node. destruct s as [|u|t|]; [reflexivity| |apply minds_code; intros P v s' E; ends|exact Logic.I].
  assert (G : minds fst b (map_node (fun p => (fst p, LbInter (snd p))) Panic (btype_node 0 b u))).
  { pose proof (btype_minds 0 b u) as F. destruct (btype_node 0 b u) as [st d k|o|]; cbn [map_node minds] in *; [|destruct o as [(b', u')| |]; cbn [map_outcome]; [exact F|exact Logic.I..]|exact Logic.I].
    intros v s' E. specialize (F v). destruct (k v) as [(b', u')| |]; cbn [map_outcome] in E; try discriminate. nx E. exact (F _ eq_refl). }
  destruct u; try exact G. reflexivity.
Qed.
Lemma lit_minds mix b l s : minds (fun p : bk * lbk * lit_st => fst (fst p)) b (lit_node mix b l s).
Proof.
  unfold lit_node. cbv zeta. destruct (l_sub s); try (apply minds_code; intros P v s' E); try (apply minds_nibble; intros l' v s' E); try reflexivity; try exact Logic.I; try ends.
  - destruct (v =? 14); [ends|]. destruct (v =? 15); ends.
  - destruct (v =? 15); [ends|]. destruct (v <=? 1); ends.
  - destruct (_ =? 0); ends.
Qed.
Lemma obs_past b b' d i x : obs_context_map b d i x = Some b' -> past_of b' = past_of b.
Proof. unfold obs_context_map. cbv zeta. destruct (negb d); [intros E; injection E as <-; reflexivity|]. destruct (_ <? _); [|discriminate]. intros E; injection E as <-. reflexivity. Qed.
Lemma pm_minds D b s : minds fst b (pm_node D b s).
Proof.
  unfold pm_node. destruct s as (p, u). destruct u; cbv zeta; try (apply minds_code; intros P v s' E); try exact Logic.I; try ends.
  - cbv zeta in E. destruct (_ =? 16); [|ends]. do 4 (match type of E with match ?e with Some _ => _ | None => _ end = _ => destruct e; [|discriminate E] end). ends.
  - destruct (v =? 14); [destruct distance; ends|]. destruct (v =? 15); [ends|]. destruct (obs_context_map _ _ _ _) eqn:O; [|discriminate]. apply obs_past in O. destruct (pm_store _ _ _ _); [|discriminate].
    nx E. cbn [fst]. rewrite O. reflexivity.
  - destruct (pm_store _ _ _ _); [|discriminate]. destruct (obs_context_map _ _ _ _) eqn:O; [|discriminate]. apply obs_past in O. nx E. cbn [fst]. rewrite O. reflexivity.
  - destruct (index <? _); [|discriminate]. ends.
Qed.

Section Mind.
Context {R : Type} (RR : replayer R) (wl : word_len_fn) (D : dims) (g : cfg).
Variable b0 : bk.
Hypothesis F4 : zlen (distance_lru b0) = 4.
Hypothesis ND : NoDup (distance_lru b0).
Definition mind (c : codec R) : Prop :=
  match k_st c with TPop x => past_of (k_bk c) = SpecWire.after (past_of b0) x | _ => past_of (k_bk c) = past_of b0 end.
Definition tminds (n : tnode R) : Prop :=
  match n with
  | NCode _ _ k => forall v c', k v = Next c' -> mind c'
  | NSilent (Next c') => mind c'
  | NAdvance c' x => past_of (k_bk c') = SpecWire.after (past_of b0) x
  | _ => True
  end.
Lemma tminds_lift {A} bk_of (f : A -> codec R) dn b n : minds bk_of b n -> past_of b = past_of b0 ->
  (forall a, past_of (bk_of a) = past_of b0 -> mind (f a)) -> match dn with Next c' => mind c' | _ => True end -> tminds (lift f dn n).
Proof.
  intros F B H Dn. unfold lift. destruct n as [st d k|o|]; cbn [map_node minds tminds] in *.
  - intros v c' E. specialize (F v). destruct (k v) as [a| |]; cbn [map_outcome] in E; try discriminate. nx E. apply H. rewrite <- B. exact (F _ eq_refl).
  - destruct o; cbn [map_outcome]; try exact Logic.I. apply H. rewrite <- B. exact F.
  - destruct dn; exact Dn.
Qed.
Lemma obs_btype_past b i t : past_of b = past_of b0 -> past_of (obs_btype b i t) = switched (past_of b0) i t.
Proof. intros H. rewrite <- H. reflexivity. Qed.
Lemma obs_distance_past b d n : past_of b = past_of b0 -> past_of (obs_distance b d) = SpecWire.after (past_of b0) (Copy d n).
Proof.
  intros H. assert (HL : distance_lru b = distance_lru b0) by (change (recent (past_of b) = recent (past_of b0)); rewrite H; reflexivity).
  destruct (obs_distance_mtf b d ltac:(rewrite HL; exact F4) ltac:(rewrite HL; exact ND)) as (M & _).
  rewrite <- H. cbn [SpecWire.after past_of recent types tops]. unfold mtf in M. rewrite <- M.
  unfold past_of. f_equal; unfold obs_distance; cbv zeta; destruct (d =? _); try reflexivity; destruct (d =? _); try reflexivity; destruct (negb _); reflexivity.
Qed.
Lemma top_minds c : mind c -> tminds (top_node RR wl D c).
Proof.
  intros M. unfold mind in M. unfold top_node. destruct (k_st c) as [|s|s|s|s|s|s|u|x|] eqn:ST.
  - unfold code. destruct (prior_index _ _ _); [|exact Logic.I]. cbn [tminds]. intros v c' E. unfold begin_command in E.
    repeat (match type of E with (if ?e then _ else _) = _ => destruct e; [nx E; exact M|] end). discriminate.
  - apply (tminds_lift _ _ _ _ _ (lit_minds (k_mix c) (k_bk c) (k_lbk c) s) M); [intros ((b', l'), s') H; exact H|exact M].
  - apply (tminds_lift _ _ _ _ _ (dict_minds wl (k_bk c) s) M); [intros (b', s') H; exact H|exact M].
  - apply (tminds_lift _ _ _ _ _ (copy_minds (k_bk c) s) M); [intros (b', s') H; exact H|]. apply (obs_distance_past (k_bk c) (cc_distance s) (cc_num_bytes s) M).
  - assert (G : tminds (lift (fun p => kset c (fst p) (TBsl (snd p))) Panic (lbtype_node (k_bk c) s))) by (apply (tminds_lift _ _ _ _ _ (lbtype_minds (k_bk c) s) M); [intros (b', s') H; exact H|exact Logic.I]).
    destruct s; try exact G. exact (obs_btype_past _ 0 ltype M).
  - assert (G : tminds (lift (fun p => kset c (fst p) (TBsc (snd p))) Panic (btype_node 1 (k_bk c) s))) by (apply (tminds_lift _ _ _ _ _ (btype_minds 1 (k_bk c) s) M); [intros (b', s') H; exact H|exact Logic.I]).
    destruct s; try exact G. exact (obs_btype_past _ 1 btype M).
  - assert (G : tminds (lift (fun p => kset c (fst p) (TBsd (snd p))) Panic (btype_node 2 (k_bk c) s))) by (apply (tminds_lift _ _ _ _ _ (btype_minds 2 (k_bk c) s) M); [intros (b', s') H; exact H|exact Logic.I]).
    destruct s; try exact G. exact (obs_btype_past _ 2 btype M).
  - assert (G : tminds (lift (fun p => K (fst p) (k_lbk c) (k_mix c) (fst (snd p)) (k_rec c) (TPm (snd (snd p)))) Panic (pm_node D (k_bk c) (k_pm c, u)))) by (apply (tminds_lift _ _ _ _ _ (pm_minds D (k_bk c) (k_pm c, u)) M); [intros (b', (p', u')) H; exact H|exact Logic.I]).
    destruct u; try exact G. destruct (obs_prediction_mode _ _); try exact Logic.I. exact M.
  - destruct (rpop RR (k_rec c) x); try exact Logic.I. exact M.
  - exact Logic.I.
Qed.
Lemma one_minds cmd e : forall fuel c c' x es, mind c -> enc_cmd RR wl D fuel g cmd e c = Some (c', Some x, es) -> past_of (k_bk c') = SpecWire.after (past_of b0) x.
Proof.
  induction fuel as [|fuel IH]; intros c c' x es M E; [discriminate|]. cbn [enc_cmd] in E. destruct (top_want g cmd e c) as [v| |]; try discriminate.
  pose proof (top_minds c M) as F. destruct (top_node RR wl D c) as [st d k|o|c2 y|]; cbn [tminds] in F.
  - destruct ((0 <=? v) && (v <? 16)); [|discriminate]. specialize (F v). destruct (k v) as [c2| |]; try discriminate.
    destruct (enc_cmd RR wl D fuel g cmd e c2) as [((c3, y), es2)|] eqn:E2; [|discriminate]. cbn [bind] in E. injection E as <- -> _. exact (IH _ _ _ _ (F _ eq_refl) E2).
  - destruct o as [c2| |]; try discriminate. exact (IH _ _ _ _ F E).
  - injection E as <- <- _. exact F.
  - discriminate.
Qed.
End Mind.

Section AllWire.
Context {R : Type} (RR : replayer R) (wl : word_len_fn) (D : dims) (g : cfg).
Hypothesis N1 : 1 <= n_mix D.
Lemma after_four p d n : zlen (recent p) = 4 -> NoDup (recent p) -> zlen (recent (SpecWire.after p (Copy d n))) = 4 /\ NoDup (recent (SpecWire.after p (Copy d n))).
Proof.
  intros L N. destruct p as [r t o]. cbn [recent SpecWire.after] in *. set (b := set_distance_lru bk_new r).
  destruct (obs_distance_mtf b d L N) as (M & M1 & M2). unfold mtf in M. change (distance_lru b) with r in M. rewrite <- M. auto.
Qed.
Lemma vals_app st a b : vals st (a ++ b) = vals st a ++ vals st b.
Proof. unfold vals. rewrite filter_app, map_app. reflexivity. Qed.
Lemma after_coded p old c : SpecWire.after p (coded wl D g old c) = SpecWire.after p c.
Proof. destruct c; reflexivity. Qed.

(** ** short codes *)
Definition near (r : list Z) : Prop := Forall (fun x => 0 <= x < 2 ^ 30) r /\ zlen r = 4 /\ NoDup r.
Lemma short_code_wire r d : near r -> 1 <= d < 2 ^ 30 -> distance_coded r d = distance_wire r d.
Proof.
  intros (F & L & _) HD. destruct r as [|r0 [|r1 [|r2 [|r3 [|r4 r]]]]]; try discriminate L; [|unfold zlen in L; cbn [length] in L; lia].
  repeat match goal with H : Forall _ (_ :: _) |- _ => apply Forall_cons_iff in H; destruct H end. cbv beta in *.
  set (l := [r0; r1; r2; r3]) in *.
  assert (S4 : forall k, 4 <= k < 15 -> (let '(item, ok) := distance_from_code l k in (item =? d) && ok) = (znth l (k / 2 mod 2) + (if Z.odd k then - (k / 4) else k / 4) =? d)).
  { intros k HK. destruct (C25_short_code_meaning l k ltac:(change (znth l 0) with r0; lia) ltac:(change (znth l 1) with r1; lia)) as (_ & M). specialize (M HK). cbv zeta in M.
    destruct (distance_from_code l k) as (item, ok). cbn [fst snd] in M. destruct M as (M1 & M2). set (x := znth l (k / 2 mod 2) + _) in *. clearbody x. subst ok.
    destruct (Z.ltb_spec 0 x) as [P|P]; [rewrite (M2 P); apply andb_true_r|]. rewrite andb_false_r. symmetry. apply Z.eqb_neq. lia. }
  assert (S0 : forall k, 0 <= k < 4 -> (let '(item, ok) := distance_from_code l k in (item =? d) && ok) = (znth l k =? d)).
  { intros k HK. destruct (C25_short_code_meaning l k ltac:(change (znth l 0) with r0; lia) ltac:(change (znth l 1) with r1; lia)) as (M & _). rewrite (M HK). apply andb_true_r. }
  assert (E : distance_mnemonic_code l d = match place d 0 (short_codes l) with Some i => i | None => 15 end).
  { unfold distance_mnemonic_code. cbn [find]. rewrite !S0, !S4 by lia.
    change (znth l 0) with r0. change (znth l 1) with r1. change (znth l 2) with r2. change (znth l 3) with r3.
    repeat match goal with |- context [znth l (?k / 2 mod 2) + (if Z.odd ?k then - (?k / 4) else ?k / 4)] =>
      let x := eval cbv in (k / 2 mod 2) in let y := eval cbv in (if Z.odd k then - (k / 4) else k / 4) in
      change (znth l (k / 2 mod 2) + (if Z.odd k then - (k / 4) else k / 4)) with (znth l x + y) end.
    change (znth l 0) with r0. change (znth l 1) with r1. unfold l, short_codes. cbn [place]. unfold Z.sub. cbn [Z.opp].
    repeat match goal with |- context [?a =? d] => destruct (a =? d); [reflexivity|] end. reflexivity. }
  unfold distance_coded, distance_wire. cbv zeta. rewrite E.
  assert (PR : forall i, place d 0 (short_codes l) = Some i -> i < 15). { intros i P. apply place_range in P. change (zlen (short_codes l)) with 15 in P. lia. }
  destruct (place d 0 (short_codes l)) as [i|]; [specialize (PR i eq_refl); destruct (Z.eqb_spec i 15); [lia|reflexivity]|].
  change (15 =? 15) with true. cbv iota. f_equal. unfold distance_long_coded, distance_long. change (znth l 1) with r1.
  assert (Q : ((r1 - 3) mod 2 ^ 32 =? d) = (r1 - 3 =? d)). { destruct (Z.ltb_spec r1 3); [|rewrite Z.mod_small by lia; reflexivity]. replace ((r1 - 3) mod 2 ^ 32) with (r1 - 3 + 2 ^ 32) by (rewrite <- (Z.mod_add _ 1) by lia; rewrite Z.mod_small by lia; lia). lia. }
  rewrite Q. reflexivity.
Qed.
Lemma near_after p cmd : near (recent p) -> encodable D g cmd -> near (recent (SpecWire.after p cmd)).
Proof.
  intros (F & L & N) HE. destruct cmd as [d n|ws wid tr fs|data he|m|t|t|t sd]; try (split; [exact F|split; [exact L|exact N]]).
  destruct (after_four p d n L N) as (A & B). split; [|auto]. cbn [SpecWire.after recent]. cbn [encodable] in HE. rewrite firstn_cons. constructor; [lia|].
  apply Forall_forall. intros x H. assert (FI : forall k (m : list Z) y, In y (firstn k m) -> In y m) by (clear; induction k as [|k IH]; intros [|z m] y H; cbn [firstn] in H; try contradiction; destruct H as [H|H]; [left; exact H|right; apply IH; exact H]).
  apply FI in H. apply filter_In in H. rewrite Forall_forall in F. exact (F x (proj1 H)).
Qed.
Lemma coded_wire p cmd : near (recent p) -> encodable D g cmd -> command_coded D g p cmd = command_wire D g p cmd.
Proof. intros N HE. destruct cmd; try reflexivity. cbn [command_coded command_wire]. rewrite short_code_wire; [reflexivity|exact N|apply HE]. Qed.
Lemma all_wire fuel : forall cmds c c' old es, k_st c = TBegin -> Forall (encodable D g) cmds ->
  near (distance_lru (k_bk c)) ->
  enc_all RR wl D fuel g cmds c = Some (c', coded_all wl D g old cmds, es) ->
  vals CMD es = stream_wire D g (past_of (k_bk c)) cmds /\ vals LIT es = flat_map content_wire cmds.
Proof.
  induction cmds as [|cmd cmds IH]; intros c c' old es B F NR E; cbn [enc_all coded_all] in E.
  - destruct (enc_cmd RR wl D fuel g (Copy 1 0) true c) as [((c2, x), es2)|] eqn:E2; [|discriminate]. destruct x; [discriminate|]. injection E as _ <-.
    destruct (one_wire RR wl D g N1 (Copy 1 0) true ltac:(cbn; lia) fuel c _ _ _ ltac:(unfold tsok; rewrite B; exact Logic.I) E2) as (A1 & A2). rewrite A1, A2. unfold tsc, tsl. rewrite B. auto.
  - destruct (enc_cmd RR wl D fuel g cmd false c) as [((c2, x), es1)|] eqn:E2; [|discriminate]. destruct x as [x|]; [|discriminate].
    destruct (enc_all RR wl D fuel g cmds c2) as [((c3, ys), es2)|] eqn:E3; [|discriminate]. cbn [bind] in E. injection E as _ EX EY <-. apply Forall_cons_iff in F. destruct F as (F1 & F2).
    destruct (one_wire RR wl D g N1 cmd false F1 fuel c _ _ _ ltac:(unfold tsok; rewrite B; exact Logic.I) E2) as (A1 & A2). unfold tsc, tsl in A1, A2. rewrite B in A1, A2.
    assert (PA : past_of (k_bk c2) = SpecWire.after (past_of (k_bk c)) cmd). { rewrite (one_minds RR wl D g (k_bk c) (proj1 (proj2 NR)) (proj2 (proj2 NR)) cmd false fuel c c2 x es1); [rewrite EX; apply after_coded|unfold mind; rewrite B; reflexivity|exact E2]. }
    assert (PR : distance_lru (k_bk c2) = recent (SpecWire.after (past_of (k_bk c)) cmd)) by (rewrite <- PA; reflexivity).
    subst ys. destruct (IH _ _ _ _ (one_begins RR wl D g N1 _ _ _ _ _ _ _ B E2) F2 ltac:(rewrite PR; apply near_after; [exact NR|exact F1]) E3) as (C1 & C2).
    rewrite !vals_app, A1, A2, C1, C2, PA. rewrite coded_wire by (first [exact NR|exact F1]). cbn [stream_wire flat_map]. auto.
Qed.
End AllWire.
Lemma near0 : near (distance_lru bk_new).
Proof. split; [|split; [reflexivity|]]; cbn [bk_new distance_lru]; [repeat (apply Forall_cons; [lia|]); apply Forall_nil|]. repeat (constructor; [cbn [In]; lia|]). constructor. Qed.
Lemma reachable_near {R} (RR : replayer R) wl D c : big D -> reachable RR wl D c -> near (distance_lru (k_bk c)).
Proof.
  intros B H. induction H as [r|c g cmd fuel c' x es RC NR G E M X]; [exact near0|].
  destruct (reachable_inv RR wl D c B RC) as (I & T). destruct (run_cmd RR wl D B g G c cmd I T E M) as (f & c2 & y & es2 & E2 & _ & Y & _).
  pose proof (enc_det RR wl D _ _ _ _ _ _ _ _ X E2) as Q. injection Q as -> -> _. subst y.
  destruct NR as (N1 & N2 & N3). pose proof (one_minds RR wl D g (k_bk c) N2 N3 cmd false f c c2 _ es2 ltac:(unfold mind; rewrite T; reflexivity) E2) as PA.
  rewrite after_coded in PA. change (distance_lru (k_bk c2)) with (recent (past_of (k_bk c2))). rewrite PA. apply (near_after D g); [split; [exact N1|split; [exact N2|exact N3]]|exact E].
Qed.
