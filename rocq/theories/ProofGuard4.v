(** Any bytes in the decompressor: the content of a literal. *)
From Verif Require Import Prelude ProofList ModelAns SpecAns ModelCdf SpecCdf ProofCdf ProofAns ProofAnsRt ProofAnsDec ThmCdf ModelMux ProofZlist ProofMux ProofMuxR ModelCmd ModelCrc ModelHeader ModelRecode SpecLz ModelPriors ModelCodec ModelLit ModelPm ModelTop SpecCodec ModelEnc ModelDec ModelContextLut ThmPriors ProofCodecInv ProofCodecInv2 ProofRun ProofTop ProofDec2 ProofDec3 ProofDec4 SpecHostile ProofHostile SpecGuard ProofGuard1 ProofGuard2 ProofGuard3.

Lemma code_nibble_shape {S} mix l high cp (k : lbk -> Z -> outcome S) :
  code_nibble mix l high cp k = Silent Panic \/
  exists cdf u, code_nibble mix l high cp k = Code LIT cdf u /\ forall v, u v = Panic \/ exists l', u v = k l' v.
Proof.
  unfold code_nibble. destruct (mm_opts_of l high cp) as [o|]; [|left; reflexivity]. destruct (prior_index _ _ (nibble_index l high cp o)) as [i|]; [|left; reflexivity].
  destruct mix; cbn [negb].
  - destruct (if high then _ else _) as [j|]; [|left; reflexivity]. right. do 2 eexists. split; [reflexivity|]. intros v. cbn beta.
    destruct (negb (should_mix (if high then wt_high l else wt_low l))); [left; reflexivity|]. right.
    destruct (nth_pair _ _). eexists. reflexivity.
  - right. do 2 eexists. split; [reflexivity|]. intros v. right. eexists. reflexivity.
Qed.
Notation lbk_ok := (inv_lbk adapted tame).
Definition dbig (d : decoder) : Prop := (4 < need d)%nat -> b_req d = 0.
(** the next nibble of a literal, whatever it is *)
Definition lnext (mix : bool) (s : lit_st) (l' : lbk) (s' : lit_st) : Prop :=
  lbk_ok l' /\ inv_mix mix l' /\ lit_sane s' /\ togo s = togo s' + 1 /\ l_len s' = l_len s /\
  (parity s = 0 -> parity s' = 1 /\ pos_ok s') /\ (parity s = 1 -> parity s' = 0 /\ (l_sub s' = LFully \/ pos_ok s')).
Lemma lit_any mix l s : lbk_ok l -> inv_mix mix l -> lit_sane s -> pos_ok s ->
  exists cdf k, lit_node mix bk_new l s = Code LIT cdf k /\ codable cdf /\
    forall v, nibble v -> exists l' s', k v = Next (bk_new, l', s') /\ lnext mix s l' s'.
Proof.
  intros LB MX LS PO.
  set (Q := fun p : bk * lbk * lit_st => fst (fst p) = bk_new /\ lnext mix s (snd (fst p)) (snd p)).
  assert (FIN : forall high h (k : lbk -> Z -> outcome (bk * lbk * lit_st)), nibble h -> lit_node mix bk_new l s = code_nibble mix l high h k ->
    (forall l' v, lbk_ok l' -> inv_mix mix l' -> nibble v -> oc_ok Q (k l' v)) -> (forall l' v, exists x, k l' v = Next x) ->
    exists cdf k, lit_node mix bk_new l s = Code LIT cdf k /\ codable cdf /\ forall v, nibble v -> exists l' s', k v = Next (bk_new, l', s') /\ lnext mix s l' s').
  { intros high h k NH -> KQ KN. pose proof (code_nibble_ok adapted tame adapted0 adapted_blend tame_pos Q mix l high h k LB MX NH KQ) as OK.
    destruct (code_nibble_shape mix l high h k) as [E|(cdf & u & E & SH)]; rewrite E in OK |- *; cbn [node_ok oc_ok] in OK; [contradiction|]. destruct OK as (SO & OK).
    exists cdf, u. split; [reflexivity|]. split; [apply src_codable, SO|]. intros v NV. specialize (OK v NV). destruct (SH v) as [X|(l' & X)]; [rewrite X in OK; contradiction|].
    destruct (KN l' v) as (x & KX). rewrite X, KX in OK |- *. cbn [oc_ok] in OK. destruct x as ((b1 & l1) & s1). destruct OK as (E1 & LN). cbn [fst snd] in *. subst b1. exists l1, s1. split; [reflexivity|exact LN]. }
  unfold pos_ok, lit_sane in *. destruct (l_sub s) as [| | | | |i|i h|] eqn:U; try contradiction.
  - eapply (FIN true 0); [unfold nibble; lia|unfold lit_node; rewrite U; reflexivity| |intros; eexists; reflexivity].
    intros l' v L' M' NV. cbn [oc_ok]. split; [reflexivity|]. cbn [fst snd]. unfold lnext, lit_sane, togo, parity, pos_ok. rewrite U. cbn [lset l_sub l_len l_data]. destruct LS as (S1 & S2 & S3).
    split; [exact L'|]. split; [exact M'|]. split; [auto|]. split; [lia|]. split; [reflexivity|]. split; [auto|discriminate].
  - destruct LS as (S1 & S2 & S3 & NH). eapply (FIN false h); [exact NH|unfold lit_node; rewrite U; reflexivity| |intros; eexists; reflexivity].
    intros l' v L' M' NV. cbn [oc_ok]. split; [reflexivity|]. cbn [fst snd]. unfold lnext, lit_sane, togo, parity, pos_ok. rewrite U. cbn [l_sub l_len l_data].
    assert (BY : bytes (l_data s ++ [Z.lor v (Z.shiftl h 4)])). { apply Forall_app. split; [exact S1|]. apply Forall_cons; [|apply Forall_nil]. rewrite Z.lor_comm; apply nib_join; assumption. }
    pose proof (zlen_nonneg (l_data s)) as ZN. rewrite zlen_app. change (zlen [Z.lor v (Z.shiftl h 4)]) with 1.
    split; [apply inv_push, L'|]. split; [exact M'|]. destruct (Z.eqb_spec (i + 1) (l_len s)) as [E|E].
    + split; [split; [exact BY|lia]|]. split; [lia|]. split; [reflexivity|]. split; [discriminate|]. auto.
    + split; [split; [exact BY|lia]|]. split; [lia|]. split; [reflexivity|]. split; [discriminate|]. intros _. split; [reflexivity|right; lia].
Qed.
Lemma nibble_any m b d l safe s : dsane d -> dbig d -> lbk_ok l -> inv_mix (m_mix m) l -> lit_sane s -> pos_ok s -> sym_count d mod 2 = parity s -> need d = 0%nat ->
  (exists h, g_nibble (m_cont m b d l (Some (safe, s))) = Unsafe h) \/
  exists l' s' d', g_nibble (m_cont m b d l (Some (safe, s))) = Fine (m_cont m b d' l' (Some (safe, s'))) /\
    lnext (m_mix m) s l' s' /\ dsane d' /\ dbig d' /\ sym_count d' mod 2 = parity s' /\
    (parity s = 0 -> (need d' <= 4)%nat /\ (b_req d = 0 -> need d' = 0%nat)).
Proof.
  intros DS DB LB MX LS PO PA N0. destruct (lit_any _ _ _ LB MX LS PO) as (cdf & k & E & CD & KV). unfold g_nibble.
  cbn [m_lit m_cont m_mix m_lbk m_dec]. rewrite E. destruct (underflows d cdf) eqn:UF; [left; eexists; reflexivity|].
  destruct (sym_any d cdf DS N0 CD UF) as (v & d2 & G & NV & DS2 & SC & ND & BQ). destruct (KV v NV) as (l' & s' & KE & LN).
  assert (NB : lit_nibble (m_cont m b d l (Some (safe, s))) = Some (m_cont m b d2 l' (Some (safe, s')))).
  { unfold lit_nibble. cbn [m_lit m_cont m_mix m_lbk m_dec]. rewrite E, G. cbn [bind]. rewrite KE. reflexivity. }
  rewrite NB. cbn [of_opt gbind m_dec m_cont]. destruct (ragged d2) eqn:RG; [left; eexists; reflexivity|].
  right. exists l', s', d2. split; [reflexivity|]. split; [exact LN|]. split; [exact DS2|].
  split. { intros X. unfold ragged in RG. rewrite (avail_need _ DS2) in RG. destruct (Z.ltb_spec 4 (Z.of_nat (need d2))); [|lia]. cbn [andb] in RG. destruct (Z.eqb_spec (b_req d2) 0); [assumption|discriminate RG]. }
  destruct LN as (_ & _ & _ & _ & _ & L0 & L1).
  assert (P01 := par_cases s PO). pose proof (proj1 (proj2 (proj2 (proj2 DS)))) as SR.
  split.
  - unfold full_chunk in SC. destruct P01 as [P|P]; [destruct (L0 P) as (-> & _)|destruct (L1 P) as (-> & _)]; rewrite P in PA; destruct (Z.eqb_spec (sym_count d) 65535); rewrite SC; lia.
  - intros P. rewrite P in PA. unfold full_chunk in ND. destruct (Z.eqb_spec (sym_count d) 65535) as [X|X]; [rewrite X in PA; discriminate PA|]. rewrite ND. destruct (Z.eqb_spec (b_req d) 0); [split; [lia|reflexivity]|split; [lia|intros; contradiction]].
Qed.

Record linv (mix : bool) (b : mbuf) (d : decoder) (l : lbk) (safe : bool) (s : lit_st) : Prop := {
  lv_b : bok b; lv_d : dsane d; lv_big : dbig d; lv_l : lbk_ok l; lv_mix : inv_mix mix l; lv_s : lit_sane s; lv_pos : pos_ok s;
  lv_par : sym_count d mod 2 = parity s; lv_safe : safe_ok safe s d b }.
Definition hdone (m : main) (n : Z) (m' : main) : Prop :=
  exists b' d' l' safe' s', m' = m_cont m b' d' l' (Some (safe', s')) /\ bok b' /\ dsane d' /\ dbig d' /\ lbk_ok l' /\ inv_mix (m_mix m) l' /\ lit_sane s' /\ l_sub s' = LFully /\ l_len s' = n /\ sym_count d' mod 2 = 0.
Definition hwait (m : main) (n : Z) (m' : main) : Prop :=
  exists b' d' l' safe' s', m' = m_cont m b' d' l' (Some (safe', s')) /\ linv (m_mix m) b' d' l' safe' s' /\ l_len s' = n.
Lemma fill_big d d' k : dbig d -> need d' = (need d - k)%nat -> b_req d' = b_req d -> dbig d'.
Proof. intros H N B X. rewrite B. apply H. lia. Qed.
Lemma togo_pos s : lit_sane s -> pos_ok s -> 1 <= togo s.
Proof. unfold lit_sane, pos_ok, togo. destruct (l_sub s); try contradiction; lia. Qed.
Lemma content_any m : forall fuel b d l safe s, linv (m_mix m) b d l safe s -> togo s < Z.of_nat fuel ->
  (exists h, g_content fuel (m_cont m b d l (Some (safe, s))) = Unsafe h) \/
  exists m' ok, g_content fuel (m_cont m b d l (Some (safe, s))) = Fine (m', ok) /\ (if ok : bool then hdone m (l_len s) m' else hwait m (l_len s) m').
Proof.
  induction fuel as [|fuel IH]; intros b d l safe s [B DS DB LB MX LS P PA SA] F; pose proof (togo_pos s LS P) as TP; [lia|].
  cbn [g_content]. rewrite lit_fill_cont. destruct (fill_sane d b DS B) as (d1 & b1 & -> & DS1 & SC1 & BR1 & B1 & M1 & E1 & N1 & _). cbn [bind of_opt gbind].
  pose proof (fill_big _ _ _ DB N1 BR1) as DB1.
  destruct (Nat.eqb_spec (need d1) 0) as [N0|N0]; cbn [negb].
  2:{ right. eexists. exists false. split; [reflexivity|]. exists b1, d1, l, safe, s. split; [reflexivity|]. split; [|reflexivity].
      constructor; try assumption; [rewrite SC1; exact PA|]. intros X. destruct (SA X) as (S1 & [S2|(S2 & _)]); [|exfalso; lia].
      exfalso. rewrite (ready_len b B) in S2. pose proof (need_le16 d DS). lia. }
  change (m_lit (m_cont m b1 d1 l (Some (safe, s)))) with (Some (safe, s)). cbv iota beta.
  assert (PA1 : sym_count d1 mod 2 = parity s) by (rewrite SC1; exact PA).
  destruct (nibble_any m b1 d1 l safe s DS1 DB1 LB MX LS P PA1 N0) as [(h & NS)|(l' & s' & d2 & NS & (LB' & MX' & LS' & TG & LL & HI & LO) & DS2 & DB2 & PA2 & ND)].
  { left. exists h. rewrite NS. destruct safe; reflexivity. }
  rewrite NS. cbn [gbind]. destruct safe.
  - destruct (SA eq_refl) as (PS & RD). destruct (HI PS) as (PS' & PO'). destruct (ND PS) as (ND2 & BZ).
    assert (R1 : b_req d1 = 0 \/ (12 <= length (mb_data b1))%nat).
    { rewrite BR1, E1, skipn_length. rewrite (ready_len b B) in RD. destruct (Nat.le_gt_cases (need d) 4) as [X|X]; [|left; apply DB; lia].
      destruct RD as [RD|(RD & [RB|RB])]; [right; lia|left; exact RB|right; lia]. }
    rewrite lit_fill_cont. destruct (fill_sane d2 b1 DS2 B1) as (d3 & b3 & -> & DS3 & SC3 & BR3 & B3 & M3 & E3 & N3 & _). cbn [bind of_opt gbind].
    assert (N30 : need d3 = 0%nat) by (rewrite N3; destruct R1 as [R1|R1]; [rewrite (BZ R1); reflexivity|lia]). rewrite N30. cbn [Nat.eqb negb].
    assert (PA3 : sym_count d3 mod 2 = parity s') by (rewrite SC3; exact PA2).
    destruct (nibble_any m b3 d3 l' true s' DS3 (fill_big _ _ _ DB2 N3 BR3) LB' MX' LS' PO' PA3 N30) as [(h & NS2)|(l'' & s'' & d4 & NS2 & (LB'' & MX'' & LS'' & TG2 & LL2 & _ & LO2) & DS4 & DB4 & PA4 & _)].
    { left. exists h. rewrite NS2. reflexivity. }
    destruct (LO2 PS') as (PS'' & SD). rewrite NS2. cbn [gbind].
    change (ready (m_cont m b3 d3 l' (Some (true, s'))) 1) with (wr b3 - rd b3).
    destruct (Z.ltb_spec (wr b3 - rd b3) 16) as [LW|LW].
    + rewrite done_sub. destruct SD as [SD|SD].
      * rewrite SD. right. eexists. exists true. split; [reflexivity|]. exists b3, d4, l'', true, s''. split; [reflexivity|]. do 7 (split; [assumption|]). split; [congruence|]. congruence.
      * rewrite (pos_not_done _ SD). unfold set_safe. change (m_lit (m_cont m b3 d4 l'' (Some (true, s'')))) with (Some (true, s'')).
        change (ready (m_cont m b3 d4 l'' (Some (true, s''))) 1) with (wr b3 - rd b3). change (m_set_lit (m_cont m b3 d4 l'' (Some (true, s''))) (Some (16 <=? wr b3 - rd b3, s''))) with (m_cont m b3 d4 l'' (Some (16 <=? wr b3 - rd b3, s''))).
        destruct (Z.leb_spec 16 (wr b3 - rd b3)); [lia|].
        replace (l_len s) with (l_len s'') by congruence. apply IH; [constructor; try assumption; discriminate|lia].
    + rewrite lit_fill_cont. destruct (fill_sane d4 b3 DS4 B3) as (d5 & b5 & -> & DS5 & SC5 & BR5 & B5 & M5 & E5 & N5 & _). cbn [bind of_opt gbind].
      pose proof (fill_big _ _ _ DB4 N5 BR5) as DB5.
      assert (N50 : need d5 = 0%nat). { rewrite N5. pose proof (need_le16 d4 DS4) as N16. rewrite (ready_len b3 B3) in LW. clear - N16 LW. lia. } rewrite N50. cbn [Nat.eqb negb].
      rewrite done_sub. destruct SD as [SD|SD].
      * rewrite SD. right. eexists. exists true. split; [reflexivity|]. exists b5, d5, l'', true, s''. split; [reflexivity|]. do 7 (split; [assumption|]). split; [congruence|]. congruence.
      * rewrite (pos_not_done _ SD). replace (l_len s) with (l_len s'') by congruence. apply IH; [constructor; try assumption; [rewrite SC5; exact PA4|]|clear - F TG TG2; lia].
        intros _. split; [exact PS''|right]. split; [exact N50|]. rewrite BR5, (ready_len b5 B5), E5, skipn_length. rewrite (ready_len b3 B3) in LW.
        destruct (Nat.le_gt_cases (need d4) 4) as [X|X]; [right; clear - X LW; lia|left; apply DB4; exact X].
  - change (m_lit (m_cont m b1 d2 l' (Some (false, s')))) with (Some (false, s')). cbv iota beta.
    destruct (par_cases s P) as [PS|PS].
    + destruct (HI PS) as (PS' & PO'). assert (HH : match l_sub s' with LLower _ _ => true | _ => false end = true) by (unfold parity in PS'; destruct (l_sub s'); try discriminate PS'; reflexivity). rewrite HH.
      rewrite <- LL. apply IH; [constructor; try assumption; discriminate|lia].
    + destruct (LO PS) as (PS' & SD). assert (HH : match l_sub s' with LLower _ _ => true | _ => false end = false) by (unfold parity in PS'; destruct (l_sub s'); try discriminate PS'; reflexivity). rewrite HH.
      rewrite lit_fill_cont. destruct (fill_sane d2 b1 DS2 B1) as (d3 & b3 & -> & DS3 & SC3 & BR3 & B3 & M3 & E3 & N3 & _). cbn [bind of_opt gbind]. rewrite done_sub.
      pose proof (fill_big _ _ _ DB2 N3 BR3) as DB3.
      assert (PA3 : sym_count d3 mod 2 = parity s') by (rewrite SC3; exact PA2).
      destruct SD as [SD|SD].
      * rewrite SD. right. eexists. exists true. split; [reflexivity|]. exists b3, d3, l', false, s'. split; [reflexivity|]. do 7 (split; [assumption|]). split; [congruence|]. congruence.
      * rewrite (pos_not_done _ SD). destruct (Nat.eqb_spec (need d3) 0) as [X|X].
        -- rewrite <- LL. apply IH; [constructor; try assumption; discriminate|lia].
        -- right. eexists. exists false. split; [reflexivity|]. unfold set_safe. change (m_lit (m_cont m b3 d3 l' (Some (false, s')))) with (Some (false, s')).
           change (ready (m_cont m b3 d3 l' (Some (false, s'))) 1) with (wr b3 - rd b3). assert (DE : mb_data b3 = []) by (rewrite E3; apply skipn_all2; lia).
           assert (R0 : (16 <=? wr b3 - rd b3) = false) by (rewrite (ready_len b3 B3), DE; reflexivity). rewrite R0.
           exists b3, d3, l', false, s'. split; [reflexivity|]. split; [constructor; try assumption; discriminate|congruence].
Qed.
(** guarded and real *)
Lemma g_nibble_real m x : g_nibble m = Fine x -> lit_nibble m = Some x.
Proof.
  unfold g_nibble. destruct (m_lit m) as [(safe & s)|]; [|discriminate]. destruct (lit_node _ _ _ _); try discriminate. destruct (underflows _ _); [discriminate|].
  destruct (lit_nibble m) as [m1|]; cbn [of_opt gbind]; [|discriminate]. destruct (ragged _); congruence.
Qed.
Lemma g_content_real : forall fuel m x, g_content fuel m = Fine x -> content fuel m = Some x.
Proof.
  induction fuel as [|fuel IH]; intros m x E; [discriminate E|]. cbn [g_content content] in *.
  destruct (lit_fill m) as [(m1 & ok)|]; cbn [of_opt gbind] in E; [|discriminate E]. cbn [bind]. destruct ok; cbn [negb] in *; [|congruence].
  destruct (m_lit m1) as [([] & s)|]; [| |discriminate E].
  - destruct (g_nibble m1) as [m2| |] eqn:G; cbn [gbind] in E; try discriminate E. rewrite (g_nibble_real _ _ G). cbn [bind].
    destruct (lit_fill m2) as [(m3 & ok)|]; cbn [of_opt gbind] in E; [|discriminate E]. cbn [bind]. destruct ok; cbn [negb] in E; [|discriminate E]. cbn [assert].
    destruct (g_nibble m3) as [m4| |] eqn:G2; cbn [gbind] in E; try discriminate E. rewrite (g_nibble_real _ _ G2). cbn [bind].
    destruct (ready m3 1 <? 16).
    + destruct (lit_done m4); [congruence|apply IH, E].
    + destruct (lit_fill m4) as [(m5 & ok)|]; cbn [of_opt gbind] in E; [|discriminate E]. cbn [bind]. destruct ok; cbn [negb] in E; [|discriminate E]. cbn [assert]. destruct (lit_done m5); [congruence|apply IH, E].
  - destruct (g_nibble m1) as [m2| |] eqn:G; cbn [gbind] in E; try discriminate E. rewrite (g_nibble_real _ _ G). cbn [bind].
    destruct (match m_lit m2 with Some (_, s0) => match l_sub s0 with LLower _ _ => true | _ => false end | None => false end); [apply IH, E|].
    destruct (lit_fill m2) as [(m3 & ok)|]; cbn [of_opt gbind] in E; [|discriminate E]. cbn [bind]. destruct (lit_done m3); [congruence|]. destruct ok; [apply IH, E|congruence].
Qed.
