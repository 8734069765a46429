(** Decompressor: the main thread's part. *)
From Verif Require ProofRecode3.
From Verif Require Import Prelude ProofList ModelAns SpecAns ModelCdf SpecCdf ModelRecode SpecLz ProofRecode ProofRecode2 ProofAns ProofAnsRt ProofAnsDec ThmCdf ModelMux ProofZlist ProofMux ProofMuxR ModelCmd ModelCrc ModelHeader ModelRecode SpecLz ProofRecode ModelPriors ModelCodec ModelLit ModelPm ModelTop SpecCodec SpecReplay SpecFile ModelEnc ProofSim ModelDec ProofDec1 ProofDec2 ProofDec3.

(** ** The content of a literal *)
(** the parts of the state the literal coder works on *)
Definition m_cont (m : main) (b : mbuf) (d : decoder) (l : lbk) (x : option (bool * lit_st)) : main :=
  MN (setb (m_mux m) 1 b) (m_crc m) (m_trailer m) (m_out m) l (m_mix m) d (m_rec m) x (m_pop m) (m_cmds m) (m_eof m) (m_pred m).
Lemma m_cont_self m : m_cont m (buf1 (m_mux m)) (m_dec m) (m_lbk m) (m_lit m) = m.
Proof. destruct m as [[]]. reflexivity. Qed.
Lemma m_cont_cont m b d l x b' d' l' x' : m_cont (m_cont m b d l x) b' d' l' x' = m_cont m b' d' l' x'.
Proof. reflexivity. Qed.
Definition pos_ok (s : lit_st) : Prop := match l_sub s with LNibble i | LLower i _ => 0 <= i | _ => False end.
Definition togo (s : lit_st) : Z := match l_sub s with LNibble i => 2 * (l_len s - i) | LLower i _ => 2 * (l_len s - i) - 1 | _ => 0 end.
Definition parity (s : lit_st) : Z := match l_sub s with LLower _ _ => 1 | _ => 0 end.
(** one step of the literal coder *)
Lemma lit_step mix l s cdf k v l' s' : lit_node mix bk_new l s = Code LIT cdf k -> k v = Next (bk_new, l', s') ->
  match l_sub s with
  | LNibble i => l_sub s' = LLower i v
  | LLower i h => l_sub s' = (if i + 1 =? l_len s then LFully else LNibble (i + 1))
  | _ => False
  end /\ l_len s' = l_len s.
Proof.
  unfold lit_node. destruct (l_sub s) as [| | | | |i|i h|] eqn:U; try discriminate; try (unfold code; destruct (prior_index _ _ _); discriminate).
  - match goal with |- code_nibble _ _ _ _ ?k1 = _ -> _ => destruct (code_nibble_two mix l true 0 k1 k1) as [E|(c1 & u1 & u2 & E1 & E2 & EQ)] end; [rewrite E; discriminate|rewrite E1].
    intros [= -> ->] KV. destruct (EQ v _ KV) as (l1 & _ & F1 & _). rewrite F1 in KV. injection KV as _ <-. split; reflexivity.
  - match goal with |- code_nibble _ _ _ _ ?k1 = _ -> _ => destruct (code_nibble_two mix l false h k1 k1) as [E|(c1 & u1 & u2 & E1 & E2 & EQ)] end; [rewrite E; discriminate|rewrite E1].
    intros [= -> ->] KV. destruct (EQ v _ KV) as (l1 & _ & F1 & _). rewrite F1 in KV. injection KV as _ <-. split; reflexivity.
Qed.
Lemma ltr_len mix l s es l2 s2 : ltr mix l s es l2 s2 -> Z.of_nat (length es) = togo s.
Proof.
  induction 1 as [l s F|l s cdf k v l' s' es l2 s2 N CD NB KV LT IH].
  - unfold togo. rewrite F. reflexivity.
  - destruct (lit_step _ _ _ _ _ _ _ _ N KV) as (A & B). cbn [length]. rewrite Nat2Z.inj_succ, IH. unfold togo. rewrite B.
    destruct (l_sub s) as [| | | | |i|i h|]; try contradiction A; rewrite A; [lia|]. destruct (Z.eqb_spec (i + 1) (l_len s)); lia.
Qed.
Lemma ltr_fully mix l s es l2 s2 : ltr mix l s es l2 s2 -> l_sub s2 = LFully.
Proof. induction 1; auto. Qed.

(** while a literal is being decoded: [les] are its remaining nibbles *)
Definition safe_ok (safe : bool) (s : lit_st) (d : decoder) (b : mbuf) : Prop :=
  safe = true -> parity s = 0 /\ (16 <= wr b - rd b \/ (need d = 0%nat /\ (b_req d = 0 \/ 12 <= wr b - rd b))).
Record cinv (mix : bool) (b : mbuf) (d : decoder) (l : lbk) (safe : bool) (s : lit_st) (les : list ev) (l1 : lbk) (s1 : lit_st) (les2 : list ev) (pb : list Z) : Prop := {
  cv_b : bok b;
  cv_tr : ltr mix l s les l1 s1;
  cv_d : arel d (ivs (les ++ les2)) (mb_data b ++ pb);
  cv_pos : pos_ok s;
  cv_par : sym_count d mod 2 = parity s;
  cv_safe : safe_ok safe s d b }.
Lemma pos_some mix l s les l1 s1 : ltr mix l s les l1 s1 -> pos_ok s -> les <> [].
Proof. intros LT P E. destruct LT as [l s F|]; [|discriminate E]. unfold pos_ok in P. rewrite F in P. exact P. Qed.
Lemma fill_any d b sfs rest : bok b -> arel d sfs (mb_data b ++ rest) ->
  exists d' b', fill_from d b = Some (d', b', Nat.eqb (need d') 0) /\ bok b' /\ mem b' = mem b /\ mb_data b' = skipn (need d) (mb_data b) /\
    arel d' sfs (mb_data b' ++ rest) /\ sym_count d' = sym_count d /\ b_req d' = b_req d /\ need d' = (need d - length (mb_data b))%nat.
Proof.
  intros B A. destruct (Nat.eq_dec (need d) 0) as [N|N]; [|apply (fill_spec d b sfs rest B A N)].
  unfold fill_from. rewrite (arel_avail _ _ _ A), N. cbn [Nat.eqb]. exists d, b. rewrite N. cbn [Nat.eqb skipn]. auto 10.
Qed.
Lemma ready_len b : bok b -> wr b - rd b = Z.of_nat (length (mb_data b)).
Proof. intros B. rewrite <- (mb_data_len b B). reflexivity. Qed.
Lemma lit_fill_cont m b d l x : lit_fill (m_cont m b d l x) = let? '(d, b, ok) := fill_from d b in Some (m_cont m b d l x, ok).
Proof. unfold lit_fill. change (m_dec (m_cont m b d l x)) with d. change (buf1 (m_mux (m_cont m b d l x))) with b. destruct (fill_from d b) as [[[d' b'] ok]|]; reflexivity. Qed.
(** one nibble *)
Lemma nibble_step m b d l safe s les l1 s1 les2 pb : bok b -> ltr (m_mix m) l s les l1 s1 -> arel d (ivs (les ++ les2)) (mb_data b ++ pb) -> pos_ok s -> sym_count d mod 2 = parity s -> need d = 0%nat ->
  exists l' s' d' les', lit_nibble (m_cont m b d l (Some (safe, s))) = Some (m_cont m b d' l' (Some (safe, s'))) /\
    ltr (m_mix m) l' s' les' l1 s1 /\ arel d' (ivs (les' ++ les2)) (mb_data b ++ pb) /\ length les = S (length les') /\ sym_count d' mod 2 = parity s' /\
    (parity s = 0 -> parity s' = 1 /\ pos_ok s' /\ (need d' <= 4)%nat /\ (b_req d = 0 -> need d' = 0%nat)) /\
    (parity s = 1 -> parity s' = 0 /\ (l_sub s' = LFully \/ pos_ok s')).
Proof.
  intros B LT AR P PA N0. inversion LT as [l0 s0 F|l0 s0 cdf k v l' s' es l2 s2 N CD NB KV LT']; subst; [unfold pos_ok in P; rewrite F in P; contradiction P|].
  destruct (lit_step _ _ _ _ _ _ _ _ N KV) as (A & LL).
  cbn [app] in AR. destruct (arel_sym d (ref_lookup cdf) v _ _ _ AR N0 (C04_intervals_sound _ _ CD NB)) as (d2 & G & AR2 & SC & AQ).
  exists l', s', d2, es. split.
  { unfold lit_nibble. cbn [m_lit m_cont m_mix m_lbk m_dec]. rewrite N, G. cbn [bind]. rewrite KV. reflexivity. }
  split; [exact LT'|]. split; [exact AR2|]. split; [reflexivity|].
  assert (U : u16 (sym_count d + 1) mod 2 = (sym_count d mod 2 + 1) mod 2).
  { unfold u16. change (2 ^ 16) with (2 * 32768). rewrite <- Znumtheory.Zmod_div_mod; [|lia|lia|exists 32768; lia]. rewrite <- Zplus_mod_idemp_l. reflexivity. }
  rewrite SC, U, PA. unfold parity, pos_ok in *. destruct (l_sub s) as [| | | | |i|i h|] eqn:US; try contradiction A; rewrite A.
  - split; [reflexivity|]. split; [|discriminate]. intros _. split; [reflexivity|]. split; [exact P|].
    assert (SE : sym_count d <> 65535) by (intros E; rewrite E in PA; discriminate PA). destruct (Z.eqb_spec (sym_count d) 65535) as [E|_]; [contradiction|]. rewrite Z.lor_0_r in AQ.
    pose proof (arel_valid _ _ _ AR) as (_ & _ & _ & BB). unfold need, num_push_bytes_avail. rewrite AQ. destruct BB as [-> | ->]; (split; [vm_compute; lia|]); [reflexivity|discriminate].
  - split; [destruct (i + 1 =? l_len s); reflexivity|]. split; [discriminate|]. intros _. destruct (i + 1 =? l_len s); (split; [reflexivity|]); [left; reflexivity|right; lia].
Qed.
Lemma par_cases s : pos_ok s -> parity s = 0 \/ parity s = 1.
Proof. unfold pos_ok, parity. destruct (l_sub s); auto. Qed.
Lemma done_sub m b d l safe s : lit_done (m_cont m b d l (Some (safe, s))) = match l_sub s with LFully => true | _ => false end.
Proof. reflexivity. Qed.
Lemma pos_not_done s : pos_ok s -> match l_sub s with LFully => true | _ => false end = false.
Proof. unfold pos_ok. destruct (l_sub s); auto; contradiction. Qed.
Definition cdone (m : main) (l1 : lbk) (s1 : lit_st) (les2 : list ev) (pb : list Z) (b0 : mbuf) (m' : main) : Prop :=
  exists b' d' safe', m' = m_cont m b' d' l1 (Some (safe', s1)) /\ bok b' /\ mem b' = mem b0 /\ arel d' (ivs les2) (mb_data b' ++ pb) /\ sym_count d' mod 2 = 0.
Definition cwait (m : main) (l1 : lbk) (s1 : lit_st) (les2 : list ev) (pb : list Z) (b0 : mbuf) (m' : main) : Prop :=
  exists b' d' l' safe' s' les', m' = m_cont m b' d' l' (Some (safe', s')) /\ mem b' = mem b0 /\ cinv (m_mix m) b' d' l' safe' s' les' l1 s1 les2 pb /\
    mb_data b' = [] /\ need d' <> 0%nat /\ l_len s' = l_len s1.
Lemma ltr_llen mix l s es l2 s2 : ltr mix l s es l2 s2 -> l_len s = l_len s2.
Proof. induction 1 as [|l s cdf k v l' s' es l2 s2 N CD NB KV LT IH]; [reflexivity|]. destruct (lit_step _ _ _ _ _ _ _ _ N KV) as (_ & B). congruence. Qed.
Lemma ltr_end mix l s les l1 s1 : ltr mix l s les l1 s1 -> l_sub s = LFully -> les = [] /\ l1 = l /\ s1 = s.
Proof. intros LT F. destruct LT as [|l s cdf k v l' s' es l2 s2 N]; [auto|]. unfold lit_node in N. rewrite F in N. discriminate N. Qed.
Lemma content_spec m l1 s1 les2 pb : forall fuel b d l safe s les, cinv (m_mix m) b d l safe s les l1 s1 les2 pb -> (length les <= fuel)%nat ->
  exists m' ok, content fuel (m_cont m b d l (Some (safe, s))) = Some (m', ok) /\ (if ok : bool then cdone m l1 s1 les2 pb b m' else cwait m l1 s1 les2 pb b m').
Proof.
  induction fuel as [|fuel IH]; intros b d l safe s les [B LT AR P PA SA] F.
  { exfalso. apply (pos_some _ _ _ _ _ _ LT P). destruct les; [reflexivity|cbn [length] in F; lia]. }
  cbn [content]. rewrite lit_fill_cont. destruct (fill_any d b _ _ B AR) as (d1 & b1 & -> & B1 & M1 & E1 & AR1 & SC1 & BR1 & N1). cbn [bind].
  assert (LN : length les <> 0%nat). { intros X. apply (pos_some _ _ _ _ _ _ LT P). destruct les; [reflexivity|discriminate X]. }
  destruct (Nat.eqb_spec (need d1) 0) as [N0|N0]; cbn [negb].
  2:{ eexists. exists false. split; [reflexivity|]. exists b1, d1, l, safe, s, les. split; [reflexivity|]. split; [exact M1|].
      assert (DE : mb_data b1 = []) by (rewrite E1; apply skipn_all2; lia).
      split; [|split; [exact DE|split; [exact N0|exact (ltr_llen _ _ _ _ _ _ LT)]]].
      constructor; try assumption; [rewrite SC1; exact PA|]. intros X. destruct (SA X) as (S1 & [S2|(S2 & _)]); [|exfalso; lia].
      exfalso. rewrite (ready_len b B) in S2. pose proof (need_16 d (arel_valid _ _ _ AR)). lia. }
  change (m_lit (m_cont m b1 d1 l (Some (safe, s)))) with (Some (safe, s)). cbv iota beta.
  assert (PA1 : sym_count d1 mod 2 = parity s) by (rewrite SC1; exact PA).
  destruct (nibble_step m b1 d1 l safe s les l1 s1 les2 pb B1 LT AR1 P PA1 N0) as (l' & s' & d2 & les' & NS & LT' & AR2 & LE & PA2 & HI & LO).
  rewrite NS. cbn [bind]. destruct safe.
  - destruct (SA eq_refl) as (PS & RD). destruct (HI PS) as (PS' & PO' & ND2 & BZ).
    assert (R1 : b_req d1 = 0 \/ (12 <= length (mb_data b1))%nat).
    { rewrite BR1, E1, skipn_length. rewrite (ready_len b B) in RD. destruct (Nat.le_gt_cases (need d) 4) as [X|X]; [|left; apply (arel_big _ _ _ AR); lia].
      destruct RD as [RD|(RD & [RB|RB])]; [right; lia|left; exact RB|right; lia]. }
    rewrite lit_fill_cont. destruct (fill_any d2 b1 _ _ B1 AR2) as (d3 & b3 & -> & B3 & M3 & E3 & AR3 & SC3 & BR3 & N3). cbn [bind].
    assert (N30 : need d3 = 0%nat) by (rewrite N3; destruct R1 as [R1|R1]; [rewrite (BZ R1); reflexivity|lia]). rewrite N30. cbn [Nat.eqb assert].
    assert (LE' : (length les' <> 0)%nat). { intros X. apply (pos_some _ _ _ _ _ _ LT' PO'). destruct les'; [reflexivity|discriminate X]. }
    assert (PA3 : sym_count d3 mod 2 = parity s') by (rewrite SC3; exact PA2).
    destruct (nibble_step m b3 d3 l' true s' les' l1 s1 les2 pb B3 LT' AR3 PO' PA3 N30) as (l'' & s'' & d4 & les'' & NS2 & LT'' & AR4 & LE2 & PA4 & _ & LO2).
    destruct (LO2 PS') as (PS'' & SD). rewrite NS2. cbn [bind].
    change (ready (m_cont m b3 d3 l' (Some (true, s'))) 1) with (wr b3 - rd b3).
    destruct (Z.ltb_spec (wr b3 - rd b3) 16) as [LW|LW].
    + rewrite done_sub. destruct SD as [SD|SD].
      * rewrite SD. eexists. exists true. split; [reflexivity|]. destruct (ltr_end _ _ _ _ _ _ LT'' SD) as (-> & -> & ->). exists b3, d4, true. split; [reflexivity|]. split; [exact B3|]. split; [congruence|]. cbn [app] in AR4. split; [exact AR4|]. rewrite PA4. exact PS''.
      * rewrite (pos_not_done _ SD). unfold set_safe. change (m_lit (m_cont m b3 d4 l'' (Some (true, s'')))) with (Some (true, s'')).
        change (ready (m_cont m b3 d4 l'' (Some (true, s''))) 1) with (wr b3 - rd b3). change (m_set_lit (m_cont m b3 d4 l'' (Some (true, s''))) (Some (16 <=? wr b3 - rd b3, s''))) with (m_cont m b3 d4 l'' (Some (16 <=? wr b3 - rd b3, s''))).
        destruct (Z.leb_spec 16 (wr b3 - rd b3)); [lia|].
        destruct (IH b3 d4 l'' false s'' les'') as (m' & ok & R & S); [constructor; try assumption; discriminate|lia|]. exists m', ok. split; [exact R|].
        destruct ok; unfold cdone, cwait in *; rewrite M3, M1 in S; exact S.
    + rewrite lit_fill_cont. destruct (fill_any d4 b3 _ _ B3 AR4) as (d5 & b5 & -> & B5 & M5 & E5 & AR5 & SC5 & BR5 & N5). cbn [bind].
      assert (N50 : need d5 = 0%nat). { rewrite N5. pose proof (need_16 d4 (arel_valid _ _ _ AR4)). rewrite (ready_len b3 B3) in LW. lia. } rewrite N50. cbn [Nat.eqb assert].
      rewrite done_sub. destruct SD as [SD|SD].
      * rewrite SD. eexists. exists true. split; [reflexivity|]. destruct (ltr_end _ _ _ _ _ _ LT'' SD) as (-> & -> & ->). exists b5, d5, true. split; [reflexivity|]. split; [exact B5|]. split; [congruence|]. cbn [app] in AR5. split; [exact AR5|]. rewrite SC5, PA4. exact PS''.
      * rewrite (pos_not_done _ SD). destruct (IH b5 d5 l'' true s'' les'') as (m' & ok & R & S); [constructor; try assumption; [rewrite SC5; exact PA4|]|lia|].
        { intros _. split; [exact PS''|right]. split; [exact N50|]. rewrite BR5, (ready_len b5 B5), E5, skipn_length. rewrite (ready_len b3 B3) in LW.
          destruct (Nat.le_gt_cases (need d4) 4) as [X|X]; [right; lia|left; apply (arel_big _ _ _ AR4); lia]. }
        exists m', ok. split; [exact R|]. destruct ok; unfold cdone, cwait in *; rewrite M5, M3, M1 in S; exact S.
  - change (m_lit (m_cont m b1 d2 l' (Some (false, s')))) with (Some (false, s')). cbv iota beta.
    destruct (par_cases s P) as [PS|PS].
    + destruct (HI PS) as (PS' & PO' & _). assert (HH : match l_sub s' with LLower _ _ => true | _ => false end = true) by (unfold parity in PS'; destruct (l_sub s'); try discriminate PS'; reflexivity). rewrite HH.
      destruct (IH b1 d2 l' false s' les') as (m' & ok & R & S); [constructor; try assumption; discriminate|lia|]. exists m', ok. split; [exact R|]. destruct ok; unfold cdone, cwait in *; rewrite M1 in S; exact S.
    + destruct (LO PS) as (PS' & SD). assert (HH : match l_sub s' with LLower _ _ => true | _ => false end = false) by (unfold parity in PS'; destruct (l_sub s'); try discriminate PS'; reflexivity). rewrite HH.
      rewrite lit_fill_cont. destruct (fill_any d2 b1 _ _ B1 AR2) as (d3 & b3 & -> & B3 & M3 & E3 & AR3 & SC3 & BR3 & N3). cbn [bind]. rewrite done_sub.
      assert (PA3 : sym_count d3 mod 2 = parity s') by (rewrite SC3; exact PA2).
      destruct SD as [SD|SD].
      * rewrite SD. eexists. exists true. split; [reflexivity|]. destruct (ltr_end _ _ _ _ _ _ LT' SD) as (-> & -> & ->). exists b3, d3, false. split; [reflexivity|]. split; [exact B3|]. split; [congruence|]. cbn [app] in AR3. split; [exact AR3|]. rewrite PA3. exact PS'.
      * rewrite (pos_not_done _ SD). destruct (Nat.eqb_spec (need d3) 0) as [X|X].
        -- destruct (IH b3 d3 l' false s' les') as (m' & ok & R & S); [constructor; try assumption; discriminate|lia|]. exists m', ok. split; [exact R|]. destruct ok; unfold cdone, cwait in *; rewrite M3, M1 in S; exact S.
        -- eexists. exists false. split; [reflexivity|]. unfold set_safe. change (m_lit (m_cont m b3 d3 l' (Some (false, s')))) with (Some (false, s')).
           change (ready (m_cont m b3 d3 l' (Some (false, s'))) 1) with (wr b3 - rd b3). assert (DE : mb_data b3 = []) by (rewrite E3; apply skipn_all2; lia).
           assert (R0 : (16 <=? wr b3 - rd b3) = false) by (rewrite (ready_len b3 B3), DE; reflexivity). rewrite R0.
           exists b3, d3, l', false, s', les'. split; [reflexivity|]. split; [congruence|]. split; [constructor; try assumption; discriminate|]. split; [exact DE|]. split; [exact X|exact (ltr_llen _ _ _ _ _ _ LT')].
Qed.

(** ** The state of the main thread between steps *)
Definition keep_in (m m' : main) : Prop :=
  (exists b, m_mux m' = setb (m_mux m) 1 b) /\ m_crc m' = m_crc m /\ m_trailer m' = m_trailer m /\ m_out m' = m_out m /\
  m_cmds m' = m_cmds m /\ m_eof m' = m_eof m /\ m_pred m' = m_pred m.
Lemma keep_cont m b d l x : keep_in m (m_cont m b d l x).
Proof. unfold keep_in. split; [exists b; reflexivity|]. repeat split. Qed.
Lemma keep_trans a b c : keep_in a b -> keep_in b c -> keep_in a c.
Proof.
  intros ((x & A1) & A2 & A3 & A4 & A5 & A6 & A7) ((y & B1) & B2 & B3 & B4 & B5 & B6 & B7). unfold keep_in. split; [exists y; rewrite B1, A1; reflexivity|].
  repeat split; congruence.
Qed.
Section Main.
Context (dict : dict_fn) (wlen : Z).
Notation MTR := (mtr dict wlen).
Definition litok (m : main) (les : list ev) (pb : list Z) : Prop :=
  bok (buf1 (m_mux m)) /\ arel (m_dec m) (ivs les) (mb_data (buf1 (m_mux m)) ++ pb) /\ sym_count (m_dec m) mod 2 = 0.
Definition midle (m : main) (e : list Z) (outs : list command) (les : list ev) (hf pb : list Z) : Prop :=
  m_lit m = None /\ m_pop m = None /\ len (m_rec m) = wlen /\ litok m les pb /\ exists h, idle (m_rec m) h e /\ MTR (m_lbk m) (m_mix m) h outs les hf.
Definition mpop (m : main) (e : list Z) (outs : list command) (les : list ev) (hf pb : list Z) : Prop :=
  exists c h0 h, m_lit m = None /\ m_pop m = Some c /\ len (m_rec m) = wlen /\ litok m les pb /\ replayable dict wlen c /\ ProofRecode2.mid dict (m_rec m) h0 c h e /\
    MTR (m_lbk m) (m_mix m) (h0 ++ eff dict h0 c) outs les hf.
Definition mlit (m : main) (e : list Z) (outs : list command) (les : list ev) (hf pb : list Z) : Prop :=
  exists safe s les1 l1 s1 les2 h, m_lit m = Some (safe, s) /\ m_pop m = None /\ len (m_rec m) = wlen /\ les = les1 ++ les2 /\
    cinv (m_mix m) (buf1 (m_mux m)) (m_dec m) (m_lbk m) safe s les1 l1 s1 les2 pb /\ idle (m_rec m) h e /\ MTR l1 (m_mix m) (h ++ l_data s1) outs les2 hf.
Definition mph (m : main) (e : list Z) (outs : list command) (les : list ev) (hf pb : list Z) : Prop :=
  midle m e outs les hf pb \/ mpop m e outs les hf pb \/ mlit m e outs les hf pb.

(** the first half of process_output *)
Inductive fres := FOk | FIn | FOut | FFail.
Definition front (m : main) (room : Z) : option (list Z * main * fres) :=
  let? '(m, ok) :=
    match m_lit m with
    | None => Some (m, true)
    | Some _ =>
        let? '(m, ok) := content (content_fuel m) m in
        if ok then
          match m_lit m with
          | Some (_, s) => Some (m_set_pop (m_set_lit m None) (Some (Literal (l_data s) (l_high_entropy s))), true)
          | None => None
          end
        else Some (m, false)
    end in
  if negb ok then Some ([], m, FIn) else
  match m_pop m with
  | None => Some ([], m, FOk)
  | Some c =>
      let? '(r, o, x) := encode_cmd (cmd_fuel dict c) dict (m_rec m) c room in
      Some (o, m_set_rec m x (match r with ModelRecode.OSuccess => None | _ => Some c end),
            match r with ModelRecode.OSuccess => FOk | ModelRecode.ONeedsMoreOutput => FOut | ModelRecode.OFailure => FFail end)
  end.
Lemma process_output_front skip fuel q m room : process_output dict skip (S fuel) q m room =
  match front m room with
  | None => None
  | Some (o, m, FIn) => Some (o, q, m, Processed DNeedIn)
  | Some (o, m, FOut) => Some (o, q, m, Processed DNeedOut)
  | Some (o, m, FFail) => Some (o, q, m, Processed DFail)
  | Some (o, m, FOk) =>
      let? '(q, m, need) := pull_commands q m in
      if need then Some (o, q, m, Processed DNeedIn) else
      match m_cmds m with
      | [] =>
          if m_eof m then let? '(o2, m, r) := finish skip m (room - zlen o) in Some (o ++ o2, q, m, Processed r)
          else Some (o, q, m, Yield)
      | c :: cs =>
          let? '(q, m, r) := take_command c q (m_set_cmds m cs) in
          match r with
          | Some r => Some (o, q, m, r)
          | None => let? '(o2, q, m, r) := process_output dict skip fuel q m (room - zlen o) in Some (o ++ o2, q, m, r)
          end
      end
  end.
Proof.
  cbn [process_output]. unfold front.
  match goal with |- bind ?x _ = _ => destruct x as [[m1 ok]|] end; [|reflexivity]. cbn [bind]. destruct ok; cbn [negb]; [|reflexivity].
  destruct (m_pop m1) as [c|]; [|reflexivity]. destruct (encode_cmd _ _ _ _ _) as [[[r o] x]|]; [|reflexivity]. cbn [bind]. destruct r; reflexivity.
Qed.

Definition front_ok (m : main) (e : list Z) (outs : list command) (les : list ev) (hf pb : list Z) (room : Z) (o : list Z) (m' : main) (r : fres) : Prop :=
  zlen o <= room /\ keep_in m m' /\
  match r with
  | FOk => exists les', midle m' (e ++ o) outs les' hf pb
  | FIn => o = [] /\ (exists les', mlit m' (e ++ o) outs les' hf pb) /\ mb_data (buf1 (m_mux m')) = [] /\ pb <> []
  | FOut => zlen o = room /\ exists les', mpop m' (e ++ o) outs les' hf pb
  | FFail => False
  end.
Lemma pop_spec m e outs les hf pb room : 1 < wlen -> mpop m e outs les hf pb -> 0 <= room ->
  exists o m' r,
    (match m_pop m with
     | None => Some ([], m, FOk)
     | Some c =>
      let? '(r, o, x) := encode_cmd (cmd_fuel dict c) dict (m_rec m) c room in
      Some (o, m_set_rec m x (match r with ModelRecode.OSuccess => None | _ => Some c end),
            match r with ModelRecode.OSuccess => FOk | ModelRecode.ONeedsMoreOutput => FOut | ModelRecode.OFailure => FFail end)
     end) = Some (o, m', r) /\ front_ok m e outs les hf pb room o m' r.
Proof.
  intros W (c & h0 & h & ML & MP & LR & LO & RP & MD & TR) RM. rewrite MP.
  destruct (encode_cmd_spec dict c h0 (m_rec m) h e room) as (res & o & r' & -> & LR' & LO' & _ & RES); [lia|rewrite LR; exact RP|exact MD|exact RM|].
  cbn [bind]. do 3 eexists. split; [reflexivity|]. split; [exact LO'|]. split; [unfold keep_in; split; [exists (buf1 (m_mux m)); cbn; destruct (m_mux m); reflexivity|]; repeat split|].
  destruct res; cbn [front_ok].
  - exists les. split; [exact ML|]. split; [reflexivity|]. split; [cbn [m_rec m_set_rec]; congruence|]. split; [exact LO|]. exists (h0 ++ eff dict h0 c). split; [exact RES|exact TR].
  - destruct RES as ((h' & RES) & E). split; [exact E|]. exists les, c, h0, h'. split; [exact ML|]. split; [reflexivity|]. split; [cbn [m_rec m_set_rec]; congruence|]. split; [exact LO|]. split; [exact RP|]. split; [exact RES|exact TR].
  - exact RES.
Qed.
Lemma front_spec m e outs les hf pb room : 1 < wlen -> mph m e outs les hf pb -> 0 <= room ->
  exists o m' r, front m room = Some (o, m', r) /\ front_ok m e outs les hf pb room o m' r.
Proof.
  intros W PH RM. unfold front. destruct PH as [(ML & MP & LR & LO & HH)|[PP|(safe & s & les1 & l1 & s1 & les2 & h & ML & MP & LR & -> & CI & ID & TR)]].
  - rewrite ML. cbn [bind negb]. rewrite MP. exists [], m, FOk. split; [reflexivity|]. split; [change (zlen (@nil Z)) with 0; lia|]. split; [pose proof (keep_cont m (buf1 (m_mux m)) (m_dec m) (m_lbk m) (m_lit m)) as KC; rewrite m_cont_self in KC; exact KC|].
    exists les. rewrite app_nil_r. unfold midle. auto.
  - assert (ML : m_lit m = None) by (destruct PP as (c & h0 & h & ML & _); exact ML). rewrite ML. cbn [bind negb]. apply (pop_spec m e outs les hf pb room W PP RM).
  - rewrite ML. pose proof (m_cont_self m) as SELF. rewrite ML in SELF. unfold content_fuel. rewrite ML.
    assert (LE : (length les1 <= S (Z.to_nat (2 * l_len s)))%nat).
    { pose proof (ltr_len _ _ _ _ _ _ (cv_tr _ _ _ _ _ _ _ _ _ _ _ CI)) as E. pose proof (cv_pos _ _ _ _ _ _ _ _ _ _ _ CI) as P. unfold togo in E. unfold pos_ok in P. destruct (l_sub s); try (exfalso; exact P); lia. }
    replace (content (S (Z.to_nat (2 * l_len s))) m) with (content (S (Z.to_nat (2 * l_len s))) (m_cont m (buf1 (m_mux m)) (m_dec m) (m_lbk m) (Some (safe, s)))) by (rewrite SELF; reflexivity). destruct (content_spec m l1 s1 les2 pb _ _ _ _ _ _ _ CI LE) as (m' & okk & -> & CD). cbn [bind]. destruct okk.
    + destruct CD as (b' & d' & safe' & -> & B' & M' & AR' & PAR). cbn [m_cont m_lit bind negb].
      destruct (pop_spec (m_set_pop (m_set_lit (m_cont m b' d' l1 (Some (safe', s1))) None) (Some (Literal (l_data s1) (l_high_entropy s1)))) e outs les2 hf pb room W) as (o & m2 & r & E2 & F1 & F2 & F3).
      { exists (Literal (l_data s1) (l_high_entropy s1)), h, h. split; [reflexivity|]. split; [reflexivity|]. split; [exact LR|]. split; [split; [exact B'|]; split; [exact AR'|exact PAR]|]. split; [exact Logic.I|].
        split; [apply idle_mid; exact ID|exact TR]. }
      { exact RM. }
      exists o, m2, r. split; [exact E2|]. split; [exact F1|]. split; [|exact F3]. apply (keep_trans _ (m_set_pop (m_set_lit (m_cont m b' d' l1 (Some (safe', s1))) None) (Some (Literal (l_data s1) (l_high_entropy s1))))); [|exact F2].
      unfold keep_in. split; [exists b'; reflexivity|]. repeat split.
    + destruct CD as (b' & d' & l' & safe' & s' & les' & -> & M' & CI' & DE & ND & LL). cbn [bind negb].
      exists [], (m_cont m b' d' l' (Some (safe', s'))), FIn. split; [reflexivity|]. split; [change (zlen (@nil Z)) with 0; lia|]. split; [apply keep_cont|]. split; [reflexivity|]. rewrite app_nil_r.
      split; [exists (les' ++ les2), safe', s', les', l1, s1, les2, h; auto 10|]. split; [exact DE|].
      pose proof (cv_d _ _ _ _ _ _ _ _ _ _ _ CI') as AR. rewrite DE in AR. cbn [app] in AR.
      assert (NL : les' <> []) by (eapply pos_some; [apply CI'|apply CI']). destruct les' as [|v les']; [contradiction NL; reflexivity|]. cbn [app ivs map] in AR. apply arel_need in AR. intros ->. cbn [length] in AR. lia.
Qed.
End Main.
