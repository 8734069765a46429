(** The ANS decoder inverts the ANS encoder, one symbol at a time. *)
From Verif Require Import Prelude ModelAns SpecAns ProofAns ProofAnsRt.

Notation lsf := (fun p : Z * Z => legal (fst p) (snd p)).

(** A state word that is complete, or whose low 32 bits are still in the input. *)
Definition word_rel (rq st full : Z) (w : list Z) : Prop :=
  (rq = 0 /\ st = full /\ w = []) \/
  (rq = 1 /\ st = full / 2 ^ 32 /\ w = le 4 full /\ 2 ^ 48 <= full).

(** mid-chunk relation: [r] remaining symbols of the chunk, [inp] its remaining bytes *)
Definition mid (d : decoder) (r : list (Z * Z)) (inp : list Z) : Prop :=
  let '(a, b, q) := epure r in
  exists wa wb, word_rel (a_req d) (state_a d) b wb /\ word_rel (b_req d) (state_b d) a wa /\
    inp = wb ++ wa ++ q.

Inductive okchunks : list (list (Z * Z)) -> Prop :=
| okc_nil : okchunks []
| okc_last l : l <> [] -> Z.of_nat (length l) <= 65536 -> okchunks [l]
| okc_cons l ls : Z.of_nat (length l) = 65536 -> okchunks ls -> okchunks (l :: ls).

Inductive srel (d : decoder) (sfs : list (Z * Z)) (data : list Z) : Prop :=
| s_start chunks : dvalid d -> a_req d = 8 -> b_req d = 0 -> okchunks chunks ->
    Forall lsf sfs -> sfs = concat chunks ->
    data = concat (map chunk_bytes chunks) -> srel d sfs data
| s_mid r others inp : 0 <= sym_count d <= 65535 ->
    sym_count d + Z.of_nat (length r) <= 65536 ->
    (others = [] \/ sym_count d + Z.of_nat (length r) = 65536) ->
    okchunks others -> Forall lsf sfs -> sfs = r ++ concat others ->
    mid d r inp -> data = inp ++ concat (map chunk_bytes others) -> srel d sfs data.

Lemma word_valid rq st full w : inrange full -> word_rel rq st full w ->
  (rq = 0 \/ rq = 1) /\ 0 <= st.
Proof.
  unfold inrange. intros R [(H1 & H2 & H3)|(H1 & H2 & H3 & H4)]; subst; split; auto; lia.
Qed.

Lemma mid_valid d r inp : Forall lsf r -> mid d r inp -> dvalid d.
Proof.
  intros F. pose proof (epure_range r F) as R. unfold mid.
  destruct (epure r) as [[a b] q]. destruct R as (Ha & Hb & _).
  intros (wa & wb & W1 & W2 & _).
  apply word_valid in W1; auto. apply word_valid in W2; auto. unfold dvalid. lia.
Qed.

(** filling leaves a state with nothing to load in word A *)
Lemma need_0 d : a_req d = 0 -> need d = 0%nat.
Proof. unfold need, num_push_bytes_avail. intros ->. reflexivity. Qed.
Lemma need_1 d : a_req d = 1 -> need d = 4%nat.
Proof. unfold need, num_push_bytes_avail. intros ->. reflexivity. Qed.
Lemma need_8 d : a_req d = 8 -> need d = 16%nat.
Proof. unfold need, num_push_bytes_avail. intros ->. reflexivity. Qed.

Lemma firstn_app_exact {A} n (l1 l2 : list A) : length l1 = n -> firstn n (l1 ++ l2) = l1.
Proof. intros <-. rewrite firstn_app, Nat.sub_diag, firstn_all, firstn_O. apply app_nil_r. Qed.
Lemma skipn_app_exact {A} n (l1 l2 : list A) : length l1 = n -> skipn n (l1 ++ l2) = l2.
Proof. intros <-. rewrite skipn_app, Nat.sub_diag, skipn_all. reflexivity. Qed.

Lemma fill_mid d r inp tail pieces : Forall lsf r -> mid d r inp ->
  concat pieces = inp ++ tail ->
  exists d1 rest inp1, fill d pieces = FOk d1 rest /\ mid d1 r inp1 /\ a_req d1 = 0 /\
    sym_count d1 = sym_count d /\ concat rest = inp1 ++ tail.
Proof.
  intros F M C. pose proof (mid_valid _ _ _ F M) as V. pose proof (epure_range r F) as R.
  unfold mid in *. pose proof (fill_ok pieces d V) as FS. rewrite C in FS.
  destruct (epure r) as [[a b] q]. destruct R as (Ha & Hb & _).
  destruct M as (wa & wb & W1 & W2 & E).
  pose proof (word_valid _ _ _ _ Ha W2) as (Hbr & Hbs).
  destruct W1 as [(H1 & H2 & H3)|(H1 & H2 & H3 & H4)].
  - exists d, pieces, inp. rewrite fill_norm by auto.
    split; [reflexivity|]. split; [|auto]. exists wa, wb. repeat split; auto. left. auto.
  - assert (L : length wb = 4%nat) by (subst; apply le_length).
    rewrite E, <- app_assoc in FS.
    inversion FS as [rest A1 B1 C1|d' A1]; rewrite (need_1 d H1) in *.
    + rewrite firstn_app_exact in * by auto. rewrite skipn_app_exact in B1 by auto.
      eexists _, rest, (wa ++ q). split; [reflexivity|].
      destruct d as [sa sb c ra rb]. cbn [a_req b_req state_a state_b sym_count] in *. subst ra sa wb.
      rewrite feed_4 by (unfold inrange in *; auto; lia).
      cbn [a_req b_req state_a state_b sym_count]. repeat split; auto.
      exists wa, []. repeat split; auto. left. auto.
    + rewrite app_length, L in A1. lia.
Qed.

Lemma fill_start d l tail pieces : Forall lsf l -> dvalid d -> a_req d = 8 -> b_req d = 0 ->
  concat pieces = chunk_bytes l ++ tail ->
  exists d1 rest inp1, fill d pieces = FOk d1 rest /\ mid d1 l inp1 /\ a_req d1 = 0 /\
    sym_count d1 = 0 /\ concat rest = inp1 ++ tail.
Proof.
  intros F V H1 H2 C. pose proof (epure_range l F) as R.
  pose proof (fill_ok pieces d V) as FS. rewrite C in FS. clear C.
  unfold chunk_bytes, mid in *. destruct (epure l) as [[a b] q]. destruct R as (Ha & Hb & _).
  assert (L : length (le 8 b ++ le 8 a) = 16%nat) by (rewrite app_length, !le_length; reflexivity).
  replace ((le 8 b ++ le 8 a ++ q) ++ tail) with ((le 8 b ++ le 8 a) ++ q ++ tail) in FS
    by (rewrite <- !app_assoc; reflexivity).
  remember (le 8 b ++ le 8 a) as w8 eqn:EW.
  inversion FS as [rest A1 B1 C1|d' A1]; rewrite (need_8 d H1) in *.
  - rewrite (firstn_app_exact _ _ _ L). rewrite (skipn_app_exact _ _ _ L) in B1.
    subst w8.
    eexists _, rest, q. split; [reflexivity|].
    destruct d as [sa sb c ra rb]. cbn [a_req b_req state_a state_b sym_count] in *. subst ra rb.
    destruct V as (_ & V1 & V2 & _). cbn [state_a state_b] in *.
    rewrite (feed_16 sa sb c 8 0 a b) by (unfold inrange in *; auto; lia).
    cbn [a_req b_req state_a state_b sym_count]. repeat split; auto.
    exists [], []. repeat split; auto; left; auto.
  - rewrite app_length, L in A1. lia.
Qed.

Lemma mask_mod x : Z.land x SCALE_MASK = x mod 2 ^ 15.
Proof. unfold SCALE_MASK, LOG2_SCALE. apply land_mask. lia. Qed.

Lemma get_sym_mid {A} d (qy : query A) (sym : A) sf r inp :
  Forall lsf r -> codes qy sym sf -> mid d (sf :: r) inp -> a_req d = 0 ->
  0 <= sym_count d <= 65535 ->
  exists d', get_sym d qy = Some (sym, d') /\
    sym_count d' = u16 (sym_count d + 1) /\
    ((sym_count d < 65535 /\ mid d' r inp) \/
     (sym_count d = 65535 /\ (r = [] -> a_req d' = 8 /\ b_req d' = 0 /\ dvalid d' /\ inp = []))).
Proof.
  intros F (L & Q) M HA HC. unfold mid in M. cbn [epure] in M.
  pose proof (epure_range r F) as R. unfold mid.
  destruct (epure r) as [[a b] q] eqn:EP. destruct R as (Ha & Hb & _).
  destruct sf as [s f]. cbn [fst snd] in *. pose proof L as (Hs & Hf & Hsf).
  destruct (renorm_range a f Ha Hf) as (RR & RI).
  pose (st := if 2 ^ 48 * f <=? a then a / 2 ^ 32 else a). fold st in RR, RI.
  destruct (encx_decode st s f L RR) as (X1 & X2 & X3). cbn zeta in X1, X2, X3.
  pose (x := encx st s f). fold x in X1, X2, X3.
  pose (w' := if 2 ^ 48 * f <=? a then le 4 a else @nil Z).
  assert (EE : estep (a, b, q) (s, f) = (b, x, w' ++ q)).
  { unfold estep, x, w', st. destruct (2 ^ 48 * f <=? a); reflexivity. }
  rewrite EE in M. destruct M as (wa & wb & W1 & W2 & EI).
  destruct W1 as [(E1 & E2 & E3)|(E1 & _)]; [|lia].
  unfold get_sym, get_cdf_value, assert. rewrite HA. change (0 =? 0) with true. cbn iota. cbn [bind].
  rewrite E2, mask_mod, Q by auto.
  unfold advance_sym, assert. rewrite E2, mask_mod.
  rewrite (shiftr_div x LOG2_SCALE) by (unfold LOG2_SCALE; lia). change (2 ^ LOG2_SCALE) with (2 ^ 15).
  assert (U : u64 f = f /\ u64 s = s) by (unfold u64; split; apply Z.mod_small; lia).
  destruct U as (-> & ->).
  unfold inrange in *.
  assert (B1 : f * (x / 2 ^ 15) <= st).
  { lia. }
  assert (B2 : st < 2 ^ 63).
  { unfold st. destruct (2 ^ 48 * f <=? a); lia. }
  destruct (Z.ltb_spec (f * (x / 2 ^ 15)) (2 ^ 64)); [|lia].
  destruct (Z.ltb_spec (f * (x / 2 ^ 15) + x mod 2 ^ 15) (2 ^ 64)); [|lia].
  rewrite X3.
  destruct (Z.leb_spec 0 st); [|lia].
  cbn [bind]. eexists; split; [reflexivity|]. cbn [sym_count a_req b_req state_a state_b].
  split; [reflexivity|].
  unfold NORMALIZATION_INTERVAL, NUM_SYMBOLS_BEFORE_FLUSH.
  assert (WR : word_rel (if st <? 2 ^ 31 then 1 else 0) st a w').
  { unfold word_rel, w', st in *. destruct (Z.leb_spec (2 ^ 48 * f) a).
    - right. destruct (Z.ltb_spec (a / 2 ^ 32) (2 ^ 31)); [|lia]. repeat split; auto. lia.
    - left. destruct (Z.ltb_spec a (2 ^ 31)); [lia|]. auto. }
  destruct (Z.eqb_spec (sym_count d) (65536 - 1)) as [EC|EC].
  - right. split; [lia|]. intros ->. cbn [epure] in EP. inversion EP; subst a b q.
    destruct W2 as [(F1 & F2 & F3)|(F1 & F2 & F3 & F4)]; [|lia].
    rewrite F1. change (Z.lor 0 8) with 8.
    destruct WR as [(G1 & G2 & G3)|(G1 & G2 & G3 & G4)]; [|lia].
    rewrite G1, G3 in *. subst wb wa inp. cbn [app].
    repeat split; auto; cbn [a_req b_req state_a state_b]; lia.
  - left. split; [lia|]. rewrite Z.lor_0_r. exists w', wa. repeat split; auto.
    subst wb. rewrite EI. reflexivity.
Qed.

Lemma mid_nil d inp : mid d [] inp -> inp = [].
Proof.
  unfold mid. cbn [epure]. intros (wa & wb & W1 & W2 & ->).
  destruct W1 as [(_ & _ & ->)|(_ & _ & _ & X)]; [|lia].
  destruct W2 as [(_ & _ & ->)|(_ & _ & _ & X)]; [|lia]. reflexivity.
Qed.

Lemma u16_small x : 0 <= x < 2 ^ 16 -> u16 x = x.
Proof. intros; unfold u16; apply Z.mod_small; auto. Qed.

Lemma get_sym_s_mid {A} d (qy : query A) (sym : A) sf r others inp :
  codes qy sym sf -> a_req d = 0 ->
  0 <= sym_count d <= 65535 ->
  sym_count d + Z.of_nat (length (sf :: r)) <= 65536 ->
  (others = [] \/ sym_count d + Z.of_nat (length (sf :: r)) = 65536) ->
  okchunks others -> Forall lsf (r ++ concat others) ->
  mid d (sf :: r) inp ->
  exists d', get_sym d qy = Some (sym, d') /\
    srel d' (r ++ concat others) (inp ++ concat (map chunk_bytes others)).
Proof.
  intros HC HA H1 H2 H3 H4 H5 H6. cbn [length] in *.
  pose proof H5 as H5'. apply Forall_app in H5'. destruct H5' as (F1 & _).
  destruct (get_sym_mid d qy sym sf r inp F1 HC H6 HA H1) as (d' & G & SC & [(C1 & C2)|(C1 & C2)]).
  - exists d'. split; auto. rewrite u16_small in SC by lia.
    apply (s_mid _ _ _ r others inp); auto; try lia.
    destruct H3; [left; auto|right; lia].
  - exists d'. split; auto. assert (r = []) by (destruct r; auto; cbn [length] in *; lia). subst r.
    destruct (C2 eq_refl) as (D1 & D2 & D3 & ->). cbn [app].
    apply (s_start _ _ _ others); auto.
Qed.

(** One decoding step. *)
Lemma srel_step {A} d (qy : query A) (sym : A) sf sfs data tail pieces :
  srel d (sf :: sfs) data -> codes qy sym sf -> concat pieces = data ++ tail ->
  exists d1 rest data' d2, fill d pieces = FOk d1 rest /\ get_sym d1 qy = Some (sym, d2) /\
    srel d2 sfs data' /\ concat rest = data' ++ tail.
Proof.
  intros [chunks V H1 H2 H3 H4 H5 H6|r others inp H1 H2 H3 H4 H5 H6 H7 H8] HC CP.
  - assert (exists l ls, chunks = l :: ls /\ l <> [] /\ okchunks ls /\
        Z.of_nat (length l) <= 65536 /\ (ls = [] \/ Z.of_nat (length l) = 65536)) as (l & ls & -> & N & O & Le & Lo).
    { destruct H3 as [|l N Le|l ls Le O]; [discriminate H5| |].
      - exists l, []. repeat split; auto. constructor.
      - exists l, ls. repeat split; auto; try lia. intros ->. cbn [length] in Le. lia. }
    cbn [concat map] in *. destruct l as [|sf' r]; [congruence|]. cbn [app] in H5.
    injection H5 as -> ->. subst data. rewrite <- app_assoc in CP.
    assert (F1 : Forall lsf (sf' :: r)).
    { inversion H4 as [|? ? K1 K2]; subst. constructor; auto. apply Forall_app in K2. tauto. }
    destruct (fill_start d (sf' :: r) _ pieces F1 V H1 H2 CP) as (d1 & rest & inp1 & FI & M & A0 & S0 & C1).
    assert (F2 : Forall lsf (r ++ concat ls)) by now inversion H4.
    destruct (get_sym_s_mid d1 qy sym sf' r ls inp1 HC A0 ltac:(lia) ltac:(lia)
      ltac:(rewrite S0; tauto) O F2 M) as (d2 & G & SR).
    exists d1, rest, (inp1 ++ concat (map chunk_bytes ls)), d2. repeat split; auto.
    rewrite C1, app_assoc. reflexivity.
  - assert (r <> []).
    { intros ->. destruct H3 as [->|H3]; [discriminate H6|cbn [length] in H3; lia]. }
    destruct r as [|sf' r]; [congruence|]. cbn [app] in H6. injection H6 as -> ->. subst data.
    rewrite <- app_assoc in CP.
    assert (F1 : Forall lsf (sf' :: r)).
    { inversion H5 as [|? ? K1 K2]; subst. constructor; auto. apply Forall_app in K2. tauto. }
    destruct (fill_mid d (sf' :: r) inp _ pieces F1 H7 CP) as (d1 & rest & inp1 & FI & M & A0 & S0 & C1).
    assert (F2 : Forall lsf (r ++ concat others)) by now inversion H5.
    rewrite <- S0 in *.
    destruct (get_sym_s_mid d1 qy sym sf' r others inp1 HC A0 H1 H2 H3 H4 F2 M) as (d2 & G & SR).
    exists d1, rest, (inp1 ++ concat (map chunk_bytes others)), d2. repeat split; auto.
    rewrite C1, app_assoc. reflexivity.
Qed.

Lemma srel_nil d data : srel d [] data -> data = [].
Proof.
  intros [chunks V H1 H2 H3 H4 H5 H6|r others inp H1 H2 H3 H4 H5 H6 H7 H8].
  - destruct H3 as [|l N Le|l ls Le O]; auto; cbn [concat] in H5; symmetry in H5;
      apply app_eq_nil in H5; destruct H5 as (-> & _); try congruence. cbn [length] in Le. lia.
  - symmetry in H6. apply app_eq_nil in H6. destruct H6 as (-> & Ho).
    apply mid_nil in H7. subst inp.
    assert (others = []) by (destruct H3; auto; cbn [length] in *; lia). subst. reflexivity.
Qed.

Lemma chunks_from_concat sfs : forall pend, concat (chunks_from pend sfs) = pend ++ sfs.
Proof.
  induction sfs as [|sf sfs IH]; intros pend; cbn [chunks_from].
  - destruct pend; cbn [concat]; rewrite ?app_nil_r; auto.
  - destruct (_ =? 65535); cbn [concat]; rewrite IH; cbn [app]; now rewrite <- app_assoc.
Qed.
Lemma chunks_from_ok sfs : forall pend, Z.of_nat (length pend) < 65536 ->
  okchunks (chunks_from pend sfs).
Proof.
  induction sfs as [|sf sfs IH]; intros pend Hp; cbn [chunks_from].
  - destruct pend; constructor; try discriminate. lia.
  - destruct (Z.eqb_spec (Z.of_nat (length pend)) 65535).
    + apply okc_cons. { rewrite app_length; cbn [length]; lia. } apply IH. cbn [length]. lia.
    + apply IH. rewrite app_length; cbn [length]; lia.
Qed.

Lemma srel_init sfs : Forall lsf sfs ->
  exists out, ans_encode sfs = Some out /\ srel dec_new sfs out.
Proof.
  intros F. exists (concat (map chunk_bytes (chunks_from [] sfs))). split.
  - now apply ans_encode_ok.
  - apply (s_start _ _ _ (chunks_from [] sfs)); auto using dvalid_new.
    + apply chunks_from_ok. cbn [length]. lia.
    + now rewrite chunks_from_concat.
Qed.

Lemma ans_decode_srel {A} (items : list (query A * A * (Z * Z))) : forall d data tail pieces,
  Forall (fun '(qy, a, sf) => codes qy a sf) items ->
  srel d (map snd items) data -> concat pieces = data ++ tail ->
  exists d' rest, ans_decode d (map (fun x => fst (fst x)) items) pieces =
    DOk (map (fun x => snd (fst x)) items) d' rest /\ concat rest = tail.
Proof.
  induction items as [|[[qy a] sf] items IH]; intros d data tail pieces F S C; cbn [map ans_decode].
  - cbn [map] in S. apply srel_nil in S. subst. exists d, pieces. auto.
  - inversion F; subst. cbn [map snd fst] in *.
    destruct (srel_step d qy a sf _ _ tail pieces S) as (d1 & rest & data' & d2 & E1 & E2 & E3 & E4); auto.
    rewrite E1, E2. destruct (IH d2 data' tail rest) as (d' & rest' & E5 & E6); auto.
    rewrite E5. eauto.
Qed.

Lemma ans_roundtrip {A} (items : list (query A * A * (Z * Z))) :
  Forall (fun '(qy, a, sf) => codes qy a sf) items ->
  exists out, ans_encode (map snd items) = Some out /\
    forall pieces tail, concat pieces = out ++ tail ->
    exists d rest, ans_decode dec_new (map (fun x => fst (fst x)) items) pieces =
      DOk (map (fun x => snd (fst x)) items) d rest /\ concat rest = tail.
Proof.
  intros F. destruct (srel_init (map snd items)) as (out & E & S).
  - apply Forall_map. eapply Forall_impl; [|exact F]. intros [[qy a] sf] (L & _). exact L.
  - exists out. split; auto. intros. eapply ans_decode_srel; eauto.
Qed.

Lemma ans_split {A} (qs : list (query A)) p1 p2 : concat p1 = concat p2 ->
  observe (ans_decode dec_new qs p1) = observe (ans_decode dec_new qs p2).
Proof.
  intros C. pose proof (ans_decode_pieces qs dec_new p1 p2 dvalid_new C) as E.
  inversion E as [E1 E2|l d d' N E1 E2|l d r r' N E1 E2]; cbn [observe].
  - reflexivity.
  - unfold need in N. now rewrite N.
  - now rewrite N.
Qed.

Lemma flush_loop_range l : Forall lsf l -> Z.of_nat (length l) <= 65536 ->
  exists qs a b, flush_loop (sf_bytes l) bs_new ENC_START_STATE ENC_START_STATE = Some (qs, a, b) /\
    inrange a /\ inrange b /\ Z.of_nat (length (content qs)) <= 2 * Z.of_nat (length l).
Proof.
  intros F L. pose proof (flush_loop_ok l [] F ltac:(constructor) ltac:(cbn [length]; lia)) as P.
  cbn [epure] in P.
  assert (F' : Forall lsf (rev l)) by now apply Forall_rev.
  pose proof (epure_range (rev l) F') as R. pose proof (epure_len (rev l) F') as Ln.
  pose proof (eloop_rev (rev l)) as E. rewrite rev_involutive in E. rewrite E in P.
  destruct (epure (rev l)) as [[a b] q0]. destruct R as (Ra & Rb & _).
  rewrite rev_length in Ln.
  eexists _, a, b. split; [exact P|]. split; [exact Ra|]. split; [exact Rb|].
  cbn [content]. unfold credit in Ln. destruct (2 ^ 47 <=? a), (2 ^ 47 <=? b); lia.
Qed.

Lemma ans_encode_size sfs : Forall lsf sfs ->
  exists out, ans_encode sfs = Some out /\
    Z.of_nat (length out) <= 2 * Z.of_nat (length sfs) + 16 * ((Z.of_nat (length sfs) + 65535) / 65536).
Proof.
  intros F. eexists. split; [now apply ans_encode_ok|].
  assert (G : forall sfs pend, Z.of_nat (length pend) < 65536 -> Forall lsf pend -> Forall lsf sfs ->
    let n := Z.of_nat (length pend + length sfs) in
    Z.of_nat (length (concat (map chunk_bytes (chunks_from pend sfs)))) <= 2 * n + 16 * ((n + 65535) / 65536)).
  { assert (CB : forall l, Forall lsf l -> Z.of_nat (length (chunk_bytes l)) <= 2 * Z.of_nat (length l) + 16).
    { intros l Fl. pose proof (epure_len l Fl) as Ln. unfold chunk_bytes.
      destruct (epure l) as [[a b] q0]. rewrite !app_length, !le_length.
      unfold credit in Ln. destruct (2 ^ 47 <=? a), (2 ^ 47 <=? b); lia. }
    clear sfs F. induction sfs as [|sf sfs IH]; intros pend Hp Fp Fs; cbn zeta; cbn [chunks_from].
    - destruct pend as [|p pend]; [cbn [map concat length]; lia|].
      cbn [map concat]. rewrite app_nil_r. specialize (CB _ Fp). cbn [length] in *. lia.
    - inversion Fs as [|? ? F1 F2]; subst.
      assert (Fp' : Forall lsf (pend ++ [sf])) by (apply Forall_app; auto).
      destruct (Z.eqb_spec (Z.of_nat (length pend)) 65535) as [E|E].
      + cbn [map concat]. rewrite app_length. specialize (CB _ Fp').
        specialize (IH [] ltac:(cbn [length]; lia) ltac:(constructor) F2). cbn zeta in IH.
        rewrite app_length in CB. cbn [length] in *. lia.
      + specialize (IH (pend ++ [sf])). rewrite app_length in IH. cbn [length] in *.
        specialize (IH ltac:(lia) Fp' F2). cbn zeta in IH. lia. }
  specialize (G sfs [] ltac:(cbn [length]; lia) ltac:(constructor) F). exact G.
Qed.
