(** What is still to be written, as a function of the coder's state: each nibble put is its
    head. *)
From Verif Require Import Prelude ModelAns ModelCdf SpecCdf ModelMux ProofZlist ModelCmd ModelPriors ModelContextLut ModelCodec ModelLit ModelPm ModelTop SpecCodec ProofCodecInv ProofRun SpecCost SpecWorst ProofWorst SpecWire.

Definition oncmd (st : stream) (v : Z) (l : list Z) : list Z := match st with CMD => v :: l | LIT => l end.
Definition onlit (st : stream) (v : Z) (l : list Z) : list Z := match st with CMD => l | LIT => v :: l end.
Definition spells {S} (ok : S -> Prop) (sc sl : S -> list Z) (v : Z) (s : S) (n : node S) : Prop :=
  match n with
  | Code st _ k => 0 <= v < 16 -> forall s', k v = Next s' -> ok s' /\ sc s = oncmd st v (sc s') /\ sl s = onlit st v (sl s')
  | Silent (Next s') => ok s' /\ sc s = sc s' /\ sl s = sl s'
  | Silent _ => True
  | Done => sc s = [] /\ sl s = []
  end.
Lemma spells_code {S} (ok : S -> Prop) sc sl v s b c bl ix sp k :
  (0 <= v < 16 -> forall P s', k (set_priors b P) v = Next s' -> ok s' /\ sc s = v :: sc s' /\ sl s = sl s') -> spells ok sc sl v s (@code b c bl ix sp S k).
Proof.
  intros H. unfold code. destruct (prior_index c bl ix); cbn [spells]; [|exact Logic.I]. intros V s' E. exact (H V _ _ E).
Qed.
Lemma spells_nibble {S} (ok : S -> Prop) sc sl v s mix l high p k :
  (0 <= v < 16 -> forall l' s', k l' v = Next s' -> ok s' /\ sc s = sc s' /\ sl s = v :: sl s') -> spells ok sc sl v s (@code_nibble mix l high p S k).
Proof.
  intros H. unfold code_nibble. destruct (mm_opts_of l high p); [|exact Logic.I]. destruct (prior_index _ _ _); [|exact Logic.I].
  destruct (negb mix).
  - cbn [spells]. intros V s' E. exact (H V _ _ E).
  - match goal with |- context [match ?e with Some _ => _ | None => _ end] => destruct e end; [|exact Logic.I]. cbn [spells]. intros V s' E.
    destruct (negb (should_mix _)); [discriminate|]. match type of E with context [nth_pair ?a ?b] => destruct (nth_pair a b) end. exact (H V _ _ E).
Qed.

(** ** mantissas *)
Lemma nibs_low : forall k e e', e mod 16 ^ Z.of_nat k = e' mod 16 ^ Z.of_nat k -> nibs k e = nibs k e'.
Proof.
  induction k as [|k IH]; intros e e' H; [reflexivity|]. cbn [nibs]. rewrite Nat2Z.inj_succ, Z.pow_succ_r in H by lia.
  assert (P : 0 < 16 ^ Z.of_nat k) by (apply Z.pow_pos_nonneg; lia). set (p := 16 ^ Z.of_nat k) in *.
  assert (A : forall x, (x / p) mod 16 = (x mod (16 * p)) / p).
  { intros x. rewrite (Z.mul_comm 16 p), Z.rem_mul_r by lia. rewrite (Z.mul_comm p), Z.div_add by lia. rewrite (Z.div_small (x mod p)) by (apply Z.mod_pos_bound; lia). lia. }
  assert (B : forall x, x mod p = (x mod (16 * p)) mod p).
  { intros x. rewrite (Z.mul_comm 16 p), Z.rem_mul_r by lia. rewrite (Z.mul_comm p), Z.mod_add by lia. symmetry. apply Z.mod_mod. lia. }
  f_equal; [rewrite !A, H; reflexivity|]. apply IH. rewrite (B e), (B e'), H. reflexivity.
Qed.
Lemma pow16 k : 0 <= k -> 16 ^ k = 2 ^ (4 * k).
Proof. intros H. rewrite Z.pow_mul_r by lia. reflexivity. Qed.
Lemma mant_spell n dsf lr v : 4 <= lr -> lr mod 4 = 0 -> v = mant_nib n dsf (lr - 4) -> 0 <= v < 16 ->
  nibs (Z.to_nat (lr / 4)) (Z.lxor n dsf) = v :: nibs (Z.to_nat ((lr - 4) / 4)) (Z.lxor n (Z.lor dsf (Z.shiftl v (lr - 4)))).
Proof.
  intros A B EV V. set (k := Z.to_nat ((lr - 4) / 4)). assert (EK : Z.of_nat k = (lr - 4) / 4) by (unfold k; lia).
  replace (Z.to_nat (lr / 4)) with (S k) by (unfold k; lia). cbn [nibs].
  assert (P : 16 ^ Z.of_nat k = 2 ^ (lr - 4)) by (rewrite pow16 by lia; f_equal; lia).
  f_equal.
  - rewrite P, <- Z.shiftr_div_pow2 by lia. unfold mant_nib in EV. set (q := Z.shiftr (Z.lxor n dsf) (lr - 4)) in *. rewrite EV. rewrite EV in V. clear - V. lia.
  - apply nibs_low. rewrite P. rewrite <- !Z.land_ones by lia. apply Z.bits_inj'. intros i I. rewrite !Z.land_spec, !Z.lxor_spec, Z.lor_spec.
    destruct (Z.ltb_spec i (lr - 4)); [|rewrite Z.ones_spec_high by lia; rewrite !andb_false_r; reflexivity].
    rewrite Z.shiftl_spec_low by lia. rewrite orb_false_r. reflexivity.
Qed.
Lemma mant_start n L : 1 <= L -> 2 ^ L <= n < 2 ^ (L + 1) ->
  nibs (Z.to_nat (round_up_mod_4 L / 4)) (Z.lxor n (Z.shiftl 1 L)) = mantissa L n.
Proof.
  intros A B. pose proof (ru L A) as R. unfold mantissa. replace (round_up_mod_4 L / 4) with ((L + 3) / 4) by lia. f_equal.
  rewrite Z.shiftl_1_l. assert (E2 : 2 ^ (L + 1) = 2 * 2 ^ L) by (rewrite Z.pow_add_r by lia; lia).
  set (y := n - 2 ^ L). assert (Y : 0 <= y < 2 ^ L) by (unfold y; lia).
  assert (E : n = Z.lor y (Z.shiftl 1 L)) by (rewrite lor_shift_add by lia; unfold y; lia).
  rewrite E, Z.shiftl_1_l. apply Z.bits_inj'. intros i Hi. rewrite Z.lxor_spec, Z.lor_spec, Z.pow2_bits_eqb by lia.
  destruct (Z.eqb_spec L i) as [->|]; [|destruct (Z.testbit y i); reflexivity]. rewrite (bits_hi y i i) by lia. reflexivity.
Qed.
Lemma log2_fits n : 1 <= n -> 2 ^ Z.log2 n <= n < 2 ^ (Z.log2 n + 1) /\ bitlen n = Z.log2 n + 1.
Proof. intros H. pose proof (Z.log2_spec n ltac:(lia)). split; [replace (Z.log2 n + 1) with (Z.succ (Z.log2 n)) by lia; lia|]. unfold bitlen. destruct (Z.eqb_spec n 0); lia. Qed.
Lemma log2_lt n k : 1 <= n -> n < 2 ^ k -> Z.log2 n < k.
Proof. intros A B. apply Z.log2_lt_pow2; lia. Qed.

(** ** copies *)
(** the distance as the code writes it; [ProofWire2] brings it to the form of the format *)
Definition distance_long_coded (recent : list Z) (d : Z) : list Z :=
  if (znth recent 1 - 3) mod 2 ^ 32 =? d then [15]
  else let L := Z.log2 d in (if L <? 14 then [L] else [14; L - 14]) ++ mantissa L d.
Definition distance_coded (recent : list Z) (d : Z) : list Z :=
  let c := distance_mnemonic_code recent d in if c =? 15 then 15 :: distance_long_coded recent d else [c].
Definition command_coded (D : dims) (g : cfg) (p : past) (c : command) : list Z :=
  match c with Copy d n => 1 :: count_wire n ++ distance_coded (recent p) d | _ => command_wire D g p c end.
Section Copy.
Variables d n : Z.
Hypothesis HD : 1 <= d < 2 ^ 30.
Hypothesis HN : 0 <= n < 2 ^ 32.
Definition csok (s : copy_st) : Prop :=
  match c_sub s with
  | CCountFirst => 15 <= n
  | CCountGreater18 => 15 <= n /\ 18 <= Z.log2 n
  | CDistGreater14 => 14 <= Z.log2 d
  | CCountMant _ lr _ | CDistMant _ lr _ => 4 <= lr /\ lr mod 4 = 0
  | _ => True
  end.
Definition csc (lru : list Z) (s : copy_st) : list Z :=
  match c_sub s with
  | CBegin | CCountSmall => count_wire n ++ distance_coded lru d
  | CCountFirst => count_long n ++ distance_coded lru d
  | CCountGreater18 => [Z.log2 n - 18] ++ mantissa (Z.log2 n) n ++ distance_coded lru d
  | CCountMant _ lr dsf => nibs (Z.to_nat (lr / 4)) (Z.lxor n dsf) ++ distance_coded lru d
  | CCountDecoded | CDistMnemonic => distance_coded lru d
  | CDistFirst => distance_long_coded lru d
  | CDistGreater14 => [Z.log2 d - 14] ++ mantissa (Z.log2 d) d
  | CDistMant _ lr dsf => nibs (Z.to_nat (lr / 4)) (Z.lxor d dsf)
  | CFully => []
  end.
Lemma copy_spells v b s : csok s -> copy_want d n b s = Put v ->
  spells (fun p => csok (snd p)) (fun p => csc (distance_lru (fst p)) (snd p)) (fun _ => []) v (b, s) (copy_node b s).
Proof.
  intros K W. unfold copy_node. cbv zeta. unfold csok in K. unfold copy_want in W. cbv zeta in W.
  destruct (log2_fits d ltac:(lia)) as (D1 & D2). rewrite D2 in W. pose proof (Z.log2_nonneg d) as D3. pose proof (log2_lt d 30 ltac:(lia) ltac:(lia)) as D4.
  destruct (Z.eqb_spec (Z.log2 d + 1) 0) as [|_]; [lia|].
  assert (NF : 15 <= n -> (2 ^ Z.log2 n <= n < 2 ^ (Z.log2 n + 1) /\ bitlen n = Z.log2 n + 1) /\ 3 <= Z.log2 n < 32).
  { intros H. split; [apply log2_fits; lia|]. split; [apply Z.log2_le_pow2; lia|apply log2_lt; lia]. }
  pose proof (fun l => eq_refl (csc l s)) as RK; unfold csc in RK at 2.
  destruct (c_sub s) as [| | | |ld lr dsf| | | | |ld lr dsf|] eqn:U; try (apply spells_code; intros V P s' E); cbn [fst snd]; try rewrite RK;
    try (match type of W with Put ?x = Put _ => assert (EV : v = x) by congruence; clear W end).
  - cbn [spells fst snd]. rewrite RK. unfold csok, csc, cset. cbn [c_sub]. auto.
  - unfold count_wire. destruct (Z.eqb_spec v 15); nx E; cbn [fst snd]; unfold csok, csc, cset, set_num; cbn [c_sub set_priors set_last_clen distance_lru].
    + destruct (Z.ltb_spec n 15); [lia|]. subst v. split; [lia|]. split; [|reflexivity]. rewrite e. reflexivity.
    + destruct (Z.ltb_spec n 15); [|lia]. replace v with n by lia. auto.
  - destruct (NF K) as ((N1 & N2) & N3). unfold wsub8 in EV. rewrite N2 in EV. rewrite Z.mod_small in EV by lia. unfold count_long. cbv zeta.
    destruct (Z.eqb_spec v 15); nx E; cbn [fst snd]; unfold csok, csc, cset; cbn [c_sub set_priors set_last_clen distance_lru].
    + destruct (Z.ltb_spec (Z.log2 n) 18); [lia|]. split; [split; lia|]. split; [|reflexivity]. rewrite e. reflexivity.
    + destruct (Z.ltb_spec (Z.log2 n) 18); [|lia]. replace (v + 3) with (Z.log2 n) by lia. pose proof (ru (Z.log2 n) ltac:(lia)). rewrite (mant_start n (Z.log2 n) ltac:(lia) N1).
      split; [split; lia|]. split; [|reflexivity]. replace v with (Z.log2 n - 3) by lia. rewrite <- app_assoc. reflexivity.
  - destruct K as (K1 & K2). destruct (NF K1) as ((N1 & N2) & N3). unfold wsub8 in EV. rewrite N2 in EV. rewrite Z.mod_small in EV by lia.
    destruct (Z.ltb_spec (v + 18) 32); [|discriminate]. nx E; cbn [fst snd]; unfold csok, csc, cset; cbn [c_sub set_priors set_last_clen distance_lru].
    replace (v + 18) with (Z.log2 n) by lia. pose proof (ru (Z.log2 n) ltac:(lia)). rewrite (mant_start n (Z.log2 n) ltac:(lia) N1). split; [split; lia|]. split; [|reflexivity]. replace v with (Z.log2 n - 18) by lia. reflexivity.
  - destruct K as (K1 & K2). rewrite (mant_spell n dsf lr v K1 K2 EV V).
    destruct (Z.eqb_spec (lr - 4) 0) as [Q|Q]; nx E; cbn [fst snd]; unfold csok, csc, cset, set_num; cbn [c_sub set_priors distance_lru].
    + rewrite Q. auto.
    + split; [split; lia|]. auto.
  - cbn [spells fst snd]. rewrite RK. unfold csok, csc, cset. cbn [c_sub]. auto.
  - unfold distance_coded. cbv zeta. rewrite <- EV. destruct (v =? 15) eqn:Q.
    + nx E; cbn [fst snd]; unfold csok, csc, cset; cbn [c_sub set_priors distance_lru]. apply Z.eqb_eq in Q. rewrite Q. auto.
    + destruct (distance_from_code _ _) as (d', o). destruct o; [|discriminate]. nx E; cbn [fst snd]; unfold csok, csc, set_dist; cbn [c_sub]. auto.
  - unfold distance_long_coded. cbv zeta. unfold wsub32 in EV. destruct ((znth (distance_lru b) 1 - 3) mod 2 ^ 32 =? d) eqn:Q.
    + subst v. cbv [Z.eqb Pos.eqb] in E. nx E; cbn [fst snd]; unfold csok, csc, set_dist; cbn [c_sub]. auto.
    + destruct (Z.eqb_spec v 14) as [Q1|Q1]; [|destruct (Z.eqb_spec v 15) as [Q2|Q2]; [lia|destruct (Z.eqb_spec v 0) as [Q3|Q3]]]; nx E; cbn [fst snd]; unfold csok, csc, cset, set_dist; cbn [c_sub].
      * destruct (Z.ltb_spec (Z.log2 d) 14); [lia|]. rewrite Q1. split; [lia|]. auto.
      * destruct (Z.ltb_spec (Z.log2 d) 14); [|lia]. replace (Z.log2 d) with 0 by lia. subst v. rewrite Q3. auto.
      * destruct (Z.ltb_spec (Z.log2 d) 14); [|lia]. replace v with (Z.log2 d) by lia. pose proof (ru (Z.log2 d) ltac:(lia)). rewrite (mant_start d (Z.log2 d) ltac:(lia) D1). split; [split; lia|]. auto.
  - unfold wsub8 in EV. rewrite Z.mod_small in EV by lia. nx E; cbn [fst snd]; unfold csok, csc, cset; cbn [c_sub].
    replace (v + 14) with (Z.log2 d) by lia. pose proof (ru (Z.log2 d) ltac:(lia)). rewrite (mant_start d (Z.log2 d) ltac:(lia) D1). split; [split; lia|]. replace v with (Z.log2 d - 14) by lia. auto.
  - destruct K as (K1 & K2). rewrite (mant_next lr K1 K2) in *. rewrite (mant_spell d dsf lr v K1 K2 EV V).
    destruct (Z.eqb_spec (lr - 4) 0) as [Q|Q]; nx E; cbn [fst snd]; unfold csok, csc, cset, set_dist; cbn [c_sub].
    + rewrite Q. auto.
    + split; [split; lia|]. auto.
  - cbn [spells fst snd]. rewrite RK. auto.
Qed.
End Copy.

(** ** dictionary references *)
Section Dict.
Variables ws wid tr : Z.
Hypothesis HW : 4 <= ws <= 24.
Hypothesis HT : 0 <= tr < 121.
Lemma bits_same w : 4 <= w <= 24 -> znth DICT_BITS w = znth word_bits (w - 4).
Proof. intros H. unfold znth. replace (Z.to_nat w) with (4 + Z.to_nat (w - 4))%nat by lia. reflexivity. Qed.
Definition dsok (s : dict_st) : Prop := match d_sub s with DSizeGreater18 => 19 <= ws | DIndex _ lr _ => 4 <= lr /\ lr mod 4 = 0 | _ => True end.
Definition dword : list Z := nibs (Z.to_nat ((znth word_bits (ws - 4) + 3) / 4)) wid.
Definition dsc (s : dict_st) : list Z :=
  match d_sub s with
  | DBegin | DSizeFirst => dict_wire ws wid tr
  | DSizeGreater18 => [ws - 19] ++ dword ++ [tr / 16; tr mod 16]
  | DIndex _ lr dsf => nibs (Z.to_nat (lr / 4)) (Z.lxor wid dsf) ++ [tr / 16; tr mod 16]
  | DTransformHigh => [tr / 16; tr mod 16]
  | DTransformLow => [tr mod 16]
  | DFully => []
  end.
Lemma dword_start : let lr := round_up_mod_4 (znth DICT_BITS ws) in 4 <= lr /\ lr mod 4 = 0 /\ nibs (Z.to_nat (lr / 4)) (Z.lxor wid 0) = dword.
Proof.
  cbv zeta. pose proof (dict_bits ws HW) as B. pose proof (ru (znth DICT_BITS ws) ltac:(lia)) as R. split; [lia|]. split; [lia|].
  unfold dword. rewrite <- bits_same by exact HW. rewrite Z.lxor_0_r. f_equal. lia.
Qed.
Lemma dict_spells wl v b s : dsok s -> dict_want ws wid tr s = Put v ->
  spells (fun p => dsok (snd p)) (fun p => dsc (snd p)) (fun _ => []) v (b, s) (dict_node wl b s).
Proof.
  intros K W. unfold dict_node. cbv zeta. unfold dsok in K. unfold dict_want in W.
  destruct dword_start as (R1 & R2 & R3).
  pose proof (eq_refl (dsc s)) as RK; unfold dsc in RK at 2.
  destruct (d_sub s) as [| | |ld lr dsf| | |] eqn:U; try (apply spells_code; intros V P s' E); cbn [fst snd]; try rewrite RK;
    try (match type of W with Put ?x = Put _ => assert (EV : v = x) by congruence; clear W end).
  - cbn [spells fst snd]. rewrite RK. unfold dsok, dsc, dset. cbn [d_sub]. auto.
  - unfold wsub8 in EV. rewrite Z.mod_small in EV by lia. unfold dict_wire. fold dword.
    destruct (Z.eqb_spec v 15); nx E; cbn [fst snd]; unfold dsok, dsc, dset; cbn [d_sub].
    + destruct (Z.ltb_spec ws 19); [lia|]. rewrite e. split; [lia|]. auto.
    + destruct (Z.ltb_spec ws 19); [|lia]. replace (v + 4) with ws by lia. rewrite R3. replace v with (ws - 4) by lia. auto.
  - unfold wsub8 in EV. rewrite Z.mod_small in EV by lia. destruct (Z.ltb_spec 24 (v + 19)); [discriminate|].
    nx E; cbn [fst snd]; unfold dsok, dsc, dset; cbn [d_sub]. replace (v + 19) with ws by lia. rewrite R3. replace v with (ws - 19) by lia. auto.
  - destruct K as (K1 & K2). rewrite (mant_spell wid dsf lr v K1 K2 EV V).
    destruct (Z.eqb_spec (lr - 4) 0) as [Q|Q]; nx E; cbn [fst snd]; unfold dsok, dsc, dset; cbn [d_sub].
    + rewrite Q. auto.
    + split; [split; lia|]. auto.
  - nx E; cbn [fst snd]; unfold dsok, dsc; cbn [d_sub]. rewrite Z.shiftr_div_pow2 in EV by lia. change (2 ^ 4) with 16 in EV. rewrite EV. auto.
  - destruct (121 <=? _); [discriminate|]. nx E; cbn [fst snd]; unfold dsok, dsc; cbn [d_sub]. change 15 with (2 ^ 4 - 1) in EV. rewrite land_mask in EV by lia. change (2 ^ 4) with 16 in EV. rewrite EV. auto.
  - cbn [spells fst snd]. rewrite RK. auto.
Qed.
End Dict.

(** ** block switches *)
Section Btype.
Variables (i t : Z).
Hypothesis HT : byte t.
Definition btc (b : bk) (s : btype_st) : list Z :=
  match s with
  | BtBegin => btype_wire (snd (nth_pair (btype_lru b) i)) (znth (btype_max_seen b) i) t
  | BtTwoNibble => [t mod 16; t / 16]
  | BtFinal _ => [t / 16]
  | BtFully _ => []
  end.
Lemma btype_spells v b s : btype_want t i b s = Put v ->
  spells (fun _ => True) (fun p => btc (fst p) (snd p)) (fun _ => []) v (b, s) (btype_node i b s).
Proof.
  intros W. unfold btype_want in W. unfold btype_node. unfold byte in HT.
  destruct s; try (apply spells_code; intros V P s' E); try (match type of W with Put ?x = Put _ => assert (EV : v = x) by congruence; clear W end); cbn [fst snd btc].
  - unfold btype_wire. destruct (t =? snd (nth_pair (btype_lru b) i)); [subst v; cbv [Z.eqb Pos.eqb] in E; nx E; auto|].
    destruct (t =? (znth (btype_max_seen b) i + 1) mod 256); [subst v; cbv [Z.eqb Pos.eqb] in E; nx E; auto|].
    destruct (Z.leb_spec t 12).
    + destruct (Z.eqb_spec v 0); [lia|]. destruct (Z.eqb_spec v 1); [lia|]. destruct (Z.eqb_spec v 15); [lia|]. nx E. rewrite EV. auto.
    + subst v; cbv [Z.eqb Pos.eqb] in E; nx E. auto.
  - nx E. cbn [fst snd btc]. change 15 with (2 ^ 4 - 1) in EV. rewrite land_mask in EV by lia. change (2 ^ 4) with 16 in EV. rewrite EV. auto.
  - nx E. cbn [fst snd btc]. rewrite Z.shiftr_div_pow2 in EV by lia. change (2 ^ 4) with 16 in EV. rewrite EV. auto.
  - cbn [spells]. auto.
Qed.
End Btype.
Section Lbtype.
Variables (g : cfg) (t sd : Z).
Hypothesis HT : byte t.
Definition stride_wire : Z := if want_stride g =? 9 then sd else want_stride g.
Definition lbc (b : bk) (s : lbtype_st) : list Z :=
  match s with
  | LbBegin => btc 0 t b BtBegin ++ [stride_wire]
  | LbInter u => btc 0 t b u ++ [stride_wire]
  | LbStride _ => [stride_wire]
  | LbFully _ _ => []
  end.
Lemma lbtype_spells v b s : lbtype_want g t sd b s = Put v ->
  spells (fun _ => True) (fun p => lbc (fst p) (snd p)) (fun _ => []) v (b, s) (lbtype_node b s).
Proof.
  intros W. unfold lbtype_want in W. unfold lbtype_node. destruct s as [|u|x|]; [cbn [spells fst snd lbc]; auto| | |cbn [spells]; auto].
  - assert (G : (forall y, u <> BtFully y) -> spells (fun _ => True) (fun p => lbc (fst p) (snd p)) (fun _ => []) v (b, LbInter u) (map_node (fun p => (fst p, LbInter (snd p))) Panic (btype_node 0 b u))).
    { intros NF. pose proof (btype_spells 0 t HT v b u W) as F.
      destruct (btype_node 0 b u) as [st d k|o|] eqn:BN; cbn [map_node spells] in *; [|destruct o as [(b', u')| |]; cbn [map_outcome]; try exact Logic.I; cbn [fst snd lbc] in *; destruct F as (_ & -> & _); auto|].
      - intros V s' E. destruct (k v) as [(b', u')| |] eqn:KV; cbn [map_outcome] in E; try discriminate. nx E. destruct (F V _ eq_refl) as (_ & A & B). cbn [fst snd lbc] in *. rewrite A.
        destruct st; [auto|]. cbn [onlit] in B. discriminate.
      - exact Logic.I. }
    destruct u as [| |f|y]; try (apply G; discriminate). cbn [spells fst snd lbc btc]. auto.
  - apply spells_code; intros V P s' E. nx E. cbn [fst snd lbc]. assert (EV : v = stride_wire) by (unfold stride_wire; congruence). rewrite EV. auto.
Qed.
End Lbtype.

(** ** literals *)
Lemma zskip_step {A} (dflt : A) i (l : list A) : 0 <= i < zlen l -> zskip i l = nth (Z.to_nat i) l dflt :: zskip (i + 1) l.
Proof.
  unfold zskip, zlen. intros H. replace (Z.to_nat (i + 1)) with (S (Z.to_nat i)) by lia. assert (L : (Z.to_nat i < length l)%nat) by lia. clear H. revert L. generalize (Z.to_nat i). clear i. intros i. revert l.
  induction i as [|i IH]; intros [|x l] L; cbn [length] in L; try lia; [reflexivity|]. cbn [skipn nth]. rewrite (IH l) by lia. reflexivity.
Qed.
Section Lit.
Variables (data : list Z) (he : bool).
Hypothesis HB : bytes data.
Hypothesis HL : 1 <= zlen data <= 2 ^ 30 + 14.
Let len := zlen data.
Definition lsok (s : lit_st) : Prop :=
  match l_sub s with
  | LCountFirst => 15 <= len
  | LCountGreater14 => 15 <= len /\ 2 <= len - 15 /\ 14 <= Z.log2 (len - 15)
  | LCountMant lr dsf => 15 <= len /\ 4 <= lr /\ lr mod 4 = 0 /\ rest_ok (len - 15) dsf lr
  | LNibble i | LLower i _ => 0 <= i < len /\ l_len s = len
  | _ => True
  end.
Definition lsc (s : lit_st) : list Z :=
  match l_sub s with
  | LBegin | LCountSmall false => literal_wire len he
  | LCountSmall true => length_wire len
  | LCountFirst => length_long (len - 15)
  | LCountGreater14 => [Z.log2 (len - 15) - 14] ++ mantissa (Z.log2 (len - 15)) (len - 15)
  | LCountMant lr dsf => nibs (Z.to_nat (lr / 4)) (Z.lxor (len - 15) dsf)
  | _ => []
  end.
Definition lsl (s : lit_st) : list Z :=
  match l_sub s with
  | LNibble i => flat_map byte_wire (zskip i data)
  | LLower i _ => znth data i mod 16 :: flat_map byte_wire (zskip (i + 1) data)
  | LFully => []
  | _ => flat_map byte_wire data
  end.
Lemma lit_spells mix v b l s : lsok s -> lit_want data he s = Put v ->
  spells (fun p => lsok (snd p)) (fun p => lsc (snd p)) (fun p => lsl (snd p)) v (b, l, s) (lit_node mix b l s).
Proof.
  intros K W. unfold lit_node. cbv zeta. unfold lsok in K. unfold lit_want in W. cbv zeta in W. fold len in W. fold len in HL.
  assert (M32 : 15 <= len -> wsub32 len 15 = len - 15) by (intros; unfold wsub32; apply Z.mod_small; lia).
  assert (M1 : wsub32 len 1 = len - 1) by (unfold wsub32; apply Z.mod_small; lia).
  assert (NF : 2 <= len - 15 -> (2 ^ Z.log2 (len - 15) <= len - 15 < 2 ^ (Z.log2 (len - 15) + 1) /\ bitlen (len - 15) = Z.log2 (len - 15) + 1) /\ 1 <= Z.log2 (len - 15) < 30).
  { intros H. split; [apply log2_fits; lia|]. split; [apply Z.log2_le_pow2; lia|apply log2_lt; lia]. }
  assert (Z0 : flat_map byte_wire (zskip 0 data) = flat_map byte_wire data) by (rewrite zskip_0; reflexivity).
  pose proof (eq_refl (lsc s)) as RK; unfold lsc in RK at 2. pose proof (eq_refl (lsl s)) as RL; unfold lsl in RL at 2.
  destruct (l_sub s) as [|flag| | |lr dsf|i|i h|] eqn:U.
  - cbn [spells snd]. rewrite RK, RL. unfold lsok, lsc, lsl, lset. cbn [l_sub]. auto.
  - apply spells_code; intros V P s' E; cbn [snd]; rewrite RK, RL. rewrite M1 in W.
    assert (LW : v = Z.min 14 (len - 1) -> forall s', (if v =? 14 then Next (set_priors b P, l, lset s LCountFirst) else if v =? 15 then Next (set_priors b P, l, LS (l_data s) (l_len s) true (LCountSmall true)) else Next (set_last_llen (set_priors b P) (v + 1), l, lsized s (v + 1))) = Next s' ->
      lsok (snd s') /\ length_wire len = v :: lsc (snd s') /\ flat_map byte_wire data = lsl (snd s')).
    { clear E s' W. intros EV s' E. unfold length_wire. destruct (Z.eqb_spec v 14); [|destruct (Z.eqb_spec v 15); [lia|]]; nx E; cbn [snd]; unfold lsok, lsc, lsl, lset, lsized; cbn [l_sub l_len].
      - destruct (Z.ltb_spec len 15); [lia|]. rewrite e. split; [lia|]. auto.
      - destruct (Z.ltb_spec len 15); [|lia]. replace v with (len - 1) by lia. split; [split; lia|]. split; [reflexivity|]. symmetry. exact Z0. }
    destruct flag.
    + rewrite andb_false_r in W. apply LW; [congruence|exact E].
    + unfold literal_wire. destruct he; cbn [andb negb] in W.
      * assert (v = 15) by congruence. subst v. cbv [Z.eqb Pos.eqb] in E. nx E; cbn [snd]; unfold lsok, lsc, lsl; cbn [l_sub]. auto.
      * cbn [app]. apply LW; [congruence|exact E].
  - apply spells_code; intros V P s' E; cbn [snd]; rewrite RK, RL. rewrite M32 in W by exact K. assert (EV : v = Z.min 15 (bitlen (len - 15))) by congruence. clear W. unfold length_long. cbv zeta.
    destruct (Z.ltb_spec (len - 15) 2).
    + assert (EV2 : v = len - 15).
      { assert (C : len - 15 = 0 \/ len - 15 = 1) by lia. destruct C as [C|C]; rewrite C in EV; rewrite C; exact EV. }
      destruct (Z.eqb_spec v 15); [lia|]. destruct (Z.leb_spec v 1); [|lia]. nx E; cbn [snd]; unfold lsok, lsc, lsl, lsized; cbn [l_sub l_len]. rewrite EV2. split; [split; lia|]. split; [reflexivity|]. symmetry. exact Z0.
    + destruct (NF ltac:(lia)) as ((N1 & N2) & N3). rewrite N2 in EV. destruct (Z.eqb_spec v 15); [|destruct (Z.leb_spec v 1); [lia|]]; nx E; cbn [snd]; unfold lsok, lsc, lsl, lset; cbn [l_sub l_len].
      * destruct (Z.ltb_spec (Z.log2 (len - 15)) 14); [lia|]. rewrite e. split; [repeat split; lia|]. auto.
      * destruct (Z.ltb_spec (Z.log2 (len - 15)) 14); [|lia]. replace (v - 1) with (Z.log2 (len - 15)) by lia. pose proof (ru (Z.log2 (len - 15)) ltac:(lia)). rewrite (mant_start (len - 15) (Z.log2 (len - 15)) ltac:(lia) N1).
        replace v with (Z.log2 (len - 15) + 1) by lia. split; [|auto]. split; [exact K|]. split; [lia|]. split; [lia|]. apply rest_start; [lia|exact N1|lia].
  - destruct K as (K1 & K2 & K3). apply spells_code; intros V P s' E; cbn [snd]; rewrite RK, RL. rewrite M32 in W by exact K1. destruct (NF K2) as ((N1 & N2) & N3). rewrite N2 in W. unfold wsub8 in W. rewrite Z.mod_small in W by lia.
    assert (EV : v = Z.log2 (len - 15) + 1 - 15) by congruence. nx E; cbn [snd]; unfold lsok, lsc, lsl, lset; cbn [l_sub l_len].
    replace (v + 14) with (Z.log2 (len - 15)) by lia. pose proof (ru (Z.log2 (len - 15)) ltac:(lia)). rewrite (mant_start (len - 15) (Z.log2 (len - 15)) ltac:(lia) N1).
    replace v with (Z.log2 (len - 15) - 14) by lia. split; [|auto]. split; [exact K1|]. split; [lia|]. split; [lia|]. apply rest_start; [lia|exact N1|lia].
  - destruct K as (K1 & K2 & K3 & K4). apply spells_code; intros V P s' E; cbn [snd]; rewrite RK, RL. rewrite M32 in W by exact K1. assert (EV : v = mant_nib (len - 15) dsf (lr - 4)) by congruence. clear W.
    rewrite (mant_spell (len - 15) dsf lr v K2 K3 EV V). replace lr with (lr - 4 + 4) in K4 by lia. destruct (mant_step _ _ (lr - 4) ltac:(lia) K4) as (_ & S2). rewrite <- EV in S2.
    destruct (Z.eqb_spec (lr - 4) 0) as [Q|Q]; nx E; cbn [snd]; unfold lsok, lsc, lsl, lset, lsized; cbn [l_sub l_len].
    + rewrite Q in *. apply rest_done in S2. rewrite S2. split; [split; lia|]. split; [reflexivity|]. symmetry. exact Z0.
    + split; [repeat split; try lia; apply S2|]. auto.
  - destruct K as (K1 & K2). unfold zget in W. fold len in W. destruct (Z.leb_spec 0 i); [|lia]. destruct (Z.ltb_spec i len); [|lia]. cbn [andb] in W.
    assert (EV : v = znth data i / 16). { rewrite Z.shiftr_div_pow2 in W by lia. change (2 ^ 4) with 16 in W. congruence. }
    apply spells_nibble; intros V l' s' E; cbn [snd]; rewrite RK, RL. nx E; cbn [snd]; unfold lsok, lsc, lsl, lset; cbn [l_sub l_len].
    rewrite (zskip_step 0 i data K1). cbn [flat_map byte_wire app]. fold (znth data i). rewrite EV. split; [split; [lia|exact K2]|]. auto.
  - destruct K as (K1 & K2). unfold zget in W. fold len in W. destruct (Z.leb_spec 0 i); [|lia]. destruct (Z.ltb_spec i len); [|lia]. cbn [andb] in W.
    assert (EV : v = znth data i mod 16). { change 15 with (2 ^ 4 - 1) in W. rewrite land_mask in W by lia. change (2 ^ 4) with 16 in W. congruence. }
    apply spells_nibble; intros V l' s' E; cbn [snd]; rewrite RK, RL. nx E; cbn [snd]; unfold lsok, lsc, lsl; cbn [l_sub l_len]. rewrite K2.
    rewrite EV. destruct (Z.eqb_spec (i + 1) len) as [Q|Q].
    + split; [exact Logic.I|]. split; [reflexivity|]. rewrite zskip_all by (fold len; lia). reflexivity.
    + split; [split; [lia|reflexivity]|]. auto.
  - cbn [spells snd]. rewrite RK, RL. auto.
Qed.
End Lit.

(** ** prediction modes *)
Lemma place_last x : forall l i res, NoDup l -> last_index x i res l = match place x i l with Some j => j | None => res end.
Proof.
  assert (NI : forall l i res, ~ In x l -> last_index x i res l = res).
  { induction l as [|y l IH]; intros i res N; [reflexivity|]. cbn [last_index]. destruct (Z.eqb_spec y x) as [->|]; [exfalso; apply N; left; reflexivity|]. apply IH. intros H. apply N. right. exact H. }
  induction l as [|y l IH]; intros i res N; [reflexivity|]. cbn [last_index place]. apply NoDup_cons_iff in N. destruct N as (N1 & N2).
  destruct (Z.eqb_spec y x) as [->|]; [apply NI; exact N1|]. apply IH. exact N2.
Qed.
Lemma remove_out x : forall l, ~ In x l -> remove Z.eq_dec x l = l.
Proof. exact (fun l H => notin_remove Z.eq_dec l x H). Qed.
Lemma touch_front l x : NoDup l -> length l = 13%nat -> lru_touch l x = to_front l x.
Proof.
  intros N L. unfold lru_touch, to_front. rewrite L. cbn [Nat.sub].
  assert (A : forall l, NoDup l -> match index_of x l with Some i => remove Z.eq_dec x l = firstn i l ++ skipn (S i) l /\ (i < length l)%nat | None => remove Z.eq_dec x l = l end).
  { clear. induction l as [|y l IH]; intros N; [reflexivity|]. apply NoDup_cons_iff in N. destruct N as (N1 & N2). specialize (IH N2). cbn [index_of remove].
    destruct (Z.eqb_spec y x) as [->|Q].
    - destruct (Z.eq_dec x x); [|contradiction]. cbn [firstn skipn app length]. split; [apply remove_out; exact N1|lia].
    - destruct (Z.eq_dec x y); [congruence|]. destruct (index_of x l) as [j|]; cbn [option_map].
      + destruct IH as (IH1 & IH2). rewrite IH1. cbn [length]. split; [reflexivity|lia].
      + rewrite IH. reflexivity. }
  specialize (A l N). destruct (index_of x l) as [i|].
  - destruct A as (A & I). rewrite A. rewrite (@firstn_all2 Z 12 (firstn i l ++ skipn (S i) l)); [reflexivity|]. rewrite app_length, firstn_length, skipn_length. lia.
  - rewrite A. reflexivity.
Qed.
Definition recents (l : list Z) : Prop := NoDup l /\ length l = 13%nat.
Lemma recents_front l x : recents l -> recents (to_front l x).
Proof.
  intros (N & L). unfold to_front. assert (FI : forall k (m : list Z) y, In y (firstn k m) -> In y m).
  { clear. induction k as [|k IH]; intros [|z m] y H; cbn [firstn] in H; try contradiction. destruct H as [H|H]; [left; exact H|right; apply IH; exact H]. }
  assert (NR : forall k (m : list Z), NoDup m -> NoDup (firstn k m)).
  { clear - FI. induction k as [|k IH]; intros m N; [constructor|]. destruct m as [|y m]; [constructor|]. cbn [firstn]. apply NoDup_cons_iff in N. destruct N as (N1 & N2).
    constructor; [|apply IH; exact N2]. intros H. apply N1. exact (FI _ _ _ H). }
  assert (RN : forall m, NoDup m -> NoDup (remove Z.eq_dec x m)).
  { clear. induction m as [|y m IH]; intros N; [constructor|]. apply NoDup_cons_iff in N. destruct N as (N1 & N2). cbn [remove]. destruct (Z.eq_dec x y); [apply IH; exact N2|]. constructor; [|apply IH; exact N2]. intros H. apply N1. apply in_remove in H. tauto. }
  split.
  - constructor; [|apply NR, RN, N]. intros H. apply FI in H. exact (remove_In _ _ _ H).
  - cbn [length]. rewrite firstn_length. assert (12 <= length (remove Z.eq_dec x l))%nat; [|lia].
    assert (R1 : forall m, NoDup m -> (length m <= S (length (remove Z.eq_dec x m)))%nat).
    { clear. induction m as [|y m IH]; intros N; [cbn; lia|]. apply NoDup_cons_iff in N. destruct N as (N1 & N2). cbn [remove]. destruct (Z.eq_dec x y) as [->|]; [rewrite remove_out by exact N1; cbn [length]; lia|]. cbn [length]. specialize (IH N2). lia. }
    specialize (R1 l N). lia.
Qed.
Lemma recents0 : recents recent0.
Proof. split; [|reflexivity]. unfold recent0. repeat (constructor; [cbn [In]; lia|]). constructor. Qed.
Lemma place_range x : forall l i j, place x i l = Some j -> i <= j < i + zlen l /\ znth l (j - i) = x.
Proof.
  induction l as [|y l IH]; intros i j E; [discriminate|]. cbn [place] in E. rewrite zlen_cons. pose proof (zlen_nonneg l). destruct (Z.eqb_spec y x).
  - injection E as <-. split; [lia|]. unfold znth. rewrite Z.sub_diag. exact e.
  - apply IH in E. destruct E as (E1 & E2). split; [lia|]. unfold znth in *. replace (Z.to_nat (j - i)) with (S (Z.to_nat (j - (i + 1)))) by lia. exact E2.
Qed.
Lemma mnemonic_wire l x : recents l ->
  (cmap_mnemonic l x = 13 /\ entry_wire l x = [13] /\ lru_next l = x) \/
  (0 <= cmap_mnemonic l x < 13 /\ entry_wire l x = [cmap_mnemonic l x] /\ znth l (cmap_mnemonic l x) = x) \/
  (cmap_mnemonic l x = 15 /\ entry_wire l x = [15; x / 16; x mod 16]).
Proof.
  intros (N & L). unfold cmap_mnemonic, entry_wire. fold (lru_next l). destruct (Z.eqb_spec x (lru_next l)); [left; auto|right].
  rewrite place_last by exact N. destruct (place x 0 l) as [j|] eqn:P; [left|right; auto]. apply place_range in P. rewrite Z.sub_0_r in P. unfold zlen in P. rewrite L in P. split; [lia|]. split; [reflexivity|tauto].
Qed.
Lemma nth_repeat_lt (x : Z) : forall n i, (i < n)%nat -> nth i (repeat x n) 0 = x.
Proof. induction n as [|n IH]; intros i H; [lia|]. destruct i as [|i]; [reflexivity|]. cbn [repeat nth]. apply IH. lia. Qed.
Lemma nth_firstn_lt : forall (l : list Z) n i, (i < n)%nat -> nth i (firstn n l) 0 = nth i l 0.
Proof. induction l as [|x l IH]; intros n i H; [rewrite firstn_nil; reflexivity|]. destruct n as [|n]; [lia|]. destruct i as [|i]; [reflexivity|]. cbn [firstn nth]. apply IH. lia. Qed.
Section PmWire.
Variables (D : dims) (g : cfg) (src : predmode) (sp : list (Z * Z)).
Hypothesis N1 : 1 <= n_mix D.
Hypothesis HE : pm_encodable D g src.
Hypothesis HS : desired_speeds g src = Some sp.
Definition wmap (d : bool) : list Z := if want_cmap g then src_map src d else [].
Definition wsp : list Z := flat_map speed_wire sp.
Definition wtl (d : bool) : list Z := if d then mixing_wire D g src else map_wire recent0 (wmap true) ++ mixing_wire D g src.
Definition wmaps : list Z := map_wire recent0 (wmap false) ++ wtl false.
Definition wcomb : bool := negb (mixing_nibble g src =? 0).
Definition psok (b : bk) (u : pm_sub) : Prop :=
  match u with
  | PmBegin | PmFully => True
  | PmDynMixing => cmap_lru b = recent0
  | PmDepth cb => cmap_lru b = recent0 /\ cb = wcomb
  | PmAdapt i _ cb => 0 <= i < 16 /\ cmap_lru b = recent0 /\ cb = wcomb
  | PmMnem i _ cb => 0 <= i /\ recents (cmap_lru b) /\ cb = wcomb
  | PmFirst i d cb => 0 <= i < zlen (wmap d) /\ recents (cmap_lru b) /\ cb = wcomb
  | PmSecond i d m cb => 0 <= i < zlen (wmap d) /\ recents (cmap_lru b) /\ cb = wcomb /\ m = znth (wmap d) i / 16
  | PmMixing i cb => 0 <= i < n_mix D /\ cb = wcomb
  end.
Definition psc (b : bk) (u : pm_sub) : list Z :=
  match u with
  | PmBegin => pm_mode src :: mixing_nibble g src :: want_depth g :: wsp ++ wmaps
  | PmDynMixing => mixing_nibble g src :: want_depth g :: wsp ++ wmaps
  | PmDepth _ => want_depth g :: wsp ++ wmaps
  | PmAdapt i _ _ => zskip i wsp ++ wmaps
  | PmMnem i d _ => map_wire (cmap_lru b) (zskip i (wmap d)) ++ wtl d
  | PmFirst i d _ => (znth (wmap d) i / 16) :: (znth (wmap d) i mod 16) :: map_wire (to_front (cmap_lru b) (znth (wmap d) i)) (zskip (i + 1) (wmap d)) ++ wtl d
  | PmSecond i d _ _ => (znth (wmap d) i mod 16) :: map_wire (to_front (cmap_lru b) (znth (wmap d) i)) (zskip (i + 1) (wmap d)) ++ wtl d
  | PmMixing i _ => zskip i (mixing_wire D g src)
  | PmFully => []
  end.
Lemma wsp_len : zlen sp = 4.
Proof. destruct HE as (_ & _ & (s & E & _ & L) & _). congruence. Qed.
Lemma wmix_len : zlen (mixing_wire D g src) = n_mix D.
Proof.
  unfold mixing_wire, zlen. destruct (want_cmap g); cbn [negb]; [|rewrite repeat_length; lia]. destruct (sends_mixing g src) eqn:S; [|rewrite repeat_length; lia].
  destruct HE as (_ & _ & _ & _ & M). destruct (M S) as (_ & ML). unfold zlen in ML. rewrite firstn_length. lia.
Qed.
Lemma wmap_bytes d i : 0 <= znth (wmap d) i < 256.
Proof.
  assert (B : bytes (wmap d)) by (unfold wmap; destruct (want_cmap g) eqn:W; [destruct HE as (_ & _ & _ & M & _); destruct (M W) as (B1 & _ & B2 & _); destruct d; [exact B2|exact B1]|constructor]).
  unfold znth. destruct (nth_in_or_default (Z.to_nat i) (wmap d) 0) as [H|H]; [|rewrite H; lia]. unfold bytes in B. rewrite Forall_forall in B. exact (B _ H).
Qed.
Lemma obs_lru b b' d i x : obs_context_map b d i x = Some b' -> cmap_lru b' = lru_touch (cmap_lru b) x.
Proof. unfold obs_context_map. cbv zeta. destruct (negb d); [intros E; injection E as <-; reflexivity|]. destruct (_ <? _); [|discriminate]. intros E; injection E as <-. reflexivity. Qed.
Lemma land7 x k : 0 <= k -> Z.land x (2 ^ k - 1) = x mod 2 ^ k.
Proof. intros H. rewrite <- Z.land_ones by lia. rewrite Z.ones_equiv. reflexivity. Qed.
Lemma speed_nib i v inc lim : 0 <= i < 16 -> nth_pair sp (Z.shiftr i 2) = (inc, lim) ->
  v = (if Z.land i 3 =? 0 then Z.shiftr (Z.land (speed_to_u8 inc) 127) 3 else if Z.land i 3 =? 1 then Z.land (Z.land (speed_to_u8 inc) 127) 7
       else if Z.land i 3 =? 2 then Z.shiftr (Z.land (speed_to_u8 lim) 127) 3 else Z.land (Z.land (speed_to_u8 lim) 127) 7) ->
  zskip i wsp = v :: zskip (i + 1) wsp.
Proof.
  intros I P E. pose proof wsp_len as L. unfold wsp. destruct sp as [|s0 [|s1 [|s2 [|s3 [|s4 r]]]]]; try discriminate L; [|unfold zlen in L; cbn [length] in L; lia].
  assert (A : forall x, Z.shiftr (Z.land x 127) 3 = x mod 128 / 8) by (intros x; rewrite Z.shiftr_div_pow2 by lia; change 127 with (2 ^ 7 - 1); rewrite land7 by lia; reflexivity).
  assert (B : forall x, Z.land (Z.land x 127) 7 = (x mod 128) mod 8) by (intros x; change 127 with (2 ^ 7 - 1); change 7 with (2 ^ 3 - 1) at 2; rewrite !land7 by lia; reflexivity).
  rewrite !A, !B in E. cbn [flat_map app speed_wire].
  assert (C : i = 0 \/ i = 1 \/ i = 2 \/ i = 3 \/ i = 4 \/ i = 5 \/ i = 6 \/ i = 7 \/ i = 8 \/ i = 9 \/ i = 10 \/ i = 11 \/ i = 12 \/ i = 13 \/ i = 14 \/ i = 15) by lia.
  unfold speed_wire. cbv zeta.
  destruct s0 as (a0, b0), s1 as (a1, b1), s2 as (a2, b2), s3 as (a3, b3).
  do 15 (destruct C as [C|C]; [subst i; cbv in P; injection P as <- <-; rewrite E; reflexivity|]). subst i; cbv in P; injection P as <- <-; rewrite E; reflexivity.
Qed.
Lemma pm_spells v b s : psok b (snd s) -> pm_want g src b s = Put v ->
  spells (fun p => psok (fst p) (snd (snd p))) (fun p => psc (fst p) (snd (snd p))) (fun _ => []) v (b, s) (pm_node D b s).
Proof.
  intros K W. destruct s as (p, u). cbn [snd] in K. unfold pm_node. unfold pm_want in W. cbn [snd] in W. rewrite HS in W.
  destruct u as [| |cb|i out cb|i d cb|i d cb|i d m cb|i cb|]; cbn [psok] in K; try (apply spells_code; intros V P s' E); cbn [fst snd].
  - assert (EV : v = pm_mode src) by congruence. nx E; cbn [fst snd psok psc]. rewrite EV. auto.
  - destruct (negb _); [discriminate|]. destruct (negb _); [discriminate|]. assert (EV : v = mixing_nibble g src) by (unfold mixing_nibble; congruence). nx E; cbn [fst snd psok psc]. rewrite EV. auto.
  - assert (EV : v = want_depth g) by congruence. nx E; cbn [fst snd psok psc]. rewrite EV. rewrite zskip_0. destruct K as (K1 & K2). split; [split; [lia|]; auto|]. auto.
  - destruct K as (K1 & K2 & K3). destruct (nth_pair sp (Z.shiftr i 2)) as (inc, lim) eqn:NP. cbv zeta in W.
    pose proof (speed_nib i v inc lim K1 NP ltac:(congruence)) as SN. cbn [psc]. rewrite SN.
    cbv zeta in E. destruct (Z.eqb_spec (i + 1) 16) as [Q|Q].
    + do 4 (match type of E with match ?e with Some _ => _ | None => _ end = _ => destruct e; [|discriminate E] end). nx E; cbn [fst snd psok psc]. cbn [set_priors cmap_lru]. rewrite K2.
      split; [split; [lia|]; split; [exact recents0|exact K3]|]. split; [|reflexivity]. rewrite Q. rewrite zskip_0. rewrite (zskip_all 16 wsp); [reflexivity|].
      pose proof wsp_len as L. unfold wsp. destruct sp as [|s0 [|s1 [|s2 [|s3 [|s4 r]]]]]; try discriminate L; [|unfold zlen in L; cbn [length] in L; lia]. cbn [flat_map app]. unfold speed_wire, zlen. cbn [length app]. lia.
    + nx E; cbn [fst snd psok psc]. split; [split; [lia|]; auto|]. auto.
  - destruct K as (K1 & K2 & K3). cbv zeta in W. fold (wmap d) in W. cbn [psc].
    destruct (Z.leb_spec (zlen (wmap d)) i) as [Q|Q].
    + assert (EV : v = 14) by congruence. subst v. cbv [Z.eqb Pos.eqb] in E. rewrite zskip_all by exact Q. cbn [map_wire app].
      destruct d; nx E; cbn [fst snd psok psc wtl]; cbn [set_priors set_cmap_lru cmap_lru]; rewrite ?zskip_0.
      * split; [split; [lia|exact K3]|]. auto.
      * split; [split; [lia|]; split; [exact recents0|exact K3]|]. auto.
    + rewrite (zskip_step 0 i (wmap d)) by lia. fold (znth (wmap d) i). set (x := znth (wmap d) i) in *. cbn [map_wire].
      assert (EV : v = cmap_mnemonic (cmap_lru b) x) by congruence. clear W. rewrite <- app_assoc.
      destruct (mnemonic_wire (cmap_lru b) x K2) as [(M1 & M2 & M3)|[(M1 & M2 & M3)|(M1 & M2)]]; rewrite M2.
      * rewrite M1 in EV. subst v. cbv [Z.eqb Pos.eqb] in E. cbv zeta in E. cbn [set_priors cmap_lru] in E. rewrite M3 in E.
        destruct (obs_context_map _ _ _ _) as [b2|] eqn:OB; [|discriminate]. destruct (pm_store _ _ _ _); [|discriminate]. apply obs_lru in OB. cbn [set_priors cmap_lru] in OB. rewrite touch_front in OB by apply K2.
        nx E; cbn [fst snd psok psc]. rewrite OB. split; [split; [lia|]; split; [apply recents_front; exact K2|exact K3]|]. auto.
      * rewrite <- EV in *. destruct (Z.eqb_spec v 14); [lia|]. destruct (Z.eqb_spec v 15); [lia|]. destruct (Z.eqb_spec v 13); [lia|]. cbv zeta in E. cbn [set_priors cmap_lru] in E. rewrite M3 in E.
        destruct (obs_context_map _ _ _ _) as [b2|] eqn:OB; [|discriminate]. destruct (pm_store _ _ _ _); [|discriminate]. apply obs_lru in OB. cbn [set_priors cmap_lru] in OB. rewrite touch_front in OB by apply K2.
        nx E; cbn [fst snd psok psc]. rewrite OB. split; [split; [lia|]; split; [apply recents_front; exact K2|exact K3]|]. auto.
      * rewrite M1 in EV. subst v. cbv [Z.eqb Pos.eqb] in E. nx E; cbn [fst snd psok psc]. cbn [set_priors cmap_lru]. split; [split; [lia|]; auto|]. auto.
  - destruct K as (K1 & K2 & K3). cbv zeta in W. assert (WM : src_map src d = wmap d) by (unfold wmap in *; destruct (want_cmap g); [reflexivity|change (zlen (@nil Z)) with 0 in K1; lia]). rewrite WM in W.
    destruct (Z.leb_spec (zlen (wmap d)) i); [lia|]. assert (EV : v = znth (wmap d) i / 16) by (rewrite Z.shiftr_div_pow2 in W by lia; change (2 ^ 4) with 16 in W; congruence).
    nx E; cbn [fst snd psok psc]. cbn [set_priors cmap_lru]. rewrite EV. split; [split; [lia|]; auto|]. auto.
  - destruct K as (K1 & K2 & K3 & K4). cbv zeta in W. assert (WM : src_map src d = wmap d) by (unfold wmap in *; destruct (want_cmap g); [reflexivity|change (zlen (@nil Z)) with 0 in K1; lia]). rewrite WM in W.
    destruct (Z.leb_spec (zlen (wmap d)) i); [lia|]. assert (EV : v = znth (wmap d) i mod 16) by (change 15 with (2 ^ 4 - 1) in W; rewrite land7 in W by lia; change (2 ^ 4) with 16 in W; congruence).
    pose proof (wmap_bytes d i) as WB.
    assert (EX : Z.lor (Z.shiftl m 4) v = znth (wmap d) i). { rewrite Z.lor_comm, lor_shift_add by (try change (2 ^ 4) with 16; lia). change (2 ^ 4) with 16. lia. }
    cbv zeta in E. rewrite EX in E. destruct (pm_store _ _ _ _); [|discriminate]. destruct (obs_context_map _ _ _ _) as [b2|] eqn:OB; [|discriminate]. apply obs_lru in OB. cbn [set_priors cmap_lru] in OB. rewrite touch_front in OB by apply K2.
    nx E; cbn [fst snd psok psc]. rewrite OB, EV. split; [split; [lia|]; split; [apply recents_front; exact K2|exact K3]|]. auto.
  - destruct K as (K1 & K2). cbv zeta in E. destruct (i <? zlen (mixing p)); [|discriminate]. cbn [psc]. rewrite (zskip_step 0 i (mixing_wire D g src)) by (rewrite wmix_len; lia).
    assert (EV : v = nth (Z.to_nat i) (mixing_wire D g src) 0).
    { unfold mixing_wire. destruct (want_cmap g) eqn:WC; cbn [negb] in *; [|rewrite nth_repeat_lt by lia; congruence].
      unfold sends_mixing. rewrite WC. cbn [andb]. fold wcomb. rewrite <- K2. destruct cb; cbn [negb andb] in *; [|rewrite nth_repeat_lt by lia; congruence].
      destruct (has_speeds src); [|rewrite nth_repeat_lt by lia; congruence]. unfold zget in W. destruct ((0 <=? i) && (i <? zlen (mixing src))); [|discriminate].
      rewrite nth_firstn_lt by lia. unfold znth in W. congruence. }
    rewrite <- EV. nx E; cbn [fst snd]. destruct (Z.eqb_spec (i + 1) (n_mix D)) as [Q|Q]; cbn [psok psc].
    + rewrite zskip_all by (rewrite wmix_len; lia). auto.
    + split; [split; [lia|exact K2]|]. auto.
  - cbn [spells fst snd psc]. auto.
Qed.
End PmWire.

(** ** one command *)
Section OneWire.
Context {R : Type} (RR : replayer R) (wl : word_len_fn) (D : dims) (g : cfg).
Hypothesis N1 : 1 <= n_mix D.
Definition tsok (cmd : command) (c : codec R) : Prop :=
  match k_st c, cmd with
  | TCopy s, Copy d n => csok d n s
  | TDict s, Dict ws _ _ _ => dsok ws s
  | TLit s, Literal data _ => lsok data s
  | TPm u, PredictionMode src => psok D g src (k_bk c) u
  | _, _ => True
  end.
Definition speeds_of (src : predmode) : list (Z * Z) := match desired_speeds g src with Some s => s | None => [] end.
Lemma speeds_wanted src sp : desired_speeds g src = Some sp -> sp = wanted_speeds g src.
Proof.
  assert (P : forall c x, pick_speed c MUD = Some x -> x = speed_meant c).
  { intros c x. unfold pick_speed, speed_meant. destruct ((fst c =? 0) && (snd c =? 0)); [intros E; injection E as <-; reflexivity|].
    destruct (u8_to_speed (fst c)); [|discriminate]. destruct (u8_to_speed (snd c)); [|discriminate]. cbn [bind]. intros E; injection E as <-. reflexivity. }
  unfold desired_speeds, wanted_speeds. destruct (want_adapt g); [intros E; injection E as <-; reflexivity|]. destruct (has_speeds src); [|intros E; injection E as <-; reflexivity].
  cbv zeta. set (l := if negb (want_mixing g =? 0) then comb_f8 src else stride_f8 src). assert (L : (if want_mixing g =? 0 then stride_f8 src else comb_f8 src) = l) by (unfold l; destruct (want_mixing g =? 0); reflexivity). rewrite L. clear L. clearbody l.
  destruct (pick_speed (nth_pair (cm_f8 src) 0) MUD) as [s2|] eqn:E2; [|discriminate]. destruct (pick_speed (nth_pair (cm_f8 src) 1) MUD) as [s3|] eqn:E3; [|discriminate].
  destruct (pick_speed (nth_pair l 0) MUD) as [s0|] eqn:E0; [|discriminate]. destruct (pick_speed (nth_pair l 1) MUD) as [s1|] eqn:E1; [|discriminate].
  cbn [bind]. intros E; injection E as <-. cbn [map]. rewrite (P _ _ E0), (P _ _ E1), (P _ _ E2), (P _ _ E3). reflexivity.
Qed.
Definition tsc (cmd : command) (e : bool) (c : codec R) : list Z :=
  match k_st c, cmd with
  | TBegin, _ => if e then [15] else command_coded D g (past_of (k_bk c)) cmd
  | TCopy s, Copy d n => csc d n (distance_lru (k_bk c)) s
  | TDict s, Dict ws wid tr _ => dsc ws wid tr s
  | TLit s, Literal data he => lsc data he s
  | TBsl s, BlockSwitchLiteral t sd => lbc g t sd (k_bk c) s
  | TBsc s, BlockSwitchCommand t => btc 1 t (k_bk c) s
  | TBsd s, BlockSwitchDistance t => btc 2 t (k_bk c) s
  | TPm u, PredictionMode src => psc D g src (speeds_of src) (k_bk c) u
  | _, _ => []
  end.
Definition tsl (cmd : command) (e : bool) (c : codec R) : list Z :=
  match k_st c, cmd with
  | TBegin, _ => if e then [] else content_wire cmd
  | TLit s, Literal data he => lsl data s
  | _, _ => []
  end.
Definition tspells (cmd : command) (e : bool) (v : Z) (c : codec R) (n : tnode R) : Prop :=
  match n with
  | NCode st _ k => 0 <= v < 16 -> forall c', k v = Next c' -> tsok cmd c' /\ tsc cmd e c = oncmd st v (tsc cmd e c') /\ tsl cmd e c = onlit st v (tsl cmd e c')
  | NSilent (Next c') => tsok cmd c' /\ tsc cmd e c = tsc cmd e c' /\ tsl cmd e c = tsl cmd e c'
  | NSilent _ => True
  | NAdvance _ _ | NEnd => tsc cmd e c = [] /\ tsl cmd e c = []
  end.
Lemma tspells_lift {A} (ok : A -> Prop) sc sl (f : A -> codec R) dn cmd e v a c n :
  spells ok sc sl v a n -> sc a = tsc cmd e c -> sl a = tsl cmd e c ->
  (forall a', ok a' -> tsok cmd (f a') /\ tsc cmd e (f a') = sc a' /\ tsl cmd e (f a') = sl a') ->
  match dn with Next c' => tsok cmd c' /\ tsc cmd e c' = [] /\ tsl cmd e c' = [] | _ => True end ->
  tspells cmd e v c (lift f dn n).
Proof.
  intros F C L H Dn. unfold lift. destruct n as [st d k|o|]; cbn [map_node spells tspells] in *.
  - intros V c' E. destruct (k v) as [a'| |] eqn:KV; cbn [map_outcome] in E; try discriminate. assert (c' = f a') by congruence. subst c'.
    destruct (F V _ eq_refl) as (A1 & A2 & A3). destruct (H _ A1) as (B1 & B2 & B3). split; [exact B1|]. rewrite <- C, <- L, B2, B3. auto.
  - destruct o as [a'| |]; cbn [map_outcome]; try exact Logic.I. destruct F as (A1 & A2 & A3). destruct (H _ A1) as (B1 & B2 & B3). split; [exact B1|]. rewrite <- C, <- L, B2, B3. auto.
  - destruct F as (F1 & F2). destruct dn as [c'| |]; try exact Logic.I. destruct Dn as (Q1 & Q2 & Q3). split; [exact Q1|]. rewrite Q2, Q3, <- C, <- L. auto.
Qed.
Lemma top_spells cmd e v (c : codec R) : encodable D g cmd -> tsok cmd c -> top_want g cmd e c = Put v -> tspells cmd e v c (top_node RR wl D c).
Proof.
  intros HE HK W. pose proof (eq_refl (tsc cmd e c)) as RC; unfold tsc in RC at 2. pose proof (eq_refl (tsl cmd e c)) as RL; unfold tsl in RL at 2.
  unfold top_want in W. unfold top_node. unfold tsok in HK. destruct (k_st c) as [|s|s|s|s|s|s|u|x|] eqn:ST.
  - unfold code. destruct (prior_index _ _ _); [|exact Logic.I]. cbn [tspells oncmd onlit]. intros V c' E. assert (EV : v = command_type_to_nibble cmd e) by congruence. clear W.
    rewrite RC, RL. unfold begin_command in E. destruct e; unfold command_type_to_nibble in EV.
    + subst v; cbv [Z.eqb Pos.eqb] in E; nx E. unfold tsok, tsc, tsl. cbn [kset k_st]. destruct cmd; auto.
    + destruct cmd as [d n|ws wid tr fs|data he|p|t|t|t sd]; subst v; cbv [Z.eqb Pos.eqb] in E; nx E; unfold tsok, tsc, tsl; cbn [kset k_st k_bk]; cbn [command_coded command_wire content_wire].
      * auto.
      * auto.
      * auto.
      * assert (SW : speeds_of p = wanted_speeds g p). { destruct HE as (_ & _ & (s & E & _) & _). unfold speeds_of. rewrite E. apply speeds_wanted. exact E. }
        cbn [psok psc]. unfold pm_wire, wsp, wmaps, wtl, wmap. rewrite SW. cbn [app]. auto.
      * auto.
      * auto.
      * auto.
  - destruct cmd as [| |data he| | | |]; try discriminate. destruct HE as (E1 & E2).
    apply (tspells_lift _ _ _ _ _ _ _ _ (k_bk c, k_lbk c, s) _ _ (lit_spells data he E2 (k_mix c) v (k_bk c) (k_lbk c) s HK W)); [symmetry; exact RC|symmetry; exact RL| |].
    + intros ((b', l'), s') O. unfold tsok, tsc, tsl. cbn [fst snd k_st] in *. auto.
    + unfold tsok, tsc, tsl. cbn [kset k_st]. auto.
  - destruct cmd; try discriminate. destruct HE as (E1 & E2 & E3).
    eapply (tspells_lift _ _ _ _ _ _ _ _ (k_bk c, s) _ _ (dict_spells _ _ _ E1 wl v (k_bk c) s HK W)); [symmetry; exact RC|symmetry; exact RL| |].
    + intros (b', s') O. unfold tsok, tsc, tsl. cbn [fst snd kset k_st] in *. auto.
    + unfold tsok, tsc, tsl. cbn [kset k_st]. auto.
  - destruct cmd; try discriminate. destruct HE as (E1 & E2).
    eapply (tspells_lift _ _ _ _ _ _ _ _ (k_bk c, s) _ _ (copy_spells _ _ E1 E2 v (k_bk c) s HK W)); [symmetry; exact RC|symmetry; exact RL| |].
    + intros (b', s') O. unfold tsok, tsc, tsl. cbn [fst snd kset k_st k_bk] in *. auto.
    + unfold tsok, tsc, tsl. cbn [kset k_st]. auto.
  - destruct cmd as [d n|ws wid tr fs|data he|p|t|t|t sd]; try discriminate. destruct HE as (E1 & E2).
    assert (G : tspells (BlockSwitchLiteral t sd) e v c (lift (fun p => kset c (fst p) (TBsl (snd p))) Panic (lbtype_node (k_bk c) s))).
    { apply (tspells_lift _ _ _ _ _ _ _ _ (k_bk c, s) _ _ (lbtype_spells g t sd E1 v (k_bk c) s W)); [symmetry; exact RC|symmetry; exact RL| |exact Logic.I].
      intros (b', s') O. unfold tsok, tsc, tsl. cbn [fst snd kset k_st k_bk] in *. auto. }
    destruct s; try exact G. cbn [tspells]. rewrite RC, RL. auto.
  - destruct cmd as [d n|ws wid tr fs|data he|p|t|t|t sd]; try discriminate.
    assert (G : tspells (BlockSwitchCommand t) e v c (lift (fun p => kset c (fst p) (TBsc (snd p))) Panic (btype_node 1 (k_bk c) s))).
    { apply (tspells_lift _ _ _ _ _ _ _ _ (k_bk c, s) _ _ (btype_spells 1 t HE v (k_bk c) s W)); [symmetry; exact RC|symmetry; exact RL| |exact Logic.I].
      intros (b', s') O. unfold tsok, tsc, tsl. cbn [fst snd kset k_st k_bk] in *. auto. }
    destruct s; try exact G. cbn [tspells]. rewrite RC, RL. auto.
  - destruct cmd as [d n|ws wid tr fs|data he|p|t|t|t sd]; try discriminate.
    assert (G : tspells (BlockSwitchDistance t) e v c (lift (fun p => kset c (fst p) (TBsd (snd p))) Panic (btype_node 2 (k_bk c) s))).
    { apply (tspells_lift _ _ _ _ _ _ _ _ (k_bk c, s) _ _ (btype_spells 2 t HE v (k_bk c) s W)); [symmetry; exact RC|symmetry; exact RL| |exact Logic.I].
      intros (b', s') O. unfold tsok, tsc, tsl. cbn [fst snd kset k_st k_bk] in *. auto. }
    destruct s; try exact G. cbn [tspells]. rewrite RC, RL. auto.
  - destruct cmd as [| | |src| | |]; try discriminate.
    assert (SP : desired_speeds g src = Some (speeds_of src)). { destruct HE as (_ & _ & (s & E & _) & _). unfold speeds_of. rewrite E. reflexivity. }
    assert (G : tspells (PredictionMode src) e v c (lift (fun p => K (fst p) (k_lbk c) (k_mix c) (fst (snd p)) (k_rec c) (TPm (snd (snd p)))) Panic (pm_node D (k_bk c) (k_pm c, u)))).
    { apply (tspells_lift _ _ _ _ _ _ _ _ (k_bk c, (k_pm c, u)) _ _ (pm_spells D g src (speeds_of src) N1 HE SP v (k_bk c) (k_pm c, u) HK W)); [symmetry; exact RC|symmetry; exact RL| |exact Logic.I].
      intros (b', (p', u')) O. unfold tsok, tsc, tsl. cbn [fst snd k_st k_bk] in *. auto. }
    destruct u; try exact G. destruct (obs_prediction_mode _ _); try exact Logic.I. cbn [tspells]. rewrite RC, RL. auto.
  - destruct (rpop RR (k_rec c) x); try exact Logic.I. cbn [tspells]. rewrite RC, RL. destruct cmd; auto.
  - cbn [tspells]. rewrite RC, RL. destruct cmd; auto.
Qed.
Lemma vals_cons st st' d v es : vals st (Ev st' d v :: es) = match st with CMD => oncmd st' v (vals st es) | LIT => onlit st' v (vals st es) end.
Proof. unfold vals, on. cbn [filter e_st]. destruct st, st'; reflexivity. Qed.
Lemma one_wire cmd e : encodable D g cmd -> forall fuel c c' x es, tsok cmd c -> enc_cmd RR wl D fuel g cmd e c = Some (c', x, es) ->
  vals CMD es = tsc cmd e c /\ vals LIT es = tsl cmd e c.
Proof.
  intros HE. induction fuel as [|fuel IH]; intros c c' x es HK E; [discriminate|]. cbn [enc_cmd] in E. destruct (top_want g cmd e c) as [v| |] eqn:W; try discriminate.
  pose proof (top_spells cmd e v c HE HK W) as F.
  destruct (top_node RR wl D c) as [st d k|o|c2 y|]; cbn [tspells] in F.
  - destruct (Z.leb_spec 0 v), (Z.ltb_spec v 16); cbn [andb] in E; try discriminate. destruct (k v) as [c2| |] eqn:KV; try discriminate.
    destruct (enc_cmd RR wl D fuel g cmd e c2) as [((c3, y), es2)|] eqn:E2; [|discriminate]. cbn [bind] in E. injection E as <- <- <-.
    destruct (F ltac:(lia) _ eq_refl) as (A1 & A2 & A3). destruct (IH _ _ _ _ A1 E2) as (B1 & B2). rewrite !vals_cons, B1, B2, A2, A3. auto.
  - destruct o as [c2| |]; try discriminate. destruct F as (A1 & A2 & A3). destruct (IH _ _ _ _ A1 E) as (B1 & B2). rewrite B1, B2. auto.
  - injection E as <- <- <-. destruct F as (-> & ->). auto.
  - injection E as <- <- <-. destruct F as (-> & ->). auto.
Qed.
Lemma one_begins cmd e fuel c c' x es : k_st c = TBegin -> enc_cmd RR wl D fuel g cmd e c = Some (c', Some x, es) -> k_st c' = TBegin.
Proof. intros B E. destruct (one_bounded RR wl D g N1 cmd e fuel c c' (Some x) es ltac:(rewrite B; exact Logic.I) E) as (_ & _ & A). apply A. discriminate. Qed.
End OneWire.
