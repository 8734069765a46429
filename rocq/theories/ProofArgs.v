(** C73: the loop over the arguments sets what was said. *)
From Coq Require Import String Ascii.
From Verif Require Import Prelude ModelMux ModelText ModelArgs SpecText SpecArgs ProofText.

(** ** texts *)
Lemma cut_app c pre d : hd 0 d <> c -> d <> [] -> cut c (pre ++ d) = cut c pre ++ d.
Proof.
  intros H N. induction pre as [|x pre IH]; cbn [app cut].
  - destruct d as [|y d]; [now elim N|]. cbn [cut hd] in *. destruct (Z.eqb_spec y c); [contradiction|reflexivity].
  - destruct (x =? c); [exact IH|reflexivity].
Qed.
Lemma cut_miss c s : hd 0 s <> c -> cut c s = s.
Proof. destruct s as [|x s]; [reflexivity|]. cbn [cut hd]. destruct (Z.eqb_spec x c); [contradiction|reflexivity]. Qed.
(** a text none of the characters of [cs] occurs in *)
Definition safe (cs d : list Z) : Prop := d <> [] /\ forall c, In c cs -> ~ In c d.
Lemma hd_in (d : list Z) : d <> [] -> In (hd 0 d) d.
Proof. destruct d as [|x d]; [now intros []|now left]. Qed.
Lemma trim_safe c pre d : d <> [] -> ~ In c d -> trim_matches c (pre ++ d) = cut c pre ++ d.
Proof.
  intros N I. unfold trim_matches. rewrite cut_app; [|intros E; apply I; rewrite <- E; now apply hd_in|exact N].
  rewrite rev_app_distr. rewrite cut_miss; [now rewrite <- rev_app_distr, rev_involutive|].
  assert (RN : rev d <> []) by (intros E; apply N; rewrite <- (rev_involutive d), E; reflexivity).
  intros E. apply I. rewrite in_rev, <- E. destruct (rev d) as [|y t]; [now elim RN|]. now left.
Qed.
Lemma trims_safe : forall cs pre d, safe cs d -> trims cs (pre ++ d) = fold_left (fun s c => cut c s) cs pre ++ d.
Proof.
  induction cs as [|c cs IH]; intros pre d (N & I); cbn [trims fold_left]; [reflexivity|].
  rewrite trim_safe; [|exact N|apply I; now left]. apply IH. split; [exact N|]. intros x X. apply I. now right.
Qed.
Lemma same_no c t s : c <> 45 -> hd 0 s = 45 -> same (c :: t) s = false.
Proof. intros C H. destruct s as [|x s]; [discriminate|]. cbn [hd] in H. subst x. cbn [same]. destruct (Z.eqb_spec c 45); [contradiction|reflexivity]. Qed.
Lemma starts_no c t s : c <> 45 -> hd 0 s = 45 -> starts s (c :: t) = false.
Proof. intros C H. destruct s as [|x s]; [discriminate|]. cbn [hd] in H. subst x. cbn [starts]. destruct (Z.eqb_spec 45 c); [now elim C|reflexivity]. Qed.
Lemma digits_safe cs n d : numeral n d -> forallb (fun c => negb ((48 <=? c) && (c <=? 57))) cs = true -> safe cs d.
Proof.
  intros (N & F & _) C. split; [exact N|]. intros c I D. rewrite forallb_forall in C. specialize (C c I). rewrite Forall_forall in F. specialize (F c D). unfold digit in F. lia.
Qed.

(** ** what an argument does to the variables *)
Definition speed_other (place : nat) : nat := match place with 0%nat => 2 | 1%nat => 0 | 2%nat => 0 | _ => 2 end.
Definition apply (v : vars) (a : arg) : vars :=
  match a with
  | AName s => if same (v_f0 v) [] then set_f0 s v else set_f1 s v
  | ADecompress => set_do_compress false v
  | AText => set_raw_compress false (set_do_compress true v)
  | ACompress => set_force true (set_raw_compress true (set_do_compress true v))
  | AInternal => set_brotli false (set_raw_compress true (set_do_compress true v))
  | ARecode => set_recode true v
  | ASerial => set_par false v
  | ANoCrc => set_skipcrc true v
  | AOptimise b => if b then set_irx true v else v
  | AContextMap b => set_cmap b v
  | AFindPrior b => set_findprior b v
  | AMode m => set_lmode (Some m) v
  | AFindSpeed => set_speedq (Some 1) v
  | AScore n => set_score (Some n) v
  | ABuffer n => set_bs n v
  | ATimes n => set_bench n v
  | ABlock n => set_lgwin (Some n) v
  | AQuality n => set_quality (Some n) v
  | ANineFive x => set_quality (Some (if x then 11 else 10)) (set_q95 true v)
  | ADepth n => set_depth (Some n) v
  | AWindow n => set_window (Some n) v
  | AMixing n => set_mixing (Some n) v
  | ABrotliStride q => set_strideq (Some q) (set_stride UseBrotliRec v)
  | ANoStride => set_stride PriorDisabled v
  | AStride n => set_stride (FixedStride n) v
  | AStrideOn => match v_stride v with PriorDisabled => set_stride UseBrotliRec v | _ => v end
  | ASpeed place s =>
      let w := set_adapt (Some (adapted v place (speed_other place) s)) v in
      if Nat.eqb place 0 || Nat.eqb place 2 then set_low true w else w
  end.
Lemma nosame s : hd 0 s <> 45 -> s <> [] -> forall p, hd 0 p = 45 -> same s p = false /\ starts p s = false.
Proof. destruct s as [|c t]; [now intros ? []|]. cbn [hd]. intros H _ p P. split; [now apply same_no|now apply starts_no]. Qed.
(** the options tried in vain *)
Ltac pass := repeat match goal with
  | |- (if ?c || ?d then _ else _) = _ => change c with false; change d with false; cbv iota beta; cbn [orb]
  | |- (if ?c then _ else _) = _ => change c with false; cbv iota
  end.
Ltac hit := match goal with
  | |- (if ?c then _ else _) = _ => change c with true; cbv iota
  | |- (if ?c || ?d then _ else _) = _ => first [change c with true | change d with true]; cbn [orb]; rewrite ?orb_true_r; cbv iota
  end.
Lemma one_name v c t : v_dashes v = false -> c <> 45 -> one_arg v (c :: t) = name_arg v (c :: t).
Proof.
  intros D C. unfold one_arg. rewrite D. cbv iota. assert (H : forall p, hd 0 p = 45 -> same (c :: t) p = false /\ starts p (c :: t) = false) by (intros p P; split; [now apply same_no|now apply starts_no]).
  repeat match goal with |- context [same (c :: t) ?p] => rewrite (proj1 (H p eq_refl)) | |- context [starts ?p (c :: t)] => rewrite (proj2 (H p eq_refl)) end.
  reflexivity.
Qed.
Lemma q_no95 d n : numeral n d -> starts (str "-q9.5") (str "-q" ++ d) = false.
Proof.
  intros (N & F & _). destruct d as [|x [|y d]]; [now elim N| |]; cbn.
  - destruct x; reflexivity || (rewrite ?andb_false_r; reflexivity).
  - inversion F as [|? ? _ F2]. inversion F2 as [|? ? Y _]. unfold digit in Y. destruct (Z.eqb_spec 46 y); [lia|]. rewrite ?andb_false_l, ?andb_false_r. reflexivity.
Qed.

Lemma u8_small n : 0 <= n <= 255 -> ModelArgs.u8 n = n.
Proof. intros H. apply Z.mod_small. lia. Qed.
Lemma numeral_nonneg n d : numeral n d -> 0 <= n.
Proof.
  intros (_ & F & <-). unfold value. enough (G : forall a, 0 <= a -> 0 <= fold_left (fun a c => 10 * a + (c - 48)) d a) by (apply G; lia).
  induction d as [|c d IH]; intros a A; cbn [fold_left]; [exact A|]. apply Forall_cons_iff in F. destruct F as (D & F). unfold digit in D. apply IH; [exact F|lia].
Qed.
(** the number after a prefix *)
Lemma trims_number cs pre n d : numeral n d -> forallb (fun c => negb ((48 <=? c) && (c <=? 57))) cs = true -> fold_left (fun s c => cut c s) cs pre = [] -> trims cs (pre ++ d) = d.
Proof. intros N C E. rewrite trims_safe by (eapply digits_safe; eassumption). rewrite E. reflexivity. Qed.
Ltac number N := rewrite (trims_number _ _ _ _ N) by reflexivity.
Lemma one_number v a p max n d : v_dashes v = false -> In (a, p, max) [(AScore, str "-bytescore=", 4294967295); (ABuffer, str "-bs", 18446744073709551615); (ATimes, str "-benchmark=", 18446744073709551615);
    (ABlock, str "-lgwin=", 4294967295); (ABlock, str "-lgwin", 4294967295); (AQuality, str "-q", 65535); (AQuality, str "-quality=", 65535); (ADepth, str "-p", 255); (ADepth, str "-priordepth=", 255);
    (AWindow, str "-w", 2147483647); (AWindow, str "-window=", 2147483647); (AMixing, str "-mixing=", 255)] -> numeral n d -> n <= max -> one_arg v (p ++ d) = Next (apply v (a n)).
Proof.
  intros D I N M. pose proof (numeral_nonneg n d N) as N0. unfold one_arg. rewrite D. cbv iota. cbn [In] in I. unfold parse_u32, parse_usize, parse_u16, parse_i32.
  destruct I as [E|[E|[E|[E|[E|[E|[E|[E|[E|[E|[E|[E|[]]]]]]]]]]]]]; apply pair_equal_spec in E; destruct E as (E & <-); apply pair_equal_spec in E; destruct E as (<- & <-).
  - pass. hit. number N. rewrite (unsigned_ok _ _ _ N) by lia. reflexivity.
  - pass. hit. number N. rewrite (unsigned_ok _ _ _ N) by lia. reflexivity.
  - pass. hit. number N. rewrite (unsigned_ok _ _ _ N) by lia. reflexivity.
  - pass. hit. number N. rewrite (unsigned_ok _ _ _ N) by lia. reflexivity.
  - pass. hit. number N. rewrite (unsigned_ok _ _ _ N) by lia. reflexivity.
  - pass. rewrite (q_no95 d n N). cbv iota. hit. number N. rewrite (unsigned_ok _ _ _ N) by lia. reflexivity.
  - pass. hit. number N. rewrite (unsigned_ok _ _ _ N) by lia. reflexivity.
  - pass. hit. number N. rewrite (signed_ok _ _ _ N) by lia. cbn [with_num]. rewrite u8_small by lia. reflexivity.
  - pass. hit. number N. rewrite (signed_ok _ _ _ N) by lia. cbn [with_num]. rewrite u8_small by lia. reflexivity.
  - pass. hit. number N. rewrite (signed_ok _ _ _ N) by lia. reflexivity.
  - pass. hit. number N. rewrite (signed_ok _ _ _ N) by lia. reflexivity.
  - pass. hit. number N. rewrite (signed_ok _ _ _ N) by lia. cbn [with_num]. rewrite u8_small by lia. reflexivity.
Qed.
Lemma one_word v a s : v_dashes v = false -> In (a, s) [(ADecompress, str "-d"); (AText, str "-i"); (ACompress, str "-c"); (AInternal, str "-nobrotli"); (ARecode, str "--recode"); (ASerial, str "-serial");
    (ANoCrc, str "-skipcrc"); (ANoCrc, str "-nocrc"); (AOptimise true, str "-O1"); (AOptimise true, str "-O2"); (AOptimise false, str "-O0");
    (AContextMap true, str "-cm"); (AContextMap true, str "-contextmap"); (AContextMap false, str "-nocm"); (AContextMap false, str "-nocontextmap");
    (AFindPrior true, str "-findprior"); (AFindPrior false, str "-defaultprior"); (AMode 0, str "-lsb"); (AMode 1, str "-msb"); (AMode 2, str "-utf8"); (AMode 3, str "-sign");
    (AFindSpeed, str "-findspeed"); (ANineFive false, str "-q9.5"); (ANineFive true, str "-q9.5x"); (ABrotliStride 1, str "-brotlistride"); (ABrotliStride 2, str "-advbrotlistride");
    (ABrotliStride 3, str "-expbrotlistride"); (ANoStride, str "-nostride"); (AStrideOn, str "-stride"); (AStrideOn, str "-s")] -> one_arg v s = Next (apply v a).
Proof.
  intros D I. unfold one_arg. rewrite D. cbv iota. cbn [In] in I.
  repeat (destruct I as [E|I]; [apply pair_equal_spec in E; destruct E as (<- & <-); reflexivity|]). destruct I.
Qed.
Lemma one_stride v n d : v_dashes v = false -> numeral n d -> 1 <= n <= 8 -> one_arg v (str "-stride=" ++ d) = Next (set_stride (FixedStride n) v).
Proof.
  intros D N R. unfold one_arg. rewrite D. cbv iota. unfold parse_u32. pass. hit. hit. number N. rewrite (unsigned_ok _ _ _ N) by lia.
  destruct (Z.leb_spec 1 n); [|lia]. destruct (Z.leb_spec n 8); [reflexivity|lia].
Qed.
Lemma same_eq : forall a b, same a b = true -> a = b.
Proof. induction a as [|x a IH]; intros [|y b]; cbn [same]; try discriminate; [reflexivity|]. intros H. apply andb_prop in H. destruct H as (H1 & H2). f_equal; [lia|auto]. Qed.
Lemma not_word x t w : digit x -> 57 < hd 0 w -> same (x :: t) w = false.
Proof. intros D W. destruct (same (x :: t) w) eqn:E; [|reflexivity]. apply same_eq in E. rewrite <- E in W. cbn [hd] in W. unfold digit in D. lia. Qed.
Lemma comma_at : forall a b i, Forall digit a -> comma i (a ++ 44 :: b) = (i + length a)%nat.
Proof.
  induction a as [|x a IH]; intros b i F; cbn [app comma length]; [rewrite Z.eqb_refl; lia|]. apply Forall_cons_iff in F. destruct F as (D & F). unfold digit in D.
  destruct (Z.eqb_spec x 44); [lia|]. rewrite IH by exact F. lia.
Qed.
Lemma parse_speed_ok s t : speed_text s t -> parse_speed t = Some s.
Proof.
  intros [I|(a & b & A & B & La & Lb & ->)].
  - cbn [speed_words In] in I. repeat (destruct I as [E|I]; [apply pair_equal_spec in E; destruct E as (<- & <-); reflexivity|]). destruct I.
  - destruct s as (inc, lim). cbn [fst snd] in *. unfold parse_speed, parse_u16. cbn [app].
    pose proof (unsigned_ok 65535 _ _ A ltac:(lia)) as PA. pose proof (unsigned_ok 65535 _ _ B ltac:(lia)) as PB.
    destruct A as (NA & FA & VA). rewrite (comma_at a b 0 FA). cbn [Nat.add]. destruct a as [|x a]; [now elim NA|]. apply Forall_inv in FA as DX. cbn [app].
    repeat (rewrite not_word by (assumption || reflexivity)).
    replace (firstn (length (x :: a)) (x :: a ++ 44 :: b)) with (x :: a). 2: { symmetry. change (x :: a ++ 44 :: b) with ((x :: a) ++ 44 :: b). rewrite firstn_app, Nat.sub_diag, firstn_all. cbn [firstn]. apply app_nil_r. }
    replace (skipn (S (length (x :: a))) (x :: a ++ 44 :: b)) with b. 2: { symmetry. change (x :: a ++ 44 :: b) with ((x :: a) ++ 44 :: b). rewrite skipn_app. rewrite skipn_all2 by lia. replace (S (length (x :: a)) - length (x :: a))%nat with 1%nat by lia. reflexivity. }
    rewrite PA, PB. cbn [bind]. destruct (Z.leb_spec lim 16384); [|lia]. destruct (Z.ltb_spec inc 16384); [reflexivity|lia].
Qed.
Definition upper (c : Z) : Prop := c = 44 \/ digit c \/ 65 <= c <= 90.
Lemma upper_all t : forallb (fun c => (c =? 44) || ((48 <=? c) && (c <=? 57)) || ((65 <=? c) && (c <=? 90))) t = true -> Forall upper t.
Proof. intros H. rewrite forallb_forall in H. apply Forall_forall. intros c I. specialize (H c I). unfold upper, digit. lia. Qed.
Lemma speed_upper s t : speed_text s t -> t <> [] /\ Forall upper t.
Proof.
  intros [I|(a & b & (NA & FA & _) & (_ & FB & _) & _ & _ & ->)].
  - cbn [speed_words In] in I. repeat (destruct I as [E|I]; [apply pair_equal_spec in E; destruct E as (<- & _); split; [discriminate|apply upper_all; reflexivity]|]). destruct I.
  - split; [destruct a; [now elim NA|discriminate]|]. apply Forall_app. split; [eapply Forall_impl; [|exact FA]; intros c; unfold upper; tauto|].
    apply Forall_cons; [now left|]. eapply Forall_impl; [|exact FB]; intros c; unfold upper; tauto.
Qed.
Lemma upper_safe cs s t : speed_text s t -> forallb (fun c => (c =? 45) || (c =? 61) || (97 <=? c)) cs = true -> safe cs t.
Proof.
  intros T C. destruct (speed_upper s t T) as (N & F). split; [exact N|]. intros c I D. rewrite forallb_forall in C. specialize (C c I). rewrite Forall_forall in F. specialize (F c D). unfold upper, digit in F. lia.
Qed.
Lemma one_speed v place s t : v_dashes v = false -> (place < 4)%nat -> speed_text s t -> one_arg v (speed_option place ++ t) = Next (apply v (ASpeed place s)).
Proof.
  intros D P T. unfold one_arg. rewrite D. cbv iota.
  assert (TR : forall cs pre, forallb (fun c => (c =? 45) || (c =? 61) || (97 <=? c)) cs = true -> fold_left (fun s c => cut c s) cs pre = [] -> trims cs (pre ++ t) = t).
  { intros cs pre C E. rewrite trims_safe by (eapply upper_safe; eassumption). rewrite E. reflexivity. }
  destruct place as [|[|[|[|]]]]; [| | | |lia]; cbn [speed_option]; pass; hit; rewrite TR by reflexivity; rewrite (parse_speed_ok s t T); reflexivity.
Qed.
Lemma one_spelled v a s : v_dashes v = false -> spelled a s -> (forall n, a = AName n -> v_f0 v = [] \/ v_f1 v = []) -> one_arg v s = Next (apply v a).
Proof.
  intros D S R. destruct S as [c t C|a s I|a p max n d I N M|n d N B|place sp t P T].
  - rewrite one_name by assumption. unfold name_arg. cbn [apply]. destruct (R _ eq_refl) as [E|E].
    + rewrite E. reflexivity.
    + destruct (same (v_f0 v) []); [reflexivity|]. rewrite E. reflexivity.
  - now apply one_word.
  - eapply one_number; eassumption.
  - now apply one_stride.
  - now apply one_speed.
Qed.

(** ** the whole line *)
Definition after_args (args : list arg) (v : vars) : vars := fold_left apply args v.
Lemma apply_dashes v a : v_dashes (apply v a) = v_dashes v.
Proof. destruct a; cbn [apply]; try reflexivity; repeat match goal with |- context [if ?c then _ else _] => destruct c end; try reflexivity. destruct (v_stride v); reflexivity. Qed.
(** the names so far are the two variables *)
Definition named (v : vars) (ns : list (list Z)) : Prop :=
  match ns with [] => v_f0 v = [] /\ v_f1 v = [] | [a] => v_f0 v = a /\ v_f1 v = [] | [a; b] => v_f0 v = a /\ v_f1 v = b | _ => False end.
Definition filled (ns : list (list Z)) : Prop := Forall (fun n : list Z => n <> []) ns.
Lemma same_nil s : s <> [] -> same s [] = false.
Proof. destruct s; [now intros []|reflexivity]. Qed.
Lemma name_step v ns n : named v ns -> filled ns -> (length ns < 2)%nat -> name_arg v n = Next (apply v (AName n)) /\ named (apply v (AName n)) (ns ++ [n]).
Proof.
  intros N F L. unfold name_arg. cbn [apply]. destruct ns as [|a [|b ns]]; cbn [named length app] in *; [| |lia].
  - destruct N as (-> & E). cbn [same]. split; [reflexivity|]. split; [reflexivity|exact E].
  - destruct N as (E0 & E1). rewrite E0, E1. rewrite (same_nil a) by exact (Forall_inv F). cbn [same]. split; [reflexivity|]. split; [exact E0|reflexivity].
Qed.
Lemma apply_named v a ns : (forall n, a <> AName n) -> named v ns -> named (apply v a) ns.
Proof.
  intros NN N. assert (E : v_f0 (apply v a) = v_f0 v /\ v_f1 (apply v a) = v_f1 v).
  { destruct a; cbn [apply]; try (split; reflexivity); [now elim (NN s)| | |]; repeat match goal with |- context [if ?c then _ else _] => destruct c end; try (split; reflexivity). destruct (v_stride v); split; reflexivity. }
  destruct E as (E0 & E1). unfold named in *. rewrite E0, E1. exact N.
Qed.
Lemma names_cons a args : names (a :: args) = (match a with AName s => [s] | _ => [] end) ++ names args.
Proof. reflexivity. Qed.
Lemma spelled_name n s : spelled (AName n) s -> n <> [].
Proof.
  intros S. remember (AName n) as a eqn:EA. destruct S as [c t C|a s I|a p max m d I N M|m d N B|place sp t P T]; try discriminate.
  - assert (n = c :: t) as -> by congruence. discriminate.
  - subst a. cbn [In] in I. repeat (destruct I as [X|I]; [apply pair_equal_spec in X; destruct X as (X & _); discriminate X|]). destruct I.
  - cbn [In] in I. repeat (destruct I as [X|I]; [apply pair_equal_spec in X; destruct X as (X & _); apply pair_equal_spec in X; destruct X as (X & _); rewrite <- X in EA; discriminate EA|]). destruct I.
Qed.
Lemma all_spelled : forall args strs v ns rest, Forall2 spelled args strs -> v_dashes v = false -> named v ns -> filled ns -> (length (ns ++ names args) <= 2)%nat ->
  all_args v (strs ++ rest) = all_args (after_args args v) rest /\ v_dashes (after_args args v) = false /\ named (after_args args v) (ns ++ names args) /\ filled (ns ++ names args).
Proof.
  induction args as [|a args IH]; intros strs v ns rest F D N FI L.
  - inversion F. subst. cbn [app names flat_map after_args fold_left] in *. rewrite app_nil_r in *. auto.
  - inversion F as [|? s ? strs' S F']. subst. rewrite names_cons in *. cbn [app all_args after_args fold_left]. fold (after_args args (apply v a)).
    assert (DEC : (exists n, a = AName n) \/ (forall n, a <> AName n)) by (destruct a; try (right; intros ? X; discriminate X); left; eexists; reflexivity).
    destruct DEC as [(n & ->)|NN].
    + rewrite app_assoc in *. assert (L1 : (length ns < 2)%nat) by (rewrite !app_length in L; cbn [length] in L; lia).
      destruct (name_step v ns n N FI L1) as (E & N1). rewrite (one_spelled v (AName n) s D S).
      * destruct (IH strs' (apply v (AName n)) (ns ++ [n]) rest F') as (R & R2); auto; [rewrite apply_dashes; exact D|].
        apply Forall_app. split; [exact FI|]. repeat constructor. exact (spelled_name n s S).
      * intros _ _. destruct ns as [|a0 [|b0 ns]]; cbn [named length] in *; [left|right|lia]; apply N.
    + replace (match a with AName s0 => [s0] | _ => [] end) with (@nil (list Z)) in * by (destruct a; try reflexivity; now elim (NN s0)). cbn [app] in *.
      rewrite (one_spelled v a s D S); [|intros n X; now elim (NN n)].
      destruct (IH strs' (apply v a) ns rest F') as (R & R2); auto; [rewrite apply_dashes; exact D|now apply apply_named].
Qed.
