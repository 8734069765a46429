(** C73: the command line of the tool. *)
From Coq Require Import String Ascii.
From Verif Require Import Prelude ModelMux ModelText ModelArgs SpecText SpecArgs ProofText ProofArgs ProofArgs2.

(** Every line of options in any order, with at most two names anywhere among them (and
    both, if the job is to be done more or less than once), makes the tool do what was
    said: each setting as the last option about it says, its default if there is none. *)
Theorem C73_as_said : forall args strs, Forall2 spelled args strs -> (length (names args) <= 2)%nat -> times args = 1 \/ length (names args) = 2%nat ->
  exists p, main strs = MRun p /\ as_said args (names args) p.
Proof.
  intros args strs F L T. destruct (all_spelled args strs vars0 [] [] F eq_refl (conj eq_refl eq_refl) (Forall_nil _) L) as (E & _ & N & FI). rewrite app_nil_r in E. cbn [app] in *.
  unfold main. rewrite E. cbn [all_args]. apply plan_as_said; auto. exact (spelled_placed _ _ F).
Qed.
Print Assumptions C73_as_said.

(** After two dashes everything is a name, whatever it looks like. *)
Lemma all_names : forall more v ns, v_dashes v = true -> named v ns -> filled ns -> filled more -> (length (ns ++ more) <= 2)%nat ->
  exists args, args = map AName more /\ all_args v more = Next (after_args args v) /\ named (after_args args v) (ns ++ more).
Proof.
  induction more as [|n more IH]; intros v ns D N FI FM L.
  - exists []. split; [reflexivity|]. split; [reflexivity|]. now rewrite app_nil_r.
  - apply Forall_cons_iff in FM. destruct FM as (FN & FM). assert (L1 : (length ns < 2)%nat) by (rewrite app_length in L; cbn [length] in L; lia).
    destruct (name_step v ns n N FI L1) as (E & N1). change (ns ++ n :: more) with (ns ++ [n] ++ more) in *. rewrite app_assoc in *.
    destruct (IH (apply v (AName n)) (ns ++ [n])) as (args & -> & A & B); auto; [rewrite apply_dashes; exact D|apply Forall_app; split; [exact FI|repeat constructor; exact FN]|].
    exists (AName n :: map AName more). split; [reflexivity|]. cbn [all_args after_args fold_left]. unfold one_arg at 1. rewrite D, E. split; [exact A|exact B].
Qed.
Lemma names_silent args more : times (args ++ map AName more) = times args.
Proof. unfold times, last_said. rewrite fold_left_app. generalize (fold_left (fun a x => match match x with ATimes n => Some n | _ => None end with Some b => b | None => a end) args 1). induction more as [|n more IH]; intros z; [reflexivity|]. exact (IH z). Qed.
Lemma dashes_apart args v : set_dashes true (after_args args v) = after_args args (set_dashes true v).
Proof.
  revert v. induction args as [|a args IH]; intros v; [reflexivity|]. unfold after_args in *. cbn [fold_left]. rewrite IH. f_equal.
  destruct a; cbn [apply]; try reflexivity; try (destruct (same _ _); reflexivity); try (destruct b; reflexivity); try (destruct (v_stride v) eqn:E; cbn; rewrite E; reflexivity).
  destruct (_ || _); reflexivity.
Qed.
Lemma plan_dashes v : the_plan (set_dashes true v) = the_plan v.
Proof. reflexivity. Qed.
Theorem C73_after_dashes : forall args strs more, Forall2 spelled args strs -> Forall (fun n : list Z => n <> []) more -> (length (names args ++ more) <= 2)%nat ->
  times args = 1 \/ length (names args ++ more) = 2%nat ->
  exists p, main (strs ++ [str "--"] ++ more) = MRun p /\ as_said (args ++ map AName more) (names args ++ more) p.
Proof.
  intros args strs more F FM L T. assert (L0 : (length (names args) <= 2)%nat) by (rewrite app_length in L; lia).
  destruct (all_spelled args strs vars0 [] ([str "--"] ++ more) F eq_refl (conj eq_refl eq_refl) (Forall_nil _) L0) as (E & D & N & FI). cbn [app] in E, N, FI. unfold main. cbn [app]. rewrite E.
  cbn [all_args]. replace (one_arg (after_args args vars0) (str "--")) with (Next (set_dashes true (after_args args vars0))) by (unfold one_arg; rewrite D; reflexivity).
  destruct (all_names more (set_dashes true (after_args args vars0)) (names args) eq_refl) as (na & -> & A & B); auto. rewrite A.
  rewrite <- dashes_apart in *. rewrite plan_dashes. unfold after_args in *. rewrite <- fold_left_app in *. apply plan_as_said; auto.
  - apply Forall_app. split; [exact (spelled_placed _ _ F)|]. apply Forall_forall. intros a I. apply in_map_iff in I. destruct I as (n & <- & _). exact I.
  - apply Forall_app. split; assumption.
  - rewrite names_silent. exact T.
Qed.
Print Assumptions C73_after_dashes.

(** The help text and the version end the run, whatever follows. *)
Theorem C73_help : forall args strs h rest, Forall2 spelled args strs -> (length (names args) <= 2)%nat ->
  In h [str "-h"; str "-help"; str "--help"; str "-v"; str "-version"; str "--version"] -> main (strs ++ [h] ++ rest) = MShown.
Proof.
  intros args strs h rest F L I. destruct (all_spelled args strs vars0 [] ([h] ++ rest) F eq_refl (conj eq_refl eq_refl) (Forall_nil _) L) as (E & D & _). unfold main. rewrite E. cbn [app all_args].
  assert (S : one_arg (after_args args vars0) h = Shown).
  { unfold one_arg. rewrite D. cbv iota. cbn [In] in I. repeat (destruct I as [<-|I]; [reflexivity|]). destruct I. }
  now rewrite S.
Qed.
Print Assumptions C73_help.

(** A third name is an error, and so is a number that does not fit, or none. *)
Theorem C73_third_name : forall args strs n rest, Forall2 spelled args strs -> length (names args) = 2%nat -> spelled (AName n) n -> main (strs ++ [n] ++ rest) = MPanic.
Proof.
  intros args strs n rest F L S. destruct (all_spelled args strs vars0 [] ([n] ++ rest) F eq_refl (conj eq_refl eq_refl) (Forall_nil _)) as (E & D & N & FI); [cbn [app]; lia|]. unfold main. rewrite E. cbn [app all_args] in *.
  assert (X : exists c t, n = c :: t /\ c <> 45).
  { remember (AName n) as a eqn:EA. destruct S as [c t C|a s I|a p max m d I Nu M|m d Nu B|place sp t P T]; try discriminate; [eauto| |].
    - subst a. cbn [In] in I. repeat (destruct I as [X|I]; [apply pair_equal_spec in X; destruct X as (X & _); discriminate X|]). destruct I.
    - cbn [In] in I. repeat (destruct I as [X|I]; [apply pair_equal_spec in X; destruct X as (X & _); apply pair_equal_spec in X; destruct X as (X & _); rewrite <- X in EA; discriminate EA|]). destruct I. }
  destruct X as (c & t & -> & C). rewrite one_name by assumption. unfold name_arg. destruct (names args) as [|a [|b [|z l]]]; try discriminate. cbn [named] in N. destruct N as (-> & ->).
  rewrite (same_nil a) by exact (Forall_inv FI). rewrite (same_nil b) by exact (Forall_inv (Forall_inv_tail FI)). reflexivity.
Qed.
Print Assumptions C73_third_name.
(** A number of repetitions other than one needs both names. *)
Theorem C73_repetitions_need_names : forall args strs, Forall2 spelled args strs -> (length (names args) < 2)%nat -> times args <> 1 -> main strs = MPanic.
Proof.
  intros args strs F L T. destruct (all_spelled args strs vars0 [] [] F eq_refl (conj eq_refl eq_refl) (Forall_nil _)) as (E & _ & N & FI); [cbn [app]; lia|]. rewrite app_nil_r in E. cbn [app] in *.
  unfold main. rewrite E. cbn [all_args]. set (v := after_args args vars0) in *. assert (TI : v_bench v = times args) by (refine (field_last v_bench _ _ args vars0); by_arg).
  unfold the_plan. rewrite TI. destruct (Z.eqb_spec (times args) 1); [contradiction|]. destruct (names args) as [|a [|b l]]; cbn [length named] in *; [| |lia].
  - destruct N as (-> & _). reflexivity.
  - destruct N as (-> & ->). rewrite (same_nil a) by exact (Forall_inv FI). reflexivity.
Qed.
Print Assumptions C73_repetitions_need_names.
Definition ranges : list (list Z * Z) :=
  [(str "-bytescore=", 4294967295); (str "-bs", 18446744073709551615); (str "-benchmark=", 18446744073709551615); (str "-lgwin=", 4294967295); (str "-q", 65535); (str "-quality=", 65535);
   (str "-p", 2147483647); (str "-priordepth=", 2147483647); (str "-w", 2147483647); (str "-window=", 2147483647); (str "-mixing=", 2147483647); (str "-stride=", 8)].
Lemma digits_over max : forall s a, Forall digit s -> 0 <= a -> 0 <= max -> max < fold_left (fun a c => 10 * a + (c - 48)) s a -> s <> [] \/ max < a -> a <= max -> digits max a s = None.
Proof.
  induction s as [|c s IH]; intros a F A M L N AM; cbn [fold_left digits] in *; [lia|].
  apply Forall_cons_iff in F. destruct F as (D & F). unfold digit in D. destruct (Z.leb_spec 48 c); [|lia]. destruct (Z.leb_spec c 57); [|lia]. cbn [andb].
  cbv zeta. destruct (Z.leb_spec (a * 10 + (c - 48)) max) as [LE|GT]; [|reflexivity].
  replace (10 * a + (c - 48)) with (a * 10 + (c - 48)) in L by lia. destruct s as [|c2 s]; [cbn [fold_left] in L; lia|]. apply IH; auto; [lia|left; discriminate].
Qed.
Lemma over_unsigned max n d : 0 <= max -> numeral n d -> max < n -> parse_unsigned max d = None.
Proof.
  intros M (N & F & V) L. destruct d as [|c d]; [now elim N|]. unfold parse_unsigned. apply Forall_inv in F as D. unfold digit in D. destruct (Z.eqb_spec c 43); [lia|].
  unfold some_digits. apply digits_over; auto; try lia. unfold value in V. lia.
Qed.
Lemma over_signed max n d : 0 <= max -> numeral n d -> max < n -> parse_signed max d = None.
Proof.
  intros M (N & F & V) L. destruct d as [|c d]; [now elim N|]. unfold parse_signed. apply Forall_inv in F as D. unfold digit in D. destruct (Z.eqb_spec c 43); [lia|]. destruct (Z.eqb_spec c 45); [lia|].
  unfold some_digits. apply digits_over; auto; try lia. unfold value in V. lia.
Qed.
Theorem C73_number_out_of_range : forall args strs pre max n d rest, Forall2 spelled args strs -> (length (names args) <= 2)%nat -> In (pre, max) ranges -> numeral n d -> max < n ->
  main (strs ++ [pre ++ d] ++ rest) = MPanic.
Proof.
  intros args strs pre max n d rest F L I N O. destruct (all_spelled args strs vars0 [] ([pre ++ d] ++ rest) F eq_refl (conj eq_refl eq_refl) (Forall_nil _) L) as (E & D & _). unfold main. rewrite E. cbn [app all_args].
  assert (S : one_arg (after_args args vars0) (pre ++ d) = Panicked).
  { unfold one_arg. rewrite D. cbv iota. unfold parse_u32, parse_usize, parse_u16, parse_i32. cbn [ranges In] in I.
    destruct I as [X|[X|[X|[X|[X|[X|[X|[X|[X|[X|[X|[X|[]]]]]]]]]]]]]; apply pair_equal_spec in X; destruct X as (<- & <-).
    1-4, 6: pass; hit; number N; (erewrite over_unsigned; [reflexivity| |exact N|]; lia).
    1: pass; rewrite (q_no95 d n N); cbv iota; hit; number N; (erewrite over_unsigned; [reflexivity| |exact N|]; lia).
    1-5: pass; hit; number N; (erewrite over_signed; [reflexivity| |exact N|]; lia).
    pass. hit. hit. number N. destruct (Z.le_gt_cases n 4294967295) as [LE|GT].
    - rewrite (unsigned_ok _ _ _ N) by lia. destruct (Z.leb_spec n 8); [lia|]. rewrite andb_false_r. reflexivity.
    - (erewrite over_unsigned; [reflexivity| |exact N|]; lia). }
  now rewrite S.
Qed.
Print Assumptions C73_number_out_of_range.

(** ** What the line does not mean *)
(** an option misspelt is taken for the name of a file *)
Theorem C73_unknown_option_refuted : exists p, main [str "-decompress"; str "out"] = MRun p /\ p_from p = Named (str "-decompress") /\ p_to p = Named (str "out") /\ p_job p = JCompress.
Proof. eexists. split; [vm_compute; reflexivity|]. repeat split; reflexivity. Qed.
Print Assumptions C73_unknown_option_refuted.
(** --recode without -d compresses *)
Theorem C73_recode_alone_refuted : exists p, main [str "--recode"] = MRun p /\ p_job p = JCompress.
Proof. eexists. split; [vm_compute; reflexivity|reflexivity]. Qed.
Print Assumptions C73_recode_alone_refuted.
(** -lgwin leaves the window alone: it sets the block size *)
Theorem C73_lgwin_refuted : exists p, main [str "-lgwin16"] = MRun p /\ o_window (p_opts p) = Some 22 /\ o_lgblock (p_opts p) = Some 16.
Proof. eexists. split; [vm_compute; reflexivity|]. repeat split; reflexivity. Qed.
Print Assumptions C73_lgwin_refuted.
(** depth and mixing wrap at 256 without a word *)
Theorem C73_wrap_refuted : exists p, main [str "-p256"; str "-mixing=259"] = MRun p /\ o_depth (p_opts p) = Some 0 /\ o_mixing (p_opts p) = Some 3.
Proof. eexists. split; [vm_compute; reflexivity|]. repeat split; reflexivity. Qed.
Print Assumptions C73_wrap_refuted.
(** -O0 does not undo -O2 *)
Theorem C73_O0_refuted : exists p, main [str "-O2"; str "-O0"] = MRun p /\ o_optimise (p_opts p) = true.
Proof. eexists. split; [vm_compute; reflexivity|reflexivity]. Qed.
Print Assumptions C73_O0_refuted.
(** an empty name is overwritten by the next *)
Theorem C73_empty_name_refuted : exists p, main [[]; str "out"] = MRun p /\ p_from p = Named (str "out") /\ p_to p = Standard.
Proof. eexists. split; [vm_compute; reflexivity|]. split; reflexivity. Qed.
Print Assumptions C73_empty_name_refuted.

(** a line with names, both ways of writing a number, overridden options and speeds *)
Example C73_case :
  let args := [AQuality 9; AName (str "in.txt"); ADecompress; ABuffer 4096; ASpeed 1 (96, 16384); ACompress; AName (str "out.dv"); AQuality 10; ASpeed 2 (5, 77); ANoStride; AStrideOn; ASpeed 0 (3, 1024)] in
  let strs := [str "-q9"; str "in.txt"; str "-d"; str "-bs4096"; str "-speed=FAST"; str "-c"; str "out.dv"; str "-quality=10"; str "-cmspeedlow=5,77"; str "-nostride"; str "-s"; str "-speedlow=3,1024"] in
  Forall2 spelled args strs /\ names args = [str "in.txt"; str "out.dv"] /\ times args = 1 /\
  exists p, main strs = MRun p /\ p_job p = JCompress /\ p_from p = Named (str "in.txt") /\ p_to p = Named (str "out.dv") /\ o_quality (p_opts p) = Some 10 /\ p_force p = true /\
    o_adapt (p_opts p) = Some [(3, 1024); (96, 16384); (5, 77); (96, 16384)] /\ o_stride (p_opts p) = UseBrotliRec.
Proof.
  cbv zeta. split.
  - assert (NU : forall n d, d <> [] -> forallb (fun c => (48 <=? c) && (c <=? 57)) d = true -> value d = n -> numeral n d).
    { intros n d Nd Fd V. split; [exact Nd|]. split; [|exact V]. rewrite forallb_forall in Fd. apply Forall_forall. intros c I. specialize (Fd c I). unfold digit. lia. }
    repeat apply Forall2_cons; try apply Forall2_nil.
    + apply (sp_number AQuality (str "-q") 65535 9 (str "9")); [cbn [In]; tauto|apply NU; [discriminate|reflexivity|reflexivity]|lia].
    + apply (sp_name 105 (str "n.txt")). lia.
    + apply sp_word. cbn [In]. tauto.
    + apply (sp_number ABuffer (str "-bs") 18446744073709551615 4096 (str "4096")); [cbn [In]; tauto|apply NU; [discriminate|reflexivity|reflexivity]|lia].
    + apply (sp_speed 1 _ (str "FAST")); [lia|]. left. cbn [In speed_words]. tauto.
    + apply sp_word. cbn [In]. tauto.
    + apply (sp_name 111 (str "ut.dv")). lia.
    + apply (sp_number AQuality (str "-quality=") 65535 10 (str "10")); [cbn [In]; tauto|apply NU; [discriminate|reflexivity|reflexivity]|lia].
    + apply (sp_speed 2 _ (str "5,77")); [lia|]. right. exists (str "5"), (str "77"). split; [apply NU; [discriminate|reflexivity|reflexivity]|]. split; [apply NU; [discriminate|reflexivity|reflexivity]|]. cbn [fst snd]. repeat split; lia.
    + apply sp_word. cbn [In]. tauto.
    + apply sp_word. cbn [In]. tauto.
    + apply (sp_speed 0 _ (str "3,1024")); [lia|]. right. exists (str "3"), (str "1024"). split; [apply NU; [discriminate|reflexivity|reflexivity]|]. split; [apply NU; [discriminate|reflexivity|reflexivity]|]. cbn [fst snd]. repeat split; lia.
  - split; [reflexivity|]. split; [reflexivity|]. eexists. split; [vm_compute; reflexivity|]. repeat split; reflexivity.
Qed.
