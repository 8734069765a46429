(** C76: every setting reaches the encoders, and the tool and the C API share them. *)
From Coq Require Import String Ascii.
From Verif Require Import Prelude ModelMux ProofZlist ModelHeader ModelFfi SpecFfi ProofFfi ModelSet SpecSet ProofSet ModelCmd ModelRecode ModelPriors ModelCodec ModelCapi.
From Verif Require ModelArgs ProofArgs2.
From Verif Require Import ModelText SpecText ProofText ThmText SpecArgs ThmArgs ModelLine ProofLine.

Local Notation times := ProofArgs2.times.
(** The options of the model of the C API are these. *)
Lemma settings_of_calls {A} : forall l o, options_of o (map (fun x => CSet (A := A) true (fst x) (snd x)) l) = set_all l o.
Proof. induction l as [|x l IH]; intros o; [reflexivity|]. cbn [map options_of reaches]. rewrite IH. reflexivity. Qed.
(** C76, the C API: after any documented settings in any order brotli's encoder hears the
    last value of each, or the default; the window it hears is the one in the header of
    the file; and the codec has the last mixing value, prior depth, stride and use of
    context maps (a mixing value of 0 becomes 1 with a stride and context maps). *)
Theorem C76_api_settings_heard : forall l, documented l -> forall o, o = options_of (A := unit) opts_default (map (fun x => CSet true (fst x) (snd x)) l) ->
  granted (api_wish l) (told o) /\ header_window o = in_bounds (w_window (api_wish l)) /\
  let mixing := or_else (last_set 4 l) 1 mod 256 in let stride := or_else (last_set 9 l) 9 in let maps := negb (or_else (last_set 7 l) 1 =? 0) in
  want_depth (cfg_of o) = or_else (last_set 11 l) 0 mod 256 /\ want_stride (cfg_of o) = stride /\ want_cmap (cfg_of o) = maps /\
  want_mixing (cfg_of o) = (if negb (stride =? 0) && (mixing =? 0) && maps then 1 else mixing) /\
  forall place, (place < 4)%nat -> option_map (fun a => nth place a (0, 0)) (want_adapt (cfg_of o)) = speed_set l place.
Proof.
  intros l D o ->. rewrite settings_of_calls. set (o := set_all l opts_default). destruct (f_speed l D) as (_ & FS). split; [|split].
  - apply (granted_eq _ _ _ (told_granted o)); unfold wish_of, api_wish; cbn [w_window w_block w_quality w_95 w_speedq w_strideq w_score w_prior w_mode w_speed];
      [apply f_window|apply f_block|apply f_quality|apply f_95|apply f_speedq|apply f_strideq|apply f_score|apply f_prior|apply f_mode|exact FS]; exact D.
  - unfold header_window. rewrite in_bounds_ok. f_equal. exact (f_window l D).
  - cbv zeta. assert (EM : unwrap_or 0 (o_mixing o) = or_else (last_set 4 l) 1 mod 256) by exact (f_mixing l D). assert (ED : unwrap_or 0 (o_prior_depth o) = or_else (last_set 11 l) 0 mod 256) by exact (f_depth l D).
    assert (ES : stride_code (o_stride o) = or_else (last_set 9 l) 9) by (unfold o; rewrite (f_stride l D); destruct (last_set 9 l); reflexivity).
    assert (EC : o_context_map o = negb (or_else (last_set 7 l) 1 =? 0)) by exact (f_cmap l D).
    unfold cfg_of, cfg_new. cbn [want_depth want_stride want_cmap want_mixing want_adapt]. rewrite EM, ED, ES, EC. repeat (split; [reflexivity|]). exact FS.
Qed.
Print Assumptions C76_api_settings_heard.

(** the numbers that can be said, from above *)
Definition bounded (a : arg) : Prop :=
  match a with
  | AWindow n => 0 <= n < 2 ^ 31 | AScore n | ABlock n => 0 <= n < 2 ^ 32 | AQuality n => 0 <= n < 65536 | ADepth n | AMixing n => 0 <= n < 256
  | AMode m => 0 <= m < 4 | ABrotliStride q => 0 <= q < 4 | AStride n => 1 <= n <= 8 | ASpeed place _ => (place < 4)%nat | _ => True end.
Lemma spelled_bounded a s : spelled a s -> bounded a.
Proof.
  intros S. destruct S as [c t C|a s I|a p max n d I N M|n d N B|place sp t P T].
  - exact I.
  - cbn [In] in I. repeat (destruct I as [X|I]; [apply pair_equal_spec in X; destruct X as (<- & _); cbn [bounded]; first [exact Logic.I|clear; lia]|]). destruct I.
  - assert (0 <= n) as NN by (destruct N as (_ & F & <-); apply value_nonneg, F).
    cbn [In] in I. repeat (destruct I as [X|I]; [apply pair_equal_spec in X; destruct X as (X & <-); apply pair_equal_spec in X; destruct X as (<- & _); cbn [bounded]; first [exact Logic.I|change (2 ^ 31) with 2147483648; change (2 ^ 32) with 4294967296; clear - NN M; lia]|]). destruct I.
  - exact B.
  - exact P.
Qed.
Lemma all_bounded args strs : Forall2 spelled args strs -> Forall bounded args.
Proof. induction 1 as [|a s args strs S _ IH]; constructor; [exact (spelled_bounded a s S)|exact IH]. Qed.
Lemma in_bounded a args : Forall bounded args -> In a args -> bounded a.
Proof. rewrite Forall_forall. auto. Qed.
Lemma number_in f args d n : number f args d = Some n -> (exists a, In a args /\ f a = Some n) \/ d = Some n.
Proof.
  unfold number. induction args as [|a args IH] using rev_ind; intros E; [right; exact E|]. rewrite ProofArgs2.last_snoc in E. destruct (f a) as [b|] eqn:FA; cbn [option_map] in E.
  - left. exists a. split; [apply in_or_app; right; left; reflexivity|]. congruence.
  - destruct (IH E) as [(x & I & Q)|Q]; [left|right; exact Q]. exists x. split; [apply in_or_app; left; exact I|exact Q].
Qed.
Lemma findspeed_said args : default (number (fun a => match a with AFindSpeed => Some 1 | _ => None end) args None) 0 = if said (fun a => match a with AFindSpeed => true | _ => false end) args then 1 else 0.
Proof.
  unfold number, said. induction args as [|a args IH] using rev_ind; [reflexivity|]. rewrite ProofArgs2.last_snoc, existsb_app. cbn [existsb]. destruct a; cbn [option_map]; rewrite ?Bool.orb_false_r; try exact IH. rewrite Bool.orb_true_r. reflexivity.
Qed.
Lemma none_said args : Forall (fun a => match a with ASpeed _ _ => False | _ => True end) args <-> said (fun a => match a with ASpeed _ _ => true | _ => false end) args = false.
Proof.
  unfold said. induction args as [|a args IH]; [split; [reflexivity|constructor]|]. cbn [existsb]. rewrite Forall_cons_iff, IH. destruct a; cbn [orb]; intuition congruence.
Qed.
(** C76, the command line: brotli's encoder hears, for every setting, what was said last,
    or the default; the window it hears is that of the header of the file. *)
Theorem C76_line_settings_heard : forall args strs, Forall2 spelled args strs -> (length (names args) <= 2)%nat -> times args = 1 \/ length (names args) = 2%nat ->
  exists p f, ModelArgs.main strs = ModelArgs.MRun p /\ line_speeds args f /\ granted (line_wish args f) (told (main_options (ModelArgs.p_opts p))) /\
    header_window (main_options (ModelArgs.p_opts p)) = in_bounds (w_window (line_wish args f)).
Proof.
  intros args strs F L T. destruct (C73_as_said args strs F L T) as (p & EM & AS). pose proof AS as (_ & _ & _ & _ & _ & _ & _ & _ & AO). cbv zeta in AO.
  destruct AO as (E1 & E2 & E3 & E4 & E5 & E6 & E7 & E8 & E9 & E10 & E11 & E12 & E13 & E14 & E15 & E16 & E17 & E18).
  rewrite number_some in E7, E9, E10. exists p, (speed_at (main_options (ModelArgs.p_opts p))). split; [exact EM|]. split; [|split].
  - intros place LP. unfold speed_at, main_options. cbn [o_literal_adaptation]. destruct (speed_said args place) as [s|] eqn:SS.
    + destruct (E17 place s SS) as (l & -> & LL & N). cbn [option_map]. f_equal. apply nth_error_nth, N.
    + destruct (said (fun a => match a with ASpeed _ _ => true | _ => false end) args) eqn:SA.
      * destruct (ModelArgs.o_adapt (ModelArgs.p_opts p)) as [l|] eqn:EA; [|exfalso; pose proof (proj1 (none_said args) (proj1 E16 eq_refl)) as NS; pose proof (eq_trans (eq_sym SA) NS) as X; discriminate X].
        destruct (E18 l eq_refl) as (LL & FL). destruct (nth_error l place) as [s|] eqn:N; [|apply nth_error_None in N; lia]. rewrite Forall_forall in FL. destruct (FL s (nth_error_In _ _ N)) as (q & IN). exists q, s. split; [exact IN|]. cbn [option_map]. f_equal. apply nth_error_nth, N.
      * apply none_said in SA. rewrite (proj2 E16 SA). reflexivity.
  - apply (granted_eq _ _ _ (told_granted _)); unfold wish_of, line_wish, main_options; cbn [w_window w_block w_quality w_95 w_speedq w_strideq w_score w_prior w_mode w_speed o_window_size o_lgblock o_quality o_q9_5 o_speed_quality o_stride_quality o_byte_score o_bitmask o_context_mode].
    + rewrite E9. reflexivity.
    + rewrite E10. reflexivity.
    + rewrite E7. reflexivity.
    + exact E8.
    + rewrite E12. apply findspeed_said.
    + rewrite E11. apply number_none.
    + exact E1.
    + rewrite E13. reflexivity.
    + exact E14.
    + reflexivity.
  - unfold header_window, main_options, line_wish. cbn [o_window_size w_window]. rewrite in_bounds_ok, E9. reflexivity.
Qed.
Print Assumptions C76_line_settings_heard.

(** ** The same settings through the C API *)
Lemma field_but {A} (f : opts -> A) sel (g : Z -> A) (Q : Z * Z -> Prop) :
  (forall o s v, valid_option s v -> 0 <= v < 2 ^ 32 -> Q (s, v) -> f (match set_option_match o s v with Some o => o | None => o end) = if s =? sel then g v else f o) ->
  forall l, documented l -> Forall Q l -> f (set_all l opts_default) = match last_set sel l with Some v => g v | None => f opts_default end.
Proof.
  intros H. induction l as [|x l IH] using rev_ind; intros D FQ; [reflexivity|]. apply Forall_app in D. destruct D as (D & DX). apply Forall_cons_iff in DX. destruct DX as ((VO & VR) & _). apply Forall_app in FQ. destruct FQ as (FQ & FX). apply Forall_cons_iff in FX. destruct FX as (QX & _).
  rewrite set_all_snoc, last_set_snoc, (H _ _ _ VO VR) by (destruct x; exact QX). rewrite (IH D FQ). destruct (fst x =? sel); reflexivity.
Qed.
Lemma f_brotli l : documented l -> Forall (fun x => fst x <> 6) l -> o_use_brotli (set_all l opts_default) = match last_set 5 l with Some v => if v =? 0 then UseInternalCommandSelection else if v =? 1 then UseBrotliCommandSelection else UseBrotliBitstream | None => UseBrotliCommandSelection end.
Proof.
  intros D N. rewrite (field_but o_use_brotli 5 (fun v => if v =? 0 then UseInternalCommandSelection else if v =? 1 then UseBrotliCommandSelection else UseBrotliBitstream) (fun x => fst x <> 6)); [reflexivity| |exact D|exact N].
  intros o sel v (R & V5 & _) V NS. cbn [fst] in NS. revert V5 NS. each_selector R; intros V5 NS; try (cases_of_value; reflexivity); [|congruence]. assert (v = 0 \/ v = 1 \/ v = 2) as [->|[->| ->]] by lia; reflexivity.
Qed.
Lemma f_ir l : documented l -> o_ir (set_all l opts_default) = or_else (last_set 20 l) 0 mod 256.
Proof. intros D. rewrite (field o_ir 20 u8c) by (first [one_field|exact D]). destruct (last_set 20 l); reflexivity. Qed.

Lemma r_window l : documented l -> o_window_size (set_all l opts_default) = match last_set 2 l with Some v => Some (i32c v) | None => Some 22 end.
Proof. intros D. exact (field o_window_size 2 (fun v => Some (i32c v)) ltac:(one_field) l D). Qed.
Lemma r_block l : documented l -> o_lgblock (set_all l opts_default) = match last_set 3 l with Some v => Some v | None => Some 22 end.
Proof. intros D. exact (field o_lgblock 3 Some ltac:(one_field) l D). Qed.
Lemma r_quality l : documented l -> o_quality (set_all l opts_default) = match last_set 1 l with Some v => Some (v mod 2 ^ 16) | None => Some 11 end.
Proof. intros D. exact (field o_quality 1 (fun v => Some (v mod 2 ^ 16)) ltac:(one_field) l D). Qed.
Lemma r_mixing l : documented l -> o_mixing (set_all l opts_default) = match last_set 4 l with Some v => Some (u8c v) | None => Some 1 end.
Proof. intros D. exact (field o_mixing 4 (fun v => Some (u8c v)) ltac:(one_field) l D). Qed.
Lemma r_strideq l : documented l -> o_stride_quality (set_all l opts_default) = match last_set 10 l with Some v => Some (u8c v) | None => None end.
Proof. intros D. exact (field o_stride_quality 10 (fun v => Some (u8c v)) ltac:(one_field) l D). Qed.
Lemma r_speedq l : documented l -> o_speed_quality (set_all l opts_default) = match last_set 16 l with Some v => Some (u8c v) | None => None end.
Proof. intros D. exact (field o_speed_quality 16 (fun v => Some (u8c v)) ltac:(one_field) l D). Qed.
Lemma r_depth l : documented l -> o_prior_depth (set_all l opts_default) = match last_set 11 l with Some v => Some (u8c v) | None => None end.
Proof. intros D. exact (field o_prior_depth 11 (fun v => Some (u8c v)) ltac:(one_field) l D). Qed.
Lemma last_set_app sel a b : last_set sel (a ++ b) = match last_set sel b with Some v => Some v | None => last_set sel a end.
Proof.
  induction b as [|x b IH] using rev_ind; [rewrite app_nil_r; reflexivity|]. rewrite app_assoc, !last_set_snoc, IH. destruct (fst x =? sel); reflexivity.
Qed.

Definition b2z (b : bool) : Z := if b then 1 else 0.
Definition set_opt (sel : Z) (o : option Z) : list (Z * Z) := match o with Some v => [(sel, v)] | None => [] end.
(** the settings to make for the options [o]; [k] numbers the speeds in the palette *)
Definition recipe (o : ModelArgs.opts) (k : option (Z * Z * Z * Z)) : list (Z * Z) :=
  set_opt 1 (ModelArgs.o_quality o) ++ set_opt 2 (ModelArgs.o_window o) ++ set_opt 3 (ModelArgs.o_lgblock o) ++ [(18, b2z (ModelArgs.o_q95 o))] ++ set_opt 19 (ModelArgs.o_lmode o) ++ set_opt 4 (ModelArgs.o_mixing o) ++
  set_opt 10 (ModelArgs.o_strideq o) ++ set_opt 16 (ModelArgs.o_speedq o) ++ [(5, b2z (ModelArgs.o_brotli o)); (7, b2z (ModelArgs.o_cmap o))] ++
  match ModelArgs.o_stride o with ModelArgs.UseBrotliRec => [] | ModelArgs.PriorDisabled => [(9, 0)] | ModelArgs.FixedStride n => [(9, n)] end ++
  set_opt 11 (ModelArgs.o_depth o) ++ [(17, b2z (ModelArgs.o_findprior o))] ++ set_opt 15 (ModelArgs.o_score o) ++ [(20, b2z (ModelArgs.o_optimise o))] ++
  match k with Some (a, b, c, d) => [(14, a); (12, b); (13, c); (8, d)] | None => [] end.
Lemma last_set_opt sel s o : last_set sel (set_opt s o) = if s =? sel then o else None.
Proof. destruct o; cbn; [reflexivity|destruct (s =? sel); reflexivity]. Qed.
Lemma last_set_one sel s v : last_set sel [(s, v)] = if s =? sel then Some v else None.
Proof. reflexivity. Qed.
Lemma last_set_two sel s v t w : last_set sel [(s, v); (t, w)] = if t =? sel then Some w else if s =? sel then Some v else None.
Proof. reflexivity. Qed.
Lemma recipe_last o k sel : last_set sel (recipe o k) =
  match match k with Some (a, b, c, d) => last_set sel [(14, a); (12, b); (13, c); (8, d)] | None => None end with
  | Some v => Some v
  | None =>
    if 20 =? sel then Some (b2z (ModelArgs.o_optimise o)) else if 15 =? sel then ModelArgs.o_score o else if 17 =? sel then Some (b2z (ModelArgs.o_findprior o)) else if 11 =? sel then ModelArgs.o_depth o else
    if 9 =? sel then match ModelArgs.o_stride o with ModelArgs.UseBrotliRec => None | ModelArgs.PriorDisabled => Some 0 | ModelArgs.FixedStride n => Some n end else
    if 7 =? sel then Some (b2z (ModelArgs.o_cmap o)) else if 5 =? sel then Some (b2z (ModelArgs.o_brotli o)) else if 16 =? sel then ModelArgs.o_speedq o else if 10 =? sel then ModelArgs.o_strideq o else
    if 4 =? sel then ModelArgs.o_mixing o else if 19 =? sel then ModelArgs.o_lmode o else if 18 =? sel then Some (b2z (ModelArgs.o_q95 o)) else if 3 =? sel then ModelArgs.o_lgblock o else
    if 2 =? sel then ModelArgs.o_window o else if 1 =? sel then ModelArgs.o_quality o else None
  end.
Proof.
  unfold recipe. rewrite !last_set_app, !last_set_opt, !last_set_one, !last_set_two.
  replace (last_set sel match k with Some (a, b, c, d) => [(14, a); (12, b); (13, c); (8, d)] | None => [] end) with (match k with Some (a, b, c, d) => last_set sel [(14, a); (12, b); (13, c); (8, d)] | None => None end) by (destruct k as [[[[a b] c] d]|]; reflexivity).
  replace (last_set sel match ModelArgs.o_stride o with ModelArgs.UseBrotliRec => [] | ModelArgs.PriorDisabled => [(9, 0)] | ModelArgs.FixedStride n => [(9, n)] end) with
    (if 9 =? sel then match ModelArgs.o_stride o with ModelArgs.UseBrotliRec => None | ModelArgs.PriorDisabled => Some 0 | ModelArgs.FixedStride n => Some n end else None) by (destruct (ModelArgs.o_stride o); cbn; destruct (9 =? sel); reflexivity).
  destruct (match k with Some (a, b, c, d) => last_set sel [(14, a); (12, b); (13, c); (8, d)] | None => None end); [reflexivity|].
  repeat match goal with |- context [?n =? sel] => let E := fresh in destruct (Z.eqb_spec n sel) as [E|E]; [try (exfalso; lia); subst sel; repeat match goal with |- context [?a =? ?b] => let r := eval vm_compute in (a =? b) in change (a =? b) with r end; cbv iota; first [reflexivity|destruct (ModelArgs.o_score o); reflexivity|destruct (ModelArgs.o_depth o); reflexivity|destruct (ModelArgs.o_stride o); reflexivity|destruct (ModelArgs.o_speedq o); reflexivity|destruct (ModelArgs.o_strideq o); reflexivity|destruct (ModelArgs.o_mixing o); reflexivity|destruct (ModelArgs.o_lmode o); reflexivity|destruct (ModelArgs.o_lgblock o); reflexivity|destruct (ModelArgs.o_window o); reflexivity|destruct (ModelArgs.o_quality o); reflexivity]|] end. reflexivity.
Qed.
Lemma find_none_all {A} (f : A -> bool) l : Forall (fun x => f x = false) l -> find f l = None.
Proof. induction 1 as [|x l E _ IH]; [reflexivity|]. cbn [find]. rewrite E. exact IH. Qed.
Lemma in_palette s : In s PALETTE -> exists v, 0 <= v <= 14 /\ nth (Z.to_nat v) PALETTE (0, 0) = s.
Proof.
  intros I. destruct (In_nth _ _ (0, 0) I) as (n & L & E). exists (Z.of_nat n). change (List.length PALETTE) with 15%nat in L. rewrite Nat2Z.id. split; [lia|exact E].
Qed.
Definition fits (o : ModelArgs.opts) : Prop :=
  (exists q, ModelArgs.o_quality o = Some q /\ 0 <= q < 65536) /\ (exists w, ModelArgs.o_window o = Some w /\ 0 <= w < 2 ^ 31) /\ (exists b, ModelArgs.o_lgblock o = Some b /\ 0 <= b < 2 ^ 32) /\
  (forall m, ModelArgs.o_lmode o = Some m -> 0 <= m < 256) /\ (exists x, ModelArgs.o_mixing o = Some x /\ 0 <= x < 256) /\ (forall q, ModelArgs.o_strideq o = Some q -> 0 <= q < 256) /\ (forall q, ModelArgs.o_speedq o = Some q -> 0 <= q < 256) /\
  (forall n, ModelArgs.o_stride o = ModelArgs.FixedStride n -> 1 <= n <= 8) /\ (forall d, ModelArgs.o_depth o = Some d -> 0 <= d < 256) /\ (forall s, ModelArgs.o_score o = Some s -> 0 <= s < 2 ^ 32) /\
  (forall l, ModelArgs.o_adapt o = Some l -> List.length l = 4%nat /\ Forall (fun s => In s PALETTE) l).
Ltac valid_setting := split; [cbn [fst snd]; unfold valid_option; repeat split; lia|cbn [fst snd]; lia].
Lemma recipe_good o : fits o -> exists l, documented l /\ set_all l opts_default = main_options o.
Proof.
  destruct o as [score brotli mixing adapt cmap depth stride quality q95 window lgblock strideq speedq findprior lmode optimise]. unfold fits.
  cbn [ModelArgs.o_score ModelArgs.o_brotli ModelArgs.o_mixing ModelArgs.o_adapt ModelArgs.o_cmap ModelArgs.o_depth ModelArgs.o_stride ModelArgs.o_quality ModelArgs.o_q95 ModelArgs.o_window ModelArgs.o_lgblock ModelArgs.o_strideq ModelArgs.o_speedq ModelArgs.o_findprior ModelArgs.o_lmode ModelArgs.o_optimise].
  intros ((q & -> & Q) & (w & -> & W) & (b & -> & BB) & LM & (x & -> & X) & SQ & PQ & ST & DE & SC & AD).
  assert (K : exists k, match k with
    | Some (a, b0, c, d) => (0 <= a <= 14 /\ 0 <= b0 <= 14 /\ 0 <= c <= 14 /\ 0 <= d <= 14) /\ adapt = Some [nth (Z.to_nat a) PALETTE (0, 0); nth (Z.to_nat b0) PALETTE (0, 0); nth (Z.to_nat c) PALETTE (0, 0); nth (Z.to_nat d) PALETTE (0, 0)]
    | None => adapt = None end).
  { destruct adapt as [l|]; [|exists None; reflexivity]. destruct (AD l eq_refl) as (LL & FL). destruct l as [|s0 [|s1 [|s2 [|s3 [|]]]]]; try discriminate LL.
    repeat match goal with H : Forall _ (_ :: _) |- _ => apply Forall_cons_iff in H; destruct H as (?I & H) end.
    destruct (in_palette _ I) as (v0 & R0 & <-), (in_palette _ I0) as (v1 & R1 & <-), (in_palette _ I1) as (v2 & R2 & <-), (in_palette _ I2) as (v3 & R3 & <-). exists (Some (v0, v1, v2, v3)). split; [auto|reflexivity]. }
  destruct K as (k & K). set (o := ModelArgs.OPTS score brotli (Some x) adapt cmap depth stride (Some q) q95 (Some w) (Some b) strideq speedq findprior lmode optimise). exists (recipe o k). set (l := recipe o k).
  assert (D : documented l).
  { change (2 ^ 31) with 2147483648 in *. change (2 ^ 32) with 4294967296 in *. unfold documented, l, recipe, o. change (2 ^ 32) with 4294967296.
    cbn [ModelArgs.o_score ModelArgs.o_brotli ModelArgs.o_mixing ModelArgs.o_adapt ModelArgs.o_cmap ModelArgs.o_depth ModelArgs.o_stride ModelArgs.o_quality ModelArgs.o_q95 ModelArgs.o_window ModelArgs.o_lgblock ModelArgs.o_strideq ModelArgs.o_speedq ModelArgs.o_findprior ModelArgs.o_lmode ModelArgs.o_optimise set_opt].
    assert (BZ : forall c, 0 <= b2z c <= 1) by (intros []; cbn; lia).
    repeat (apply Forall_app; split).
    - constructor; [valid_setting|constructor].
    - constructor; [valid_setting|constructor].
    - constructor; [valid_setting|constructor].
    - constructor; [pose proof (BZ q95); valid_setting|constructor].
    - destruct lmode as [m|]; cbn [set_opt]; [specialize (LM m eq_refl); constructor; [valid_setting|constructor]|constructor].
    - constructor; [valid_setting|constructor].
    - destruct strideq as [m|]; cbn [set_opt]; [specialize (SQ m eq_refl); constructor; [valid_setting|constructor]|constructor].
    - destruct speedq as [m|]; cbn [set_opt]; [specialize (PQ m eq_refl); constructor; [valid_setting|constructor]|constructor].
    - constructor; [pose proof (BZ brotli); valid_setting|constructor; [pose proof (BZ cmap); valid_setting|constructor]].
    - destruct stride as [| |n]; [constructor|constructor; [valid_setting|constructor]|specialize (ST n eq_refl); constructor; [valid_setting|constructor]].
    - destruct depth as [m|]; cbn [set_opt]; [specialize (DE m eq_refl); constructor; [valid_setting|constructor]|constructor].
    - constructor; [pose proof (BZ findprior); valid_setting|constructor].
    - destruct score as [m|]; cbn [set_opt]; [specialize (SC m eq_refl); constructor; [valid_setting|constructor]|constructor].
    - constructor; [pose proof (BZ optimise); valid_setting|constructor].
    - destruct k as [[[[v0 v1] v2] v3]|]; [destruct K as (K & _); repeat (constructor; [valid_setting|]); constructor|constructor]. }
  split; [exact D|].
  assert (N6 : Forall (fun x => fst x <> 6) l).
  { unfold l, recipe, o. cbn [ModelArgs.o_score ModelArgs.o_lmode ModelArgs.o_depth ModelArgs.o_strideq ModelArgs.o_speedq ModelArgs.o_quality ModelArgs.o_window ModelArgs.o_lgblock ModelArgs.o_mixing ModelArgs.o_stride set_opt].
    repeat (apply Forall_app; split); repeat match goal with |- Forall _ (set_opt _ ?x) => destruct x; cbn [set_opt] | |- Forall _ (match ?x with _ => _ end) => destruct x as [[[[v0 v1] v2] v3]|] || destruct x end; repeat (constructor; [discriminate|]); constructor. }
  assert (U : forall v, 0 <= v < 256 -> v mod 256 = v) by (intros; apply Z.mod_small; assumption).
  assert (LS : forall sel, last_set sel l = last_set sel (recipe o k)) by reflexivity.
  (* the fields one by one *)
  assert (E1 : o_literal_adaptation (set_all l opts_default) = adapt).
  { destruct (f_speed l D) as (FL & FS). assert (KS : forall place, (place < 4)%nat -> speed_set l place = option_map (fun a => nth place a (0, 0)) adapt).
    { intros place LP. unfold speed_set. destruct k as [[[[v0 v1] v2] v3]|].
      - destruct K as (_ & ->). unfold l. rewrite recipe_last. destruct place as [|[|[|[|place]]]]; [reflexivity..|exfalso; lia].
      - rewrite K. unfold l. rewrite recipe_last. replace (find _ (recipe o None)) with (@None (Z * Z)); [destruct place as [|[|[|[|place]]]]; reflexivity|].
        symmetry. apply find_none_all. unfold recipe, o. cbn [ModelArgs.o_score ModelArgs.o_lmode ModelArgs.o_depth ModelArgs.o_strideq ModelArgs.o_speedq ModelArgs.o_quality ModelArgs.o_window ModelArgs.o_lgblock ModelArgs.o_mixing ModelArgs.o_stride set_opt].
        repeat (apply Forall_app; split); repeat match goal with |- Forall _ (set_opt _ ?x) => destruct x; cbn [set_opt] | |- Forall _ (match ?x with _ => _ end) => destruct x end; repeat (constructor; [reflexivity|]); constructor. }
    pose proof (KS 0%nat ltac:(lia)) as P0. pose proof (KS 1%nat ltac:(lia)) as P1. pose proof (KS 2%nat ltac:(lia)) as P2. pose proof (KS 3%nat ltac:(lia)) as P3. rewrite <- FS in P0, P1, P2, P3 by lia. unfold speed_at in *.
    destruct (o_literal_adaptation (set_all l opts_default)) as [a|]; destruct adapt as [a'|]; cbn [option_map] in P0, P1, P2, P3; try discriminate; [|reflexivity].
    destruct (AD a' eq_refl) as (LL & _). destruct a as [|y0 [|y1 [|y2 [|y3 [|]]]]]; try discriminate FL. destruct a' as [|z0 [|z1 [|z2 [|z3 [|]]]]]; try discriminate LL. cbn [nth] in *. congruence. }
  assert (E2 : o_window_size (set_all l opts_default) = Some w).
  { rewrite (r_window l D). replace (last_set 2 l) with (Some w) by (unfold l; rewrite recipe_last; destruct k as [[[[v0 v1] v2] v3]|]; reflexivity). unfold i32c. destruct (Z.ltb_spec w (2 ^ 31)); [reflexivity|lia]. }
  assert (E3 : o_lgblock (set_all l opts_default) = Some b).
  { rewrite (r_block l D). replace (last_set 3 l) with (Some b) by (unfold l; rewrite recipe_last; destruct k as [[[[v0 v1] v2] v3]|]; reflexivity). reflexivity. }
  assert (E4 : o_quality (set_all l opts_default) = Some q).
  { rewrite (r_quality l D). replace (last_set 1 l) with (Some q) by (unfold l; rewrite recipe_last; destruct k as [[[[v0 v1] v2] v3]|]; reflexivity). f_equal. apply Z.mod_small. exact Q. }
  assert (E5 : o_q9_5 (set_all l opts_default) = q95).
  { rewrite (f_95 l D). replace (last_set 18 l) with (Some (b2z q95)) by (unfold l; rewrite recipe_last; destruct k as [[[[v0 v1] v2] v3]|]; reflexivity). destruct q95; reflexivity. }
  assert (E6 : o_context_mode (set_all l opts_default) = lmode).
  { rewrite (f_mode l D). replace (last_set 19 l) with lmode by (unfold l; rewrite recipe_last; destruct k as [[[[v0 v1] v2] v3]|]; reflexivity). destruct lmode as [m|]; [|reflexivity]. cbn [option_map]. f_equal. apply U, LM. reflexivity. }
  assert (E7 : o_mixing (set_all l opts_default) = Some x).
  { rewrite (r_mixing l D). replace (last_set 4 l) with (Some x) by (unfold l; rewrite recipe_last; destruct k as [[[[v0 v1] v2] v3]|]; reflexivity). f_equal. apply U, X. }
  assert (E8 : o_stride_quality (set_all l opts_default) = strideq).
  { rewrite (r_strideq l D). replace (last_set 10 l) with strideq by (unfold l; rewrite recipe_last; destruct k as [[[[v0 v1] v2] v3]|]; reflexivity). destruct strideq as [m|]; [|reflexivity]. f_equal. apply U, SQ. reflexivity. }
  assert (E9 : o_speed_quality (set_all l opts_default) = speedq).
  { rewrite (r_speedq l D). replace (last_set 16 l) with speedq by (unfold l; rewrite recipe_last; destruct k as [[[[v0 v1] v2] v3]|]; reflexivity). destruct speedq as [m|]; [|reflexivity]. f_equal. apply U, PQ. reflexivity. }
  assert (E10 : o_use_brotli (set_all l opts_default) = if brotli then UseBrotliCommandSelection else UseInternalCommandSelection).
  { rewrite (f_brotli l D N6). replace (last_set 5 l) with (Some (b2z brotli)) by (unfold l; rewrite recipe_last; destruct k as [[[[v0 v1] v2] v3]|]; reflexivity). destruct brotli; reflexivity. }
  assert (E11 : o_context_map (set_all l opts_default) = cmap).
  { rewrite (f_cmap l D). replace (last_set 7 l) with (Some (b2z cmap)) by (unfold l; rewrite recipe_last; destruct k as [[[[v0 v1] v2] v3]|]; reflexivity). destruct cmap; reflexivity. }
  assert (E12 : o_stride (set_all l opts_default) = match stride with ModelArgs.UseBrotliRec => UseBrotliRec | ModelArgs.PriorDisabled => Stride 0 | ModelArgs.FixedStride n => Stride n end).
  { rewrite (f_stride l D). unfold l. rewrite recipe_last. destruct k as [[[[v0 v1] v2] v3]|], stride; reflexivity. }
  assert (E13 : o_prior_depth (set_all l opts_default) = depth).
  { rewrite (r_depth l D). replace (last_set 11 l) with depth by (unfold l; rewrite recipe_last; destruct k as [[[[v0 v1] v2] v3]|]; reflexivity). destruct depth as [m|]; [|reflexivity]. f_equal. apply U, DE. reflexivity. }
  assert (E14 : o_bitmask (set_all l opts_default) = b2z findprior).
  { rewrite (f_prior l D). replace (last_set 17 l) with (Some (b2z findprior)) by (unfold l; rewrite recipe_last; destruct k as [[[[v0 v1] v2] v3]|]; reflexivity). destruct findprior; reflexivity. }
  assert (E15 : o_byte_score (set_all l opts_default) = score).
  { rewrite (f_score l D). unfold l. rewrite recipe_last. destruct k as [[[[v0 v1] v2] v3]|], stride; reflexivity. }
  assert (E16 : o_ir (set_all l opts_default) = b2z optimise).
  { rewrite (f_ir l D). replace (last_set 20 l) with (Some (b2z optimise)) by (unfold l; rewrite recipe_last; destruct k as [[[[v0 v1] v2] v3]|]; reflexivity). destruct optimise; reflexivity. }
  clearbody l. destruct (set_all l opts_default) as [c1 c2 c3 c4 c5 c6 c7 c8 c9 c10 c11 c12 c13 c14 c15 c16].
  cbn [o_literal_adaptation o_window_size o_lgblock o_quality o_q9_5 o_context_mode o_mixing o_stride_quality o_speed_quality o_use_brotli o_context_map o_stride o_prior_depth o_bitmask o_byte_score o_ir] in *.
  unfold main_options, o. cbn [ModelArgs.o_score ModelArgs.o_brotli ModelArgs.o_mixing ModelArgs.o_adapt ModelArgs.o_cmap ModelArgs.o_depth ModelArgs.o_stride ModelArgs.o_quality ModelArgs.o_q95 ModelArgs.o_window ModelArgs.o_lgblock ModelArgs.o_strideq ModelArgs.o_speedq ModelArgs.o_findprior ModelArgs.o_lmode ModelArgs.o_optimise].
  unfold b2z in *. subst. reflexivity.
Qed.
Lemma stride_said_bounds args n : Forall bounded args -> stride_said args = ModelArgs.FixedStride n -> 1 <= n <= 8.
Proof.
  induction args as [|a args IH]; intros F E; [discriminate E|]. apply Forall_cons_iff in F. destruct F as (BA & F). specialize (IH F).
  destruct a; cbn [stride_said bounded] in *; try (apply IH; exact E); try discriminate E; [congruence|]. destruct (stride_said args); try discriminate E. apply IH. exact E.
Qed.
(** C76.  Whatever is said on a command line, with speeds from the palette, can be set
    through the C API, and then everything is the same: what brotli's encoder is told, the
    window, and the settings of the codec. *)
Theorem C76_line_by_api : forall args strs, Forall2 spelled args strs -> (length (names args) <= 2)%nat -> times args = 1 \/ length (names args) = 2%nat -> palette_only args ->
  exists p l, ModelArgs.main strs = ModelArgs.MRun p /\ documented l /\
    options_of (A := unit) opts_default (map (fun x => CSet true (fst x) (snd x)) l) = main_options (ModelArgs.p_opts p) /\ cfg_of (main_options (ModelArgs.p_opts p)) = line_cfg (ModelArgs.p_opts p).
Proof.
  intros args strs F L T PO. destruct (C73_as_said args strs F L T) as (p & EM & AS). pose proof AS as (_ & _ & _ & _ & _ & _ & _ & _ & AO). cbv zeta in AO.
  destruct AO as (E1 & E2 & E3 & E4 & E5 & E6 & E7 & E8 & E9 & E10 & E11 & E12 & E13 & E14 & E15 & E16 & E17 & E18). pose proof (all_bounded args strs F) as R.
  destruct (recipe_good (ModelArgs.p_opts p)) as (l & D & E).
  - unfold fits. split; [|split; [|split; [|split; [|split; [|split; [|split; [|split; [|split; [|split]]]]]]]]].
    + rewrite number_some in E7. eexists. split; [exact E7|]. apply last_all; [lia|]. intros a n I Q. pose proof (in_bounded a args R I) as BA. destruct a; try discriminate; cbn [bounded] in BA; [assert (n0 = n) by congruence; subst n0; exact BA|]. assert (n = if x then 11 else 10) by congruence. subst n. destruct x; lia.
    + rewrite number_some in E9. eexists. split; [exact E9|]. apply last_all; [lia|]. intros a n I Q. pose proof (in_bounded a args R I) as BA. destruct a; try discriminate; cbn [bounded] in BA. assert (n0 = n) by congruence. subst n0. exact BA.
    + rewrite number_some in E10. eexists. split; [exact E10|]. apply last_all; [lia|]. intros a n I Q. pose proof (in_bounded a args R I) as BA. destruct a; try discriminate; cbn [bounded] in BA. assert (n0 = n) by congruence. subst n0. exact BA.
    + intros m Q. rewrite E14 in Q. destruct (number_in _ _ _ _ Q) as [(a & I & FA)|Z0]; [|discriminate Z0]. pose proof (in_bounded a args R I) as BA. destruct a; try discriminate; cbn [bounded] in BA. assert (m0 = m) by congruence. lia.
    + rewrite number_some in E3. eexists. split; [exact E3|]. apply last_all; [lia|]. intros a n I Q. pose proof (in_bounded a args R I) as BA. destruct a; try discriminate; cbn [bounded] in BA. assert (n0 = n) by congruence. subst n0. exact BA.
    + intros m Q. rewrite E11 in Q. destruct (number_in _ _ _ _ Q) as [(a & I & FA)|Z0]; [|discriminate Z0]. pose proof (in_bounded a args R I) as BA. destruct a; try discriminate; cbn [bounded] in BA. assert (q = m) by congruence. lia.
    + intros m Q. rewrite E12 in Q. destruct (number_in _ _ _ _ Q) as [(a & I & FA)|Z0]; [|discriminate Z0]. destruct a; try discriminate. assert (1 = m) by congruence. lia.
    + intros n Q. rewrite E6 in Q. exact (stride_said_bounds _ n (Forall_rev R) Q).
    + intros m Q. rewrite E5 in Q. destruct (number_in _ _ _ _ Q) as [(a & I & FA)|Z0]; [|discriminate Z0]. pose proof (in_bounded a args R I) as BA. destruct a; try discriminate; cbn [bounded] in BA. assert (n = m) by congruence. lia.
    + intros m Q. rewrite E1 in Q. destruct (number_in _ _ _ _ Q) as [(a & I & FA)|Z0]; [|discriminate Z0]. pose proof (in_bounded a args R I) as BA. destruct a; try discriminate; cbn [bounded] in BA. assert (n = m) by congruence. subst n. exact BA.
    + intros l Q. destruct (E18 l Q) as (LL & FL). split; [exact LL|]. refine (Forall_impl _ _ FL). intros s (place & I). exact (PO place s I).
  - exists p, l. split; [exact EM|]. split; [exact D|]. split; [rewrite settings_of_calls; exact E|]. unfold cfg_of, line_cfg, main_options, stride_code, stride_number, unwrap_or, or_zero. cbn [o_mixing o_prior_depth o_literal_adaptation o_context_map o_stride]. destruct (ModelArgs.o_stride (ModelArgs.p_opts p)); reflexivity.
Qed.
Print Assumptions C76_line_by_api.

(** The bounds of the claim.  A speed that is not in the palette, such as -speed=ROCKET,
    is no setting of the C API, whatever is set. *)
Lemma only_palette l : match o_literal_adaptation (set_all l opts_default) with Some a => Forall (fun s => In s PALETTE) a | None => True end.
Proof.
  induction l as [|x l IH] using rev_ind; [exact I|]. rewrite set_all_snoc. set (o := set_all l opts_default) in *. destruct x as (s, v). cbn [fst snd].
  assert (NP : 15 <= v \/ In (nth (Z.to_nat v) PALETTE (0, 0)) PALETTE). { destruct (Z_lt_le_dec v 15); [right|left; assumption]. apply nth_In. change (List.length PALETTE) with 15%nat. lia. }
  assert (SA : forall k, match o_literal_adaptation (match set_adaptation o k v with Some o => o | None => o end) with Some a => Forall (fun s => In s PALETTE) a | None => True end).
  { intros k. unfold set_adaptation. change (zlen PALETTE) with 15. destruct (Z.leb_spec 15 v); [exact IH|]. destruct NP as [NP|NP]; [lia|]. cbn [o_literal_adaptation set_o_literal_adaptation]. destruct (o_literal_adaptation o) as [a|].
    - apply Forall_app. split; [|constructor; [exact NP|]]; apply Forall_forall; intros z IN; rewrite Forall_forall in IH; apply IH; [rewrite <- (firstn_skipn k a)|rewrite <- (firstn_skipn (S k) a)]; apply in_or_app; [left|right]; exact IN.
    - repeat (constructor; [exact NP|]). constructor. }
  unfold set_option_match. repeat match goal with |- context [if s =? ?n then _ else _] => destruct (s =? n); [try exact IH; try apply SA; repeat match goal with |- context [if ?b then _ else _] => destruct b end; exact IH|] end. exact IH.
Qed.
Theorem C76_beyond_palette_refuted : exists p, ModelArgs.main [str "-speed=ROCKET"] = ModelArgs.MRun p /\
  forall l, options_of (A := unit) opts_default (map (fun x => CSet true (fst x) (snd x)) l) <> main_options (ModelArgs.p_opts p).
Proof.
  assert (E : match ModelArgs.main [str "-speed=ROCKET"] with ModelArgs.MRun p => o_literal_adaptation (main_options (ModelArgs.p_opts p)) = Some [(384, 16384); (384, 16384); (384, 16384); (384, 16384)] | _ => False end) by (vm_compute; reflexivity).
  destruct (ModelArgs.main [str "-speed=ROCKET"]) as [p| |]; [|contradiction|contradiction]. exists p. split; [reflexivity|]. intros l Q. rewrite settings_of_calls in Q. pose proof (only_palette l) as P. rewrite Q, E in P. apply Forall_cons_iff in P. destruct P as (P & _).
  cbn [PALETTE In] in P. repeat (destruct P as [P|P]; [discriminate P|]). destruct P.
Qed.
(** The option to write brotli's own format is accepted and means nothing: what is created
    is what it was, if that was brotli's command selection. *)
Theorem C76_bitstream_refuted : forall l, documented l -> let o := set_all l opts_default in let o' := set_all (l ++ [(6, 1)]) opts_default in
  fst (set_option (X := unit) (OptionStage o) 6 1) = DIVANS_SUCCESS /\ told o' = told o /\ header_window o' = header_window o /\ cfg_of o' = cfg_of o /\
  forall (X : Type) (mki mkb : opts -> X), start mki mkb o' = mkb o'.
Proof. intros l D o o'. unfold o'. rewrite set_all_snoc. cbn [fst snd]. fold o. split; [reflexivity|]. repeat (split; [reflexivity|]). intros X mki mkb. reflexivity. Qed.
Print Assumptions C76_beyond_palette_refuted.
Print Assumptions C76_bitstream_refuted.

(** A case: two windows, a quality, a byte score, two speeds, a mode. *)
Definition demo_settings : list (Z * Z) := [(2, 30); (1, 5); (12, 9); (2, 16); (19, 2); (8, 14); (15, 540); (18, 1)].
Example C76_case : documented demo_settings /\
  told (set_all demo_settings opts_default) = [(MODE, FORCE_UTF8_PRIOR); (LGWIN, Num 16); (LGBLOCK, Num 22); (QUALITY, Num 5); (Q9_5, Num 1); (METABLOCK_CALLBACK, Num 1); (CDF_ADAPTATION_DETECTION, Num 0); (STRIDE_DETECTION_QUALITY, Num 0);
    (LITERAL_BYTE_SCORE, Num 540); (PRIOR_BITMASK_DETECTION, Num 1); (CM_SPEED, Num 1664); (CM_SPEED_MAX, Num 16384); (CM_SPEED_LOW, Num 32); (CM_SPEED_LOW_MAX, Num 4096); (SPEED, Num 32); (SPEED_MAX, Num 4096); (SPEED_LOW, Num 32); (SPEED_LOW_MAX, Num 4096)] /\
  (exists args strs, Forall2 spelled args strs /\ (length (names args) <= 2)%nat /\ times args = 1 /\ palette_only args /\ args = [AWindow 30; AQuality 5; ASpeed 1 (32, 4096); AMode 2] /\
     match ModelArgs.main strs with ModelArgs.MRun p => heard (told (main_options (ModelArgs.p_opts p))) (is LGWIN) = Some (Num 24) | _ => False end).
Proof.
  split. { unfold documented, demo_settings. repeat (constructor; [split; [unfold valid_option; cbn [fst snd]; lia|cbn [fst snd]; change (2 ^ 32) with 4294967296; lia]|]). constructor. }
  split; [vm_compute; reflexivity|].
  exists [AWindow 30; AQuality 5; ASpeed 1 (32, 4096); AMode 2], (map str ["-window=30"; "-quality=5"; "-speed=SLOW"; "-utf8"]%string). split; [|split; [cbn; lia|split; [reflexivity|split; [|split; [reflexivity|vm_compute; reflexivity]]]]].
  - constructor; [apply (sp_number AWindow (str "-window=") 2147483647 30 (str "30")); [cbn [In]; tauto|a_numeral|lia]|]. constructor; [apply (sp_number AQuality (str "-quality=") 65535 5 (str "5")); [cbn [In]; tauto|a_numeral|lia]|].
    constructor; [exact (sp_speed 1 (32, 4096) (str "SLOW") ltac:(lia) ltac:(left; cbn [speed_words In]; tauto))|]. constructor; [apply (sp_word (AMode 2)); cbn [In]; tauto|constructor].
  - intros place s I. cbn [In] in I. repeat (destruct I as [I|I]; [try discriminate I|]); [|destruct I]. assert (s = (32, 4096)) by congruence. subst s. cbn [PALETTE In]. tauto.
Qed.
