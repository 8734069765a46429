(** C51: compressing with the C API and decompressing again. *)
From Verif Require Import Prelude ModelFfi SpecFfi ModelMux ProofZlist ModelCmd ModelHeader ModelRecode ModelPriors ModelCodec ModelPm ModelTop SpecCodec ThmCodec ModelEnc ModelDec ModelRaw ModelRawEnc ModelHybrid ModelToolThread ModelCapi SpecEnc SpecDec SpecRawEnc SpecCapi ThmDec ThmRawEnc ProofCapi.

Lemma configured {X} l (o : opts) : Forall (fun p => 0 <= snd p) l -> configure l = @OptionStage X o -> sane_opts o.
Proof. intros F H. apply (@configure_sane X l F cs_new o); [|exact H]. intros o1 E. unfold cs_new in E. assert (o1 = opts_default) as -> by congruence. apply default_sane. Qed.
Lemma start_internal {B} (create : opts -> B) o : o_use_brotli o = UseInternalCommandSelection -> unwrap_or 0 (o_mixing o) < 15 ->
  c_started real_dims create (OptionStage o) = Some (Internal (cfg_of o) (rawc_new real_dims (o_window_size o))).
Proof. intros UB M. unfold c_started, started, start. rewrite UB. unfold new_internal, assert. destruct (Z.ltb_spec (unwrap_or 0 (o_mixing o)) 15); [reflexivity|lia]. Qed.
Lemma rooms_of (P Q : Z -> Prop) calls : (forall c, In c calls -> P (c_room c)) -> (forall r, P r -> Q r) ->
  Forall (fun c => Q (snd c)) (map (fun c => (c_piece c, c_room c)) calls) /\ Forall Q (map c_room calls).
Proof.
  intros H W. split; apply Forall_forall; intros x I; apply in_map_iff in I as (c & <- & I); cbn [snd]; apply W, H, I.
Qed.
Lemma zlen_map {A B} (f : A -> B) l : zlen (map f l) = zlen l.
Proof. unfold zlen. now rewrite map_length. Qed.

(** C51, the round trip.  A compressor made by divans_new_compressor, given any options in
    any order (refused ones included) that end with the internal command selection, a
    context mixing below 8 and a prior depth below 16.  Then divans_encode in any pieces,
    with any bytes before the offsets and output buffers with any room (none included),
    then divans_encode_flush: no panic, no code 3, no byte of a buffer written outside the
    range the offsets report, no offset out of its buffer, no call for input or space that
    is still there.  With enough calls that have room the flush returns 0; then the output,
    given to a new decompressor in any pieces and buffers, yields the input, and code 0
    when enough room is given. *)
Theorem C51_c_api_roundtrip : forall dict wl B (fe : frontend B) create optimize l o X skip,
  Forall (fun p => 0 <= snd p) l -> configure l = @OptionStage (option (@comp B)) o ->
  o_use_brotli o = UseInternalCommandSelection -> unwrap_or 0 (o_mixing o) < 8 -> unwrap_or 0 (o_prior_depth o) < 16 ->
  bytes X -> zlen X < 2 * 2 ^ choose_window (o_window_size o) - 1 ->
  exists fuel0 calls0, forall fuel calls flushes, (fuel0 <= fuel)%nat ->
    c_offered calls = X -> Forall sensible calls -> Forall sensible flushes ->
  exists T v, csession dict wl real_dims fe create optimize fuel (configure l) [] calls flushes = Some (T, v) /\ v <> Broken /\
    (forall calls1 calls2, calls = calls1 ++ calls2 -> c_offered calls1 = X -> Forall (fun c => 1 <= c_room c) calls2 -> Forall (fun c => 1 <= c_room c) flushes ->
       calls0 < zlen calls2 -> calls0 < zlen flushes -> v = Finished) /\
    (v = Finished -> forall dcalls future, c_offered dcalls ++ future = T -> Forall sensible dcalls ->
       exists out rest v, cdsession dict wl real_dims skip fuel decompressor_new [] dcalls = Some (out, rest, v) /\ v <> Broken /\
         (exists more, X = out ++ more) /\
         (v = Finished -> out = X /\ future = [] /\ rest = []) /\
         (forall calls1 calls2, dcalls = calls1 ++ calls2 -> c_offered calls1 = T -> Forall (fun c => 1 <= c_room c) calls2 ->
            zlen X < zlen calls2 -> v = Finished)).
Proof.
  intros dict wl B fe create optimize l o X skip F C UB MX PD BX LX.
  pose proof (sane_cfg o (configured l o F C) MX PD) as G. pose proof (start_internal create o UB ltac:(lia)) as ST.
  destruct (C46_raw_roundtrip dict wl (cfg_of o) (o_window_size o) X skip G BX LX) as (fuel0 & calls0 & H).
  exists fuel0, calls0. intros fuel calls flushes LE CO SC SF.
  assert (SR : forall c, sensible c -> 0 <= c_room c) by (unfold sensible, c_room; intros; lia).
  assert (RC : Forall (fun c => 0 <= snd c) (map (fun c => (c_piece c, c_room c)) calls)).
  { apply Forall_forall. intros x I. apply in_map_iff in I as (c & <- & I). rewrite Forall_forall in SC. apply SR, SC, I. }
  assert (RF : Forall (fun r => 0 <= r) (map c_room flushes)).
  { apply Forall_forall. intros x I. apply in_map_iff in I as (c & <- & I). rewrite Forall_forall in SF. apply SR, SF, I. }
  destruct (H fuel (map (fun c => (c_piece c, c_room c)) calls) (map c_room flushes) LE (eq_trans (offered_map calls) CO) RC RF) as (T & v & S & NB & LV & RT).
  exists T, v. split; [rewrite C; eapply csession_eq; eassumption|]. split; [exact NB|]. split.
  - intros c1 c2 -> O1 R2 RFL L2 LF. apply (LV (map (fun c => (c_piece c, c_room c)) c1) (map (fun c => (c_piece c, c_room c)) c2)).
    + apply map_app.
    + rewrite offered_map. exact O1.
    + apply Forall_map. exact R2.
    + apply Forall_map. exact RFL.
    + rewrite zlen_map. exact L2.
    + rewrite zlen_map. exact LF.
  - intros FN dcalls future ET SD.
    assert (RD : Forall (fun c => 0 <= snd c) (map (fun c => (c_piece c, c_room c)) dcalls)).
    { apply Forall_forall. intros x I. apply in_map_iff in I as (c & <- & I). rewrite Forall_forall in SD. apply SR, SD, I. }
    destruct (RT FN (map (fun c => (c_piece c, c_room c)) dcalls) future (eq_trans (f_equal (fun x => x ++ future) (offered_map dcalls)) ET) RD) as (out & rest & v2 & S2 & NB2 & P2 & F2 & L2).
    exists out, rest, v2. split; [apply cdsession_eq; assumption|]. split; [exact NB2|]. split; [exact P2|]. split; [exact F2|].
    intros c1 c2 -> O1 R2 LL. apply (L2 (map (fun c => (c_piece c, c_room c)) c1) (map (fun c => (c_piece c, c_room c)) c2)).
    + apply map_app.
    + rewrite offered_map. exact O1.
    + apply Forall_map. exact R2.
    + rewrite zlen_map. exact LL.
Qed.

(** The two bounds on the options are needed, although divans_set_option returns success
    for every value: a compressor with context mixing from 8 on, or with prior depth from
    16 on, panics as soon as it is flushed with room, whatever the input was. *)
Definition roomy : ccall := CALL [] [] (repeat 0 64) 0.
Theorem C51_mixing_refuted : forall B (fe : frontend B) create optimize, exists l, Forall (fun p => 0 <= snd p) l /\
  (forall k, (k < length l)%nat -> fst (set_option (X := option (@comp B)) (configure (firstn k l)) (fst (nth k l (0, 0))) (snd (nth k l (0, 0)))) = DIVANS_SUCCESS) /\
  forall fuel, c_flush demo_dict demo_wl real_dims fe create optimize fuel (configure l) (c_buf roomy) (c_at roomy) = None.
Proof.
  intros B fe create optimize. exists [(5, 0); (2, 10); (4, 9)]. split; [repeat constructor; cbn [snd]; lia|]. split.
  - intros k K. do 3 (destruct k as [|k]; [reflexivity|]). cbn [length] in K. lia.
  - intros fuel. do 12 (destruct fuel as [|fuel]; [vm_compute; reflexivity|]). vm_compute. reflexivity.
Qed.
Theorem C51_depth_refuted : forall B (fe : frontend B) create optimize, exists l, Forall (fun p => 0 <= snd p) l /\
  (forall k, (k < length l)%nat -> fst (set_option (X := option (@comp B)) (configure (firstn k l)) (fst (nth k l (0, 0))) (snd (nth k l (0, 0)))) = DIVANS_SUCCESS) /\
  forall fuel, c_flush demo_dict demo_wl real_dims fe create optimize fuel (configure l) (c_buf roomy) (c_at roomy) = None.
Proof.
  intros B fe create optimize. exists [(5, 0); (2, 10); (11, 16)]. split; [repeat constructor; cbn [snd]; lia|]. split.
  - intros k K. do 3 (destruct k as [|k]; [reflexivity|]). cbn [length] in K. lia.
  - intros fuel. do 12 (destruct fuel as [|fuel]; [vm_compute; reflexivity|]). vm_compute. reflexivity.
Qed.
(** from 15 on the first call panics, whatever it is and whatever else is set *)
Theorem C51_mixing_constructor_refuted : forall dict wl B (fe : frontend B) create optimize l o fuel inb inoff outb outoff,
  configure l = @OptionStage (option (@comp B)) o -> o_use_brotli o = UseInternalCommandSelection -> 15 <= unwrap_or 0 (o_mixing o) ->
  c_encode dict wl real_dims fe create optimize fuel (configure l) inb inoff outb outoff = None /\
  c_flush dict wl real_dims fe create optimize fuel (configure l) outb outoff = None.
Proof.
  intros dict wl B fe create optimize l o fuel inb inoff outb outoff C UB M. rewrite C.
  assert (ST : c_started real_dims create (OptionStage o) = None).
  { unfold c_started, started, start. rewrite UB. unfold new_internal, assert. destruct (Z.ltb_spec (unwrap_or 0 (o_mixing o)) 15); [lia|reflexivity]. }
  unfold c_encode, c_flush. rewrite ST. split; reflexivity.
Qed.

(** A case: options set and refused, and the 26 byte text in pieces; some session ends with
    code 0. *)
Definition demo_settings : list (Z * Z) := [(5, 0); (2, 12); (4, 2); (9, 77); (9, 3); (8, 5); (12, 2); (3, 4000000000)].
Definition with_buffers (l : list (list Z * Z)) : list ccall := map (fun p => CALL [1; 2; 3] (fst p) (repeat 77 (Z.to_nat (snd p + 5))) 5) l.
Example C51_case : forall B (fe : frontend B) create optimize, exists o, configure demo_settings = @OptionStage (option (@comp B)) o /\ Forall (fun p => 0 <= snd p) demo_settings /\
  o_use_brotli o = UseInternalCommandSelection /\ unwrap_or 0 (o_mixing o) < 8 /\ unwrap_or 0 (o_prior_depth o) < 16 /\
  zlen demo_text < 2 * 2 ^ choose_window (o_window_size o) - 1 /\ Forall sensible (with_buffers demo_calls) /\ c_offered (with_buffers demo_calls) = demo_text /\
  exists fuel n T, csession demo_dict demo_wl real_dims fe create optimize fuel (configure demo_settings) [] (with_buffers (demo_calls ++ repeat ([], 3) n)) (with_buffers (repeat ([], 3) n)) = Some (T, Finished).
Proof.
  intros B fe create optimize. assert (C : exists o, configure demo_settings = @OptionStage (option (@comp B)) o /\ o_use_brotli o = UseInternalCommandSelection /\ unwrap_or 0 (o_mixing o) < 8 /\ unwrap_or 0 (o_prior_depth o) < 16 /\
     zlen demo_text < 2 * 2 ^ choose_window (o_window_size o) - 1) by (eexists; split; [vm_compute; reflexivity|]; vm_compute; repeat split; reflexivity).
  destruct C as (o & C & UB & MX & PD & LT). exists o. split; [exact C|].
  assert (F : Forall (fun p => 0 <= snd p) demo_settings) by (unfold demo_settings; repeat (apply Forall_cons; [cbn [snd]; lia|]); apply Forall_nil).
  split; [exact F|]. split; [exact UB|]. split; [exact MX|]. split; [exact PD|]. split; [exact LT|].
  assert (SW : forall l, Forall (fun p => 0 <= snd p) l -> Forall sensible (with_buffers l)).
  { intros l H. unfold with_buffers. apply Forall_map. eapply Forall_impl; [|exact H]. intros [p r] R. cbn [snd] in R. unfold sensible. cbn [c_at c_buf snd]. unfold zlen. rewrite repeat_length. lia. }
  assert (RW : forall l, Forall (fun p => 1 <= snd p) l -> Forall (fun c => 1 <= c_room c) (with_buffers l)).
  { intros l H. unfold with_buffers. apply Forall_map. eapply Forall_impl; [|exact H]. intros [p r] R. cbn [snd] in R. unfold c_room. cbn [c_at c_buf snd]. unfold zlen. rewrite repeat_length. lia. }
  assert (D0 : Forall (fun p => 0 <= snd p) demo_calls) by (unfold demo_calls; repeat (apply Forall_cons; [cbn [snd]; lia|]); apply Forall_nil).
  assert (OW : forall l, c_offered (with_buffers l) = offered l).
  { intros l. unfold c_offered, with_buffers, offered. rewrite map_map. reflexivity. }
  split; [apply SW, D0|]. split; [reflexivity|].
  assert (BT : bytes demo_text) by (unfold demo_text; repeat (apply Forall_cons; [unfold byte; lia|]); apply Forall_nil).
  destruct (C51_c_api_roundtrip demo_dict demo_wl B fe create optimize demo_settings o demo_text false F C UB MX PD BT LT) as (fuel & k & H). set (n := Z.to_nat (k + 1)).
  assert (R3 : forall m, m <= 3 -> Forall (fun p : list Z * Z => m <= snd p) (repeat ([], 3) n)).
  { intros m M. apply Forall_forall. intros x Q. apply repeat_spec in Q. subst x. cbn [snd]. exact M. }
  destruct (H fuel (with_buffers (demo_calls ++ repeat ([], 3) n)) (with_buffers (repeat ([], 3) n)) (le_n _)) as (T & v & S & _ & LV & _).
  - rewrite OW. unfold offered. rewrite map_app, concat_app. fold (offered (repeat (@nil Z, 3) n)). rewrite offered_empty. reflexivity.
  - apply SW, Forall_app. split; [exact D0|apply R3; lia].
  - apply SW, R3. lia.
  - assert (v = Finished).
    { apply (LV (with_buffers demo_calls) (with_buffers (repeat ([], 3) n))).
      - unfold with_buffers. apply map_app.
      - reflexivity.
      - apply RW, R3. lia.
      - apply RW, R3. lia.
      - unfold with_buffers. rewrite zlen_map. unfold zlen. rewrite repeat_length. unfold n. lia.
      - unfold with_buffers. rewrite zlen_map. unfold zlen. rewrite repeat_length. unfold n. lia. }
    subst v. exists fuel, n, T. exact S.
Qed.
(** a run computed in full: no input, small tables *)
Definition small : dims := DIMS 64 4 4.
Example C51_empty_run : forall B (fe : frontend B) create optimize, exists T, csession demo_dict demo_wl small fe create optimize 2000 (configure [(5, 0); (2, 10)]) [] (with_buffers [([], 7)]) (with_buffers (repeat ([], 3) 60)) = Some (T, Finished) /\
    cdsession demo_dict demo_wl small false 2000 decompressor_new [] (with_buffers (pieces 60 7 3 T)) = Some ([], [], Finished) /\ 28 < zlen T.
Proof. intros B fe create optimize. eexists. split; [vm_compute; reflexivity|]. split; vm_compute; reflexivity. Qed.
Print Assumptions C51_c_api_roundtrip.
Print Assumptions C51_mixing_refuted.
Print Assumptions C51_mixing_constructor_refuted.
Print Assumptions C51_depth_refuted.
