(** C77, continued: the numbers of the options, what the printed line means, damaged files. *)
From Verif Require Import Prelude ProofList ProofZlist ModelFfi ModelMux ModelAns SpecLz SpecCrc SpecHeader ModelCrc ProofCrc ModelHeader ModelCmd ModelCodec ModelTop ModelEnc ModelDec SpecCheck ProofCheck ThmCheck ModelThread SpecThread ModelToolThread ModelHybrid ModelRawEnc ModelCapi.
From Coq Require String.
From Verif Require Import ModelText SpecText ProofText ModelExample SpecExample.

Local Open Scope string_scope.
Local Open Scope list_scope.
Local Open Scope Z_scope.
Import String.StringSyntax.

(** C77, the numbers.  After -q, -p, -w, -a, -s, -m and -cm any white space, a sign and a
    decimal numeral below 2^31 is that number, a negative one its complement to 2^32. *)
Lemma digits_value : forall s a, Forall digit s -> ModelExample.digits a s = fold_left (fun a c => 10 * a + (c - 48)) s a.
Proof.
  induction s as [|c s IH]; intros a F; [reflexivity|]. apply Forall_cons_iff in F. destruct F as (F1 & F2). unfold digit in F1. cbn [ModelExample.digits fold_left].
  replace ((48 <=? c) && (c <=? 57)) with true by (symmetry; apply andb_true_intro; rewrite !Z.leb_le; lia). apply IH, F2.
Qed.
Lemma atoi_text n t : option_text n t -> atoi_u32 t = n /\ exists c r, t = c :: r /\ c <> 115.
Proof.
  intros (sp & sign & s & m & -> & FS & (NS & FD & V) & LM & SG). assert (V0 : 0 <= m). { rewrite <- V. clear - FD. unfold value. assert (G : forall s a, Forall digit s -> 0 <= a -> 0 <= fold_left (fun a c => 10 * a + (c - 48)) s a). { clear. induction s as [|c s IH]; intros a F A; [exact A|]. apply Forall_cons_iff in F. destruct F as (F1 & F2). cbn [fold_left]. apply IH; [exact F2|]. unfold digit in F1. lia. } apply G; [exact FD|lia]. }
  assert (AT : forall x, atoi (sp ++ x) = atoi x). { intros x. induction sp as [|c sp IH]; [reflexivity|]. apply Forall_cons_iff in FS. destruct FS as (F1 & F2). cbn [app atoi]. replace (is_space c) with true; [exact (IH F2)|]. symmetry. unfold is_space. apply orb_true_iff. rewrite andb_true_iff, Z.eqb_eq, !Z.leb_le. lia. }
  split.
  - unfold atoi_u32. rewrite AT. destruct s as [|c s]; [contradiction NS; reflexivity|]. pose proof (Forall_inv FD) as F1. unfold digit in F1.
    assert (DV : ModelExample.digits 0 (c :: s) = m) by (rewrite digits_value by exact FD; exact V).
    destruct SG as [([->| ->] & ->)|(-> & SG)]; cbn [app].
    + cbn [atoi]. replace (is_space c) with false. 2:{ symmetry. unfold is_space. apply orb_false_iff. rewrite andb_false_iff, Z.eqb_neq, !Z.leb_gt. lia. } destruct (Z.eqb_spec c 45); [lia|]. destruct (Z.eqb_spec c 43); [lia|]. rewrite DV. apply Z.mod_small. lia.
    + change (ModelExample.digits 0 (c :: s) mod 2 ^ 32 = m). rewrite DV. apply Z.mod_small. lia.
    + change ((- ModelExample.digits 0 (c :: s)) mod 2 ^ 32 = n). rewrite DV. destruct SG as [(-> & ->)|(P & ->)]; [reflexivity|]. symmetry. apply (Z.mod_unique _ _ (-1)); lia.
  - destruct sp as [|x sp].
    + destruct SG as [([->| ->] & ->)|(-> & SG)]; cbn [app]; [|eexists _, _; split; [reflexivity|lia]..]. destruct s as [|c s]; [contradiction NS; reflexivity|]. pose proof (Forall_inv FD) as F1. unfold digit in F1. eexists _, _. split; [reflexivity|lia].
    + pose proof (Forall_inv FS) as F1. cbn beta in F1. eexists _, _. split; [reflexivity|lia].
Qed.
Theorem C77_numbers : forall n t, option_text n t ->
  (forall name selector, In (name, selector) [(str "-q", 1); (str "-w", 2); (str "-m", 4); (str "-a", 8); (str "-s", 9); (str "-p", 17)] -> options_of [name ++ t] = [(selector, n)]) /\
  options_of [str "-cm" ++ t] = [(7, 1); (19, n)].
Proof.
  intros n t OT. destruct (atoi_text n t OT) as (A & c & r & -> & NS). split.
  - intros name selector I. cbn [In] in I.
    destruct I as [I|[I|[I|[I|[I|[I|[]]]]]]]; (assert (EN : name = fst (name, selector)) by reflexivity; assert (ES : selector = snd (name, selector)) by reflexivity; rewrite <- I in EN, ES; cbn [fst snd] in EN, ES; subst name selector; clear I;
      unfold options_of, opt_first, opt_stride, opt_mixing; cbn -[atoi_u32 Z.eqb]; cbn [Z.eqb Pos.eqb andb app]; try (destruct (Z.eqb_spec 115 c); [lia|]; cbn -[atoi_u32 Z.eqb]); rewrite ?A; reflexivity).
  - unfold options_of, opt_first, opt_stride, opt_mixing. cbn -[atoi_u32 Z.eqb]. cbn [Z.eqb Pos.eqb andb app]. rewrite A. reflexivity.
Qed.
Print Assumptions C77_numbers.
Example C77_numbers_case : option_text 22 (str " +22") /\ option_text (2 ^ 32 - 7) (str "-007") /\ options_of [str "-w 22"; str "-q-7"] = [(2, 22); (1, 4294967289)].
Proof.
  split; [|split; [|vm_compute; reflexivity]].
  - exists [32], [43], (str "22"), 22. split; [reflexivity|]. split; [repeat constructor|]. split; [split; [discriminate|]; split; [repeat constructor; unfold digit; cbn; lia|reflexivity]|]. split; [lia|]. left. auto.
  - exists [], [45], (str "007"), 7. split; [reflexivity|]. split; [constructor|]. split; [split; [discriminate|]; split; [repeat constructor; unfold digit; cbn; lia|reflexivity]|]. split; [lia|]. right. split; [reflexivity|]. right. split; [lia|reflexivity].
Qed.

(** C77, what the line means.  Whatever the library does and whatever the encoder is: if the
    program writes its line, the compressed file it made was decompressed again to the
    very bytes of the input, and the two lengths in it are those of the two files. *)
Theorem C77_checks : forall dict wl D B (fe : frontend B) create optimize n fuel args n2 fuel2 m data buf1 buf2 line,
  example dict wl D fe create optimize n fuel args n2 fuel2 m data buf1 buf2 = Some line ->
  exists v w file, compress dict wl D fe create optimize n fuel args data buf1 = XDone v /\ bytes_of v = Some file /\
    decompress dict wl D n2 fuel2 m file buf2 = XDone w /\ bytes_of w = Some data /\ line = report (v_size v) (zlen data).
Proof.
  intros dict wl D B fe create optimize n fuel args n2 fuel2 m data buf1 buf2 line E. unfold example in E. destruct (compress _ _ _ _ _ _ _ _ _ _ _) as [v| | |]; try discriminate E. destruct (bytes_of v) as [file|] eqn:BV; cbn [bind] in E; [|discriminate E].
  destruct (decompress _ _ _ _ _ _ _ _) as [w| | |] eqn:DE; try discriminate E. destruct (bytes_of w) as [rt|] eqn:BW; cbn [bind] in E; [|discriminate E]. unfold same_bytes in E. destruct (list_eq_dec Z.eq_dec rt data) as [->|NE]; [|rewrite andb_false_r in E; discriminate E].
  destruct (v_size w =? zlen data); [|discriminate E]. cbn [andb] in E. exists v, w, file. split; [reflexivity|]. split; [exact BV|]. split; [exact DE|]. split; [exact BW|]. congruence.
Qed.
Print Assumptions C77_checks.

(** C77, damaged files.  The decompression of the example, with one thread, ends well only
    if the bytes it was given begin with a header, a body and a trailer with the right
    checksum; so no file damaged within 32 bits is accepted as a whole, and nothing that
    is cut off inside the header is. *)
Lemma decode_checked dict wl D fuel : forall n d X data buf ret v, dinv false X d -> bytes data -> decode_loop dict wl D n fuel (Alone d) data buf ret = XDone v ->
  exists used left, data = used ++ left /\ intact false (X ++ used).
Proof.
  induction n as [|n IH]; intros d X data buf ret v I BD E; cbn [decode_loop] in E; [discriminate E|].
  destruct (m_decode dict wl D fuel (Alone d) data buf) as [((((res, read), buf'), off), m')|] eqn:MD; [|discriminate E].
  unfold m_decode, c_decode in MD. unfold assert in MD. destruct ((0 <=? 0) && (0 <=? zlen data)) eqn:A1; [|discriminate MD]. destruct ((0 <=? 0) && (0 <=? zlen buf)) eqn:A2; [|discriminate MD]. change (zskip 0 data) with data in MD.
  destruct (decode dict wl D false fuel d data (zlen buf - 0)) as [(((k, o), d'), r)|] eqn:DE; cbn [bind] in MD; [|discriminate MD]. destruct (0 + zlen o <=? zlen buf); [|discriminate MD]. cbn [bind] in MD.
  assert (res = dres_code r) as -> by congruence. assert (read = 0 + k) as -> by congruence. assert (m' = Alone d') as -> by congruence. clear MD. pose proof (zlen_nonneg buf) as ZB.
  destruct (decode_any dict wl D false fuel X d data (zlen buf - 0) k o d' r I BD ltac:(lia) DE) as (RN & LO & ID & G). change (0 + k) with k in E.
  assert (SPL : data = zfirst k data ++ zskip k data) by (symmetry; apply zfirst_skip).
  destruct r.
  - destruct (G eq_refl) as (p & -> & PE). exists (zfirst k data), (zskip k data). split; [exact SPL|]. apply (intact_end false _ p); [apply ID; discriminate|exact PE].
  - change (dres_code DNeedIn =? DIVANS_FAILURE) with false in E. change (dres_code DNeedIn =? DIVANS_NEEDS_MORE_INPUT) with true in E. change (dres_code DNeedIn =? DIVANS_SUCCESS) with false in E. cbn [orb andb] in E.
    destruct (zlen data =? 0). { destruct (m_free _ _ _ _); discriminate E. } destruct (push_vec ret _) as [ret'|]; [|discriminate E].
    destruct (IH d' (X ++ zfirst k data) (zskip k data) buf' ret' v (ID ltac:(discriminate)) (bytes_zskip k data BD) E) as (used & left & E1 & IN). exists (zfirst k data ++ used), left. split; [rewrite <- app_assoc, <- E1; exact SPL|]. rewrite app_assoc. exact IN.
  - change (dres_code DNeedOut =? DIVANS_FAILURE) with false in E. change (dres_code DNeedOut =? DIVANS_NEEDS_MORE_INPUT) with false in E. change (dres_code DNeedOut =? DIVANS_SUCCESS) with false in E. cbn [orb andb] in E.
    destruct (push_vec ret _) as [ret'|]; [|discriminate E].
    destruct (IH d' (X ++ zfirst k data) (zskip k data) buf' ret' v (ID ltac:(discriminate)) (bytes_zskip k data BD) E) as (used & left & E1 & IN). exists (zfirst k data ++ used), left. split; [rewrite <- app_assoc, <- E1; exact SPL|]. rewrite app_assoc. exact IN.
  - change (dres_code DFail =? DIVANS_FAILURE) with true in E. cbn [orb] in E. destruct (m_free _ _ _ _); discriminate E.
Qed.
Theorem C77_damage : forall dict wl D n fuel data buf v, bytes data -> decompress dict wl D n fuel (Alone decompressor_new) data buf = XDone v ->
  exists used left, data = used ++ left /\ intact false used.
Proof. intros dict wl D n fuel data buf v B E. exact (decode_checked dict wl D fuel n decompressor_new [] data buf new_vec v (dinv_new false) B E). Qed.
Print Assumptions C77_damage.
